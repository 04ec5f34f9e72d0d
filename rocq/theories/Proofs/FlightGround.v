(* C108: the first position may come from a pair of messages on the ground, and a place of the same quarter of the world. *)
From Verif.Proofs Require Import Tac.
From Verif.Spec Require Import Altitude Floats Velocity Adsb AdsbMessages Squitter.
From Verif.Gen Require bds05 bds06 modes_messages.
From Verif.Model Require Import Crc ModesReader AdsbReader Geo.
From Verif.Proofs Require Import AdsbApi Squitter.
From Coq Require Import Reals Lra Psatz List.
From Flocq Require Import Core.
From Verif.Spec Require Import Binary64 Cpr Geodesy MathLib ZoneTable Precise Sent Flight.
From Verif.Proofs Require Import FloatR GeoReals CprGlobal CprLocal ZonesGrid Everywhere Ground EndToEnd Flight.
Local Open Scope R_scope.

Theorem tracked_from_ground : forall m version nicA nicC icao even odd frame0 frame1 (latest : bool) x0 r y0 s pos frames last,
  sharp m -> (0 <= version <= 2)%Z ->
  r_ground even = true -> r_ground odd = true -> r_odd even = false -> r_odd odd = true -> sends icao even frame0 -> sends icao odd frame1 -> r_zones even = r_zones odd ->
  Rabs (r_lat even - r_lat odd) <= 0.0126 -> short_move 90 (r_zones even) (r_lon even) (r_lon odd) ->
  fl x0 r -> (0 <= r_lat even /\ 0 <= r_lat odd /\ 0 <= r \/ r_lat even <= -0.0001 /\ r_lat odd <= -0.0001 /\ r < 0) ->
  fl y0 s -> Rabs (r_lon (if latest then even else odd)) <= 179.999 -> Rabs (r_lon (if latest then even else odd) - s) <= 44.99 ->
  (exists p q, received version nicA nicC frame0 icao (ASurface p) /\ received version nicA nicC frame1 icao (ASurface q) /\
    GetCPRSurfaceGlobalPosition (floats m)
      (bds06.SurfacePosition_EncodedLatitude (surface_part p)) (bds06.SurfacePosition_EncodedLongitude (surface_part p))
      (bds06.SurfacePosition_EncodedLatitude (surface_part q)) (bds06.SurfacePosition_EncodedLongitude (surface_part q)) latest x0 y0 = Ok pos) ->
  heard icao (if latest then even else odd) frames last ->
  located 0 (track m version nicA nicC icao pos frames) last.
Proof.
  intros m v a c icao even odd f0 f1 latest x0 rr y0 ss pos frames last Sh Hv G0 G1 O0 O1 S0 S1 N M1 M2 Fx Hh Fy Hl Hs (p & q & (d & R & C & Q) & (d' & R' & C' & Q') & G) H.
  unfold sends in S0, S1. rewrite G0 in S0. rewrite G1 in S1.
  destruct S0 as (B0 & L0 & Z0 & ca & tc & mv & tv & tr & t & Ht & S0).
  destruct S1 as (B1 & L1 & Z1 & ca' & tc' & mv' & tv' & tr' & t' & Ht' & S1).
  rewrite O0 in S0, Z0, L0. rewrite O1 in S1, Z1, L1.
  destruct (surface_received v a c _ _ _ _ _ _ _ _ _ _ _ Hv Ht S0) as (p0 & (d0 & R0 & C0 & Q0) & _ & _ & _ & _ & _ & _ & Lp & Gp).
  destruct (surface_received v a c _ _ _ _ _ _ _ _ _ _ _ Hv Ht' S1) as (q0 & (d1 & R1 & C1 & Q1) & _ & _ & _ & _ & _ & _ & Lq & Gq).
  rewrite R in R0. injection R0 as <-. rewrite Q in Q0. injection Q0 as <-.
  rewrite R' in R1. injection R1 as <-. rewrite Q' in Q1. injection Q1 as <-.
  rewrite Lp, Gp, Lq, Gq in G.
  assert (Cap : r_lat even <= 89.99 /\ r_lat odd <= 89.99).
  { destruct (sent_ground_zones false _ B0) as (_ & _ & Nr0 & _). destruct (sent_ground_zones true _ B1) as (_ & _ & Nr1 & _).
    destruct L0 as [_ L0]. destruct L1 as [_ L1]. apply Rabs_le_inv in Nr0, Nr1, L0, L1. unfold half_step, latitude_zones in *. lra. }
  assert (EL : r_lon (if latest then even else odd) = (if latest then r_lon even else r_lon odd)) by (destruct latest; reflexivity).
  rewrite EL in Hl, Hs.
  assert (Hlat : 0 <= r_lat even <= 89.99 /\ 0 <= r_lat odd <= 89.99 /\ 0 <= rr \/ -90 <= r_lat even <= -0.0001 /\ -90 <= r_lat odd <= -0.0001 /\ rr < 0).
  { destruct Hh as [(X & Y & W)|(X & Y & W)]; [left|right]; lra. }
  pose proof (surface_pair_everywhere m _ (r_lon even) _ (r_lon odd) x0 rr y0 ss _ _ latest Sh L0 L1 Z0 Z1 Hlat Hl Fx Fy Hs M1 (fun _ => M2)) as P.
  cbv zeta in P. rewrite N, Z.eqb_refl in P. rewrite N in G. destruct P as (x & y & u & w & P & Fu & Eu & Fw & Ew).
  rewrite G in P. injection P as ->.
  set (first := if latest then even else odd) in *.
  assert (First : r_odd first = negb latest /\ r_lat first = (if latest then r_lat even else r_lat odd) /\
                  r_lon first = (if latest then r_lon even else r_lon odd) /\ r_zones first = r_zones odd /\ r_turn first = 90 /\
                  -90 <= r_lat first <= 90 /\ zones_at (sent_ground_latitude (r_odd first) (r_lat first)) (r_zones first)).
  { unfold first. destruct latest; unfold r_turn; rewrite ?O0, ?O1, ?N, ?G0, ?G1; (do 5 (split; [reflexivity|])); (split; [assumption|]); [rewrite <- N; exact Z0|exact Z1]. }
  destruct First as (F1 & F2 & F3 & F4 & FT & F5 & F6). rewrite <- F2 in Eu. rewrite <- F3, <- F4, <- F1 in Ew. rewrite <- F1 in Eu. rewrite <- F3 in Hl.
  apply tracked with first; auto.
  - exact (zones_range _ _ F6).
  - rewrite Rmult_0_r, Rplus_0_r. lra.
  - exists u, w. cbn [fst snd]. rewrite FT. split; [exact Fu|]. split; [lra|]. split; [exact Fw|].
    rewrite Rmult_0_r, Rplus_0_r. exact Ew.
Qed.

(* at the gate, a pair; then a report in the air *)
Example from_the_gate : exists m x0 y0 even odd frame0 frame1 p q pos frame last,
  sharp m /\ r_ground even = true /\ r_ground odd = true /\ r_odd even = false /\ r_odd odd = true /\
  sends 0x40621D even frame0 /\ sends 0x40621D odd frame1 /\ r_zones even = r_zones odd /\
  Rabs (r_lat even - r_lat odd) <= 0.0126 /\ short_move 90 (r_zones even) (r_lon even) (r_lon odd) /\
  fl x0 46 /\ 0 <= r_lat even /\ 0 <= r_lat odd /\ fl y0 9 /\ Rabs (r_lon odd) <= 179.999 /\ Rabs (r_lon odd - 9) <= 44.99 /\
  received 2 false false frame0 0x40621D (ASurface p) /\ received 2 false false frame1 0x40621D (ASurface q) /\
  GetCPRSurfaceGlobalPosition (floats m)
    (bds06.SurfacePosition_EncodedLatitude (surface_part p)) (bds06.SurfacePosition_EncodedLongitude (surface_part p))
    (bds06.SurfacePosition_EncodedLatitude (surface_part q)) (bds06.SurfacePosition_EncodedLongitude (surface_part q)) false x0 y0 = Ok pos /\
  heard 0x40621D odd [frame] last /\ r_ground last = false /\ r_lat last = 45.6.
Proof.
  destruct sharp_exists as [m Sh].
  assert (A : forall x, 45 <= x <= 46 -> 1 / 10000 <= Rabs x <= 86.9998) by (intros x X; rewrite Rabs_pos_eq; lra).
  destruct (can_send_ground 0x40621D false 45 7.7 ltac:(lia) ltac:(apply A; lra)) as (n0 & f0 & S0).
  destruct (can_send_ground 0x40621D true 45 7.7 ltac:(lia) ltac:(apply A; lra)) as (n1 & f1 & S1).
  destruct (can_send 0x40621D true 45.6 8 ltac:(lia) ltac:(lra)) as (n2 & f2 & S2).
  pose proof (proj2 (sends_range _ _ _ S0)) as N0. pose proof (proj2 (sends_range _ _ _ S2)) as N2. cbn [r_zones] in N0, N2.
  assert (K : forall odd n, zones_at (sent_ground_latitude odd 45) n -> n = 42%Z).
  { intros odd n Z. destruct (sent_ground_zones odd 45 ltac:(lra)) as (_ & U & Nr & _). apply U; [exact Z|].
    apply CprAccurate.clear_45. eapply Rle_trans; [exact Nr|]. unfold half_step. destruct odd; cbn [latitude_zones]; lra. }
  assert (E0 : n0 = 42%Z) by (apply (K false); exact (proj1 (proj2 (proj2 S0)))).
  assert (E1 : n1 = 42%Z) by (apply (K true); exact (proj1 (proj2 (proj2 S1)))). subst n0 n1.
  assert (SM : short_move 90 42 7.7 7.7) by (right; exists 0%Z; apply Rabs_le; change (42 * (42 - 1))%Z with 1722%Z; lra).
  pose proof S0 as S0'. pose proof S1 as S1'. unfold sends in S0', S1'. cbn [r_ground r_lat r_lon r_odd r_zones] in S0', S1'.
  destruct S0' as (B0 & L0 & Z0 & ca & tc & mv & tv & tr & t & Ht & S0').
  destruct S1' as (B1 & L1 & Z1 & ca' & tc' & mv' & tv' & tr' & t' & Ht' & S1').
  destruct (surface_received 2 false false _ _ _ _ _ _ _ _ _ _ _ ltac:(lia) Ht S0') as (p & Rp & _ & _ & _ & _ & _ & _ & Lp & Gp).
  destruct (surface_received 2 false false _ _ _ _ _ _ _ _ _ _ _ ltac:(lia) Ht' S1') as (q & Rq & _ & _ & _ & _ & _ & _ & Lq & Gq).
  assert (Fx : fl (f64_of_Z 46) 46) by (apply fl_of_Z; lia). assert (Fy : fl (f64_of_Z 9) 9) by (apply fl_of_Z; lia).
  pose proof (surface_pair_everywhere m 45 7.7 45 7.7 _ 46 _ 9 42 42 false Sh L0 L1 Z0 Z1 ltac:(left; lra) ltac:(apply Rabs_le; lra) Fx Fy
    ltac:(apply Rabs_le; lra) ltac:(apply Rabs_le; lra) (fun _ => SM)) as P.
  cbv zeta in P. rewrite Z.eqb_refl in P. destruct P as (x & y & u & w & P & _).
  exists m, (f64_of_Z 46), (f64_of_Z 9), {| r_ground := true; r_odd := false; r_lat := 45; r_lon := 7.7; r_zones := 42 |},
    {| r_ground := true; r_odd := true; r_lat := 45; r_lon := 7.7; r_zones := 42 |}, f0, f1, p, q, (x, y), f2,
    {| r_ground := false; r_odd := true; r_lat := 45.6; r_lon := 8; r_zones := n2 |}.
  split; [exact Sh|]. do 4 (split; [reflexivity|]). split; [exact S0|]. split; [exact S1|]. split; [reflexivity|].
  cbn [r_ground r_lat r_lon r_odd r_zones].
  split; [apply Rabs_le; lra|]. split; [exact SM|]. split; [exact Fx|]. split; [lra|]. split; [lra|]. split; [exact Fy|].
  split; [apply Rabs_le; lra|]. split; [apply Rabs_le; lra|]. split; [exact Rp|]. split; [exact Rq|].
  split; [rewrite Lp, Gp, Lq, Gq; exact P|]. split; [|split; reflexivity].
  change [f2] with ([] ++ [f2]). refine (heard_report _ _ _ _ _ _ (heard_nothing _ _) S2 _).
  assert (W : 360 / 60 <= 360 / IZR (longitude_zones n2 true)).
  { apply Rmult_le_compat_l; [lra|]. apply Rinv_le_contravar; [apply IZR_lt|apply IZR_le]; unfold longitude_zones; lia. }
  repeat split; cbn [r_ground r_odd r_lat r_lon r_zones r_turn]; apply Rabs_le; lra.
Qed.
