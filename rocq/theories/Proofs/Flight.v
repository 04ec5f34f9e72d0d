(* C108: an aircraft is followed over any history of frames. *)
From Verif.Proofs Require Import Tac.
From Verif.Spec Require Import Altitude ModeS Crc Floats Velocity Adsb AdsbMessages Squitter Reply Lossless Noise.
From Verif.Gen Require modes_messages bds05 bds06.
From Verif.Model Require Import Crc ModesReader AdsbReader Geo.
From Verif.Proofs Require Import Octets ModeSReader AdsbApi Squitter.
From Verif.Proofs Require Lossless Noise Missing.
From Coq Require Import Reals Lra Psatz List.
From Flocq Require Import Core.
From Verif.Spec Require Import Binary64 Cpr Geodesy MathLib ZoneTable Precise Sent Flight.
From Verif.Proofs Require Import FloatR FloatOps CprFloat CprReal CprGlobal CprLocal CprAccurate ZonesGrid GeoReals Everywhere EverywhereApi Ground EndToEnd.
Local Open Scope R_scope.

Lemma long_17 : forall frame d, bytes frame -> ReadMessage frame = Ok (MDF17 d) ->
  len frame = 14%Z /\ bits 1 5 frame = 17%Z /\ modes_messages.MessageDF17_MessageExtendedSquitter d = octets 5 11 frame.
Proof.
  intros frame d Hb R. destruct (message_kind frame _ Hb R) as [_ K]. cbv iota zeta in K.
  destruct (proj1 (read_message_accepts frame Hb)) as [[[L F]|[L _]] _]; [eauto| |].
  - exfalso. unfold short_format in F. lia.
  - split; [exact L|]. split; [exact K|]. rewrite df17_layout in R by assumption. injection R as <-. reflexivity.
Qed.

(* a frame which is not a position of this aircraft does not move it *)
Lemma receive_other : forall m v a c icao pos frame, other icao frame -> receive m v a c icao pos frame = pos.
Proof.
  intros m v a c icao pos frame [Hb O]. unfold receive.
  destruct (ReadMessage frame) as [[]| |] eqn:R; try reflexivity.
  destruct (CheckCRC _ frame [] []) as [address| |] eqn:C; try reflexivity.
  destruct (Z.eqb_spec address icao) as [->|]; [|reflexivity].
  destruct (long_17 frame _ Hb R) as (L & _ & X). rewrite X.
  destruct (ReadADSBMessage v a c (octets 5 11 frame)) as [[]| |] eqn:Q; try reflexivity.
  all: exfalso; destruct (proj1 (Lossless.squitter_iff frame icao Hb)) as (ca & payload & S); [eauto|]; destruct (O ca payload S) as [Oa Os];
    destruct (adsb_kind v a c _ _ (octets_bytes 5 11 frame Hb) Q) as [_ K]; cbn [kind] in K.
  - inversion K as [| | |T| | | | |]. rewrite (bits_octets 5 11 frame 1 5) in T by (assumption || lia). exact (Os T).
  - inversion K as [| | | |T| | | |]. rewrite (bits_octets 5 11 frame 1 5) in T by (assumption || lia). specialize (Oa T).
    assert (L' : len (octets 5 11 frame) = 7%Z) by (rewrite octets_len by lia; reflexivity).
    change (bits 41 52 frame) with (bits (8 * (5 - 1) + 9) (8 * (5 - 1) + 20) frame) in Oa.
    rewrite <- (bits_octets 5 11 frame 9 20) in Oa by (assumption || lia).
    destruct (airborne_bad_altitude v a c _ (octets_bytes 5 11 frame Hb) L' K (fun alt => Missing.no_altitude12 _ alt L' Oa)) as (e & E).
    rewrite E in Q. discriminate Q.
Qed.

Lemma half_steps : forall r, (1 <= r_zones r <= 59)%Z -> 0 <= half_step (r_turn r) (longitude_zones (r_zones r) (r_odd r)) <= 1 / 700.
Proof.
  intros r Hn. unfold half_step. set (z := longitude_zones (r_zones r) (r_odd r)).
  assert (1 <= IZR z) by (apply IZR_le; unfold z, longitude_zones; destruct (r_odd r); lia).
  assert (T : 0 <= r_turn r <= 360) by (unfold r_turn; destruct (r_ground r); lra).
  assert (0 <= r_turn r / IZR z <= 360); [|lra].
  split; [apply Rmult_le_pos; [lra|apply Rlt_le, Rinv_0_lt_compat; lra]|].
  apply Rmult_le_reg_r with (IZR z); [lra|]. unfold Rdiv. rewrite Rmult_assoc, Rinv_l by lra. nra.
Qed.

Lemma half_steps_lat : forall r, 0 <= half_step (r_turn r) (latitude_zones (r_odd r)) <= 1 / 40000.
Proof. intros r. unfold half_step, latitude_zones, r_turn. destruct (r_odd r), (r_ground r); lra. Qed.

Lemma sends_range : forall icao r frame, sends icao r frame -> -90 <= r_lat r <= 90 /\ (1 <= r_zones r <= 59)%Z.
Proof.
  intros icao r frame S. unfold sends in S. destruct (r_ground r).
  - destruct S as (B & _ & Z & _). split; [exact B|exact (zones_range _ _ Z)].
  - destruct S as (B & Z & _). split; [exact B|exact (zones_range _ _ Z)].
Qed.

(* one report, and a reference near enough *)
Theorem receive_near : forall m v a c icao turns x y u w r frame, sharp m -> (0 <= v <= 2)%Z ->
  fl x u -> Rabs u <= 100 -> fl y w -> Rabs w <= 400 -> sends icao r frame ->
  Rabs (r_lat r - u) <= (if r_ground r then 0.74 else 2.99) + 1 / 10000 ->
  Rabs (r_lon r + 360 * IZR turns - w) <= r_turn r / IZR (longitude_zones (r_zones r) (r_odd r)) / 2 - 1 / 500 ->
  located turns (receive m v a c icao (x, y) frame) r.
Proof.
  intros m v a c icao turns x y u w [g odd lat lon n] frame Sh Hv Fu Bu Fw Bw S D1 D2.
  pose proof (sends_range _ _ _ S) as [B Hn]. unfold located, r_turn in *. unfold sends in S. cbn [r_ground r_odd r_lat r_lon r_zones] in *.
  assert (D2' : Rabs (lon - w - 360 * IZR (- turns)) <= (if g then 90 else 360) / IZR (longitude_zones n odd) / 2 - 1 / 500).
  { rewrite opp_IZR. replace (lon - w - 360 * - IZR turns) with (lon + 360 * IZR turns - w) by ring. exact D2. }
  assert (FO : (flag odd =? 1)%Z = odd) by (destruct odd; reflexivity).
  assert (Hz : (1 <= longitude_zones n odd <= 60)%Z) by (unfold longitude_zones; destruct odd; lia).
  assert (Hz' : (1 <= latitude_zones odd <= 60)%Z) by (destruct odd; cbn; lia).
  destruct g.
  - destruct S as (_ & Gl & Z & ca & tc & mv & tv & tr & t & Ht & S).
    destruct (surface_received v a c _ _ _ _ _ _ _ _ _ _ _ Hv Ht S) as (p & (d & R & Cr & Q) & _ & _ & _ & _ & _ & Fp & Lp & Gp).
    unfold receive. rewrite R, Cr, Z.eqb_refl, Q, Lp, Gp, Fp, FO. cbn [fst snd].
    destruct (sent_ground odd lat) as (T & kl & S0 & El & Ck & Rk). rewrite S0 in Z, Gl.
    destruct (encoded_19 (360 / IZR (longitude_zones n odd)) lon) as (kL & EL); [apply zone_width; lia|].
    rewrite quarter in EL by lia.
    assert (ZL : 90 / IZR (latitude_zones odd) / 2 >= 0.75) by (unfold latitude_zones; destruct odd; lra).
    destruct (local_core_q m 90 (lit (floats m) 90 1) lat lon x u y w odd n (surface_latitude odd lat) (surface_longitude n odd lon) kl kL (- turns))
      as (X & Y & u' & w' & Res & Fu' & Eu' & Fw' & Ew'); auto.
    + cbn [lit floats]. flc.
    + intros x' v' Fx' _ _ G' Ev _ _. unfold G' in *. rewrite Rk in Ev.
      apply (zones_ground m (latitude_zones odd) T v' x' n); auto. destruct odd; cbn; auto.
    + lra.
    + unfold GetCPRSurfaceLocalPosition. rewrite Res. exists u', w'. cbn [fst snd].
      split; [exact Fu'|]. split; [exact Eu'|]. split; [exact Fw'|].
      rewrite opp_IZR in Ew'. replace (w' - (lon + 360 * IZR turns)) with (w' - lon + 360 * - IZR turns) by ring. exact Ew'.
  - destruct S as (_ & Z & ca & tc & ss & sa & feet & alt & t & Ht & A & S).
    destruct (airborne_received v a c _ _ _ _ _ _ _ _ _ _ _ _ Hv Ht A S) as (p & (d & R & C & Q) & _ & _ & _ & _ & _ & Fp & Lp & Gp).
    unfold receive. rewrite R, C, Z.eqb_refl, Q, Lp, Gp, Fp, FO. cbn [fst snd].
    destruct (sent_grid odd lat B) as (T & k & S0 & G & E & Ck & Rk). rewrite S0 in Z.
    destruct (encoded_17 (360 / IZR (longitude_zones n odd)) lon) as (kL & EL); [apply zone_width; lia|].
    assert (ZL : 360 / IZR (latitude_zones odd) / 2 >= 3) by (unfold latitude_zones; destruct odd; lra).
    destruct (local_core_q m 360 (lit (floats m) 360 1) lat lon x u y w odd n (airborne_latitude odd lat) (airborne_longitude n odd lon) k kL (- turns))
      as (X & Y & u' & w' & Res & Fu' & Eu' & Fw' & Ew'); auto.
    + cbn [lit floats]. flc.
    + intros x' v' Fx' _ _ G' Ev V0 V60. unfold G' in *. rewrite Rk in Ev, V60. rewrite Ck in V0.
      apply (zones_grid m (latitude_zones odd) T v' x' n); auto. destruct odd; cbn; auto.
    + lra.
    + unfold GetCPRAirborneLocalPosition. rewrite Res. exists u', w'. cbn [fst snd].
      split; [exact Fu'|]. split; [exact Eu'|]. split; [exact Fw'|].
      rewrite opp_IZR in Ew'. replace (w' - (lon + 360 * IZR turns)) with (w' - lon + 360 * - IZR turns) by ring. exact Ew'.
Qed.

Lemma receive_report : forall m v a c icao turns pos last next frame, sharp m -> (0 <= v <= 2)%Z ->
  located turns pos last -> -90 <= r_lat last <= 90 -> (1 <= r_zones last <= 59)%Z -> Rabs (r_lon last + 360 * IZR turns) <= 390 ->
  sends icao next frame -> near (r_lat last) (r_lon last) next ->
  located turns (receive m v a c icao pos frame) next.
Proof.
  intros m v a c icao turns [x y] last next frame Sh Hv (u & w & Fu & Eu & Fw & Ew) Bl Bn BL S [D1 D2]. cbn [fst snd] in *.
  pose proof (half_steps _ Bn) as H1. pose proof (half_steps_lat last) as H2.
  apply Rabs_le_inv in Eu, Ew, D1, D2, BL.
  apply receive_near with u w; auto; apply Rabs_le; lra.
Qed.

(* the first report of the aircraft is known, up to a turn of the circle; so is its last one, whatever was heard between them *)
Theorem tracked : forall m version nicA nicC icao turns start first frames last,
  sharp m -> (0 <= version <= 2)%Z ->
  -90 <= r_lat first <= 90 -> (1 <= r_zones first <= 59)%Z -> Rabs (r_lon first + 360 * IZR turns) <= 181 ->
  located turns start first -> heard icao first frames last ->
  located turns (track m version nicA nicC icao start frames) last.
Proof.
  intros m v a c icao turns start first frames last Sh Hv B Bn BL L0 H.
  enough (J : located turns (track m v a c icao start frames) last /\ -90 <= r_lat last <= 90 /\ (1 <= r_zones last <= 59)%Z /\
              Rabs (r_lon last - r_lon first) <= 200) by apply J.
  induction H as [|frames frame last H (L & Bl & Bz & Bo) O|frames frame last next H (L & Bl & Bz & Bo) S (F1 & F2)].
  - split; [exact L0|]. split; [exact B|]. split; [exact Bn|]. rewrite Rminus_diag_eq, Rabs_R0 by reflexivity. lra.
  - unfold track. rewrite fold_left_app. cbn [fold_left]. rewrite receive_other by exact O. auto.
  - unfold track. rewrite fold_left_app. cbn [fold_left]. pose proof (sends_range _ _ _ S) as [S1 S2]. split; [|auto].
    apply receive_report with last; auto. apply Rabs_le_inv in BL, Bo. apply Rabs_le. lra.
Qed.

(* from a known place on: the first position is that of the first report, read with this place as a reference *)
Theorem tracked_from_place : forall m version nicA nicC icao x lat y lon first frame frames last,
  sharp m -> (0 <= version <= 2)%Z -> fl x lat -> Rabs lat <= 90 -> fl y lon -> Rabs lon <= 180 ->
  sends icao first frame -> near lat lon first -> Rabs (r_lon first) <= 181 -> heard icao first frames last ->
  located 0 (track m version nicA nicC icao (x, y) (frame :: frames)) last.
Proof.
  intros m v a c icao x lat y lon first frame frames last Sh Hv Fx Bx Fy By S [N1 N2] BL H.
  pose proof (sends_range _ _ _ S) as [B Bn].
  unfold track. cbn [fold_left]. apply (tracked m v a c icao 0 _ first); auto.
  - rewrite Rmult_0_r, Rplus_0_r. exact BL.
  - apply Rabs_le_inv in N1, N2. apply receive_near with lat lon; auto; rewrite ?Rmult_0_r, ?Rplus_0_r; try lra; apply Rabs_le; lra.
Qed.

(* from a pair of squitters on: the first position is that of the pair *)
Theorem tracked_from_pair : forall m version nicA nicC icao even odd frame0 frame1 latest pos frames last,
  sharp m -> (0 <= version <= 2)%Z ->
  r_ground even = false -> r_ground odd = false -> r_odd even = false -> r_odd odd = true -> sends icao even frame0 -> sends icao odd frame1 -> r_zones even = r_zones odd ->
  Rabs (r_lat even - r_lat odd) <= 0.0507 -> short_move 360 (r_zones even) (r_lon even) (r_lon odd) ->
  (exists p q, received version nicA nicC frame0 icao (AAirborne p) /\ received version nicA nicC frame1 icao (AAirborne q) /\
    GetCPRAirborneGlobalPosition (floats m)
      (bds05.AirbornePosition_EncodedLatitude (airborne_part p)) (bds05.AirbornePosition_EncodedLongitude (airborne_part p))
      (bds05.AirbornePosition_EncodedLatitude (airborne_part q)) (bds05.AirbornePosition_EncodedLongitude (airborne_part q)) latest = Ok pos) ->
  heard icao (if latest then even else odd) frames last ->
  exists turns, located turns (track m version nicA nicC icao pos frames) last.
Proof.
  intros m v a c icao even odd f0 f1 latest pos frames last Sh Hv G0 G1 O0 O1 S0 S1 N M1 M2 (p & q & (d & R & C & Q) & (d' & R' & C' & Q') & G) H.
  unfold sends in S0, S1. rewrite G0 in S0. rewrite G1 in S1.
  destruct S0 as (B0 & Z0 & ca & tc & ss & sa & feet & alt & t & Ht & A & S0).
  destruct S1 as (B1 & Z1 & ca' & tc' & ss' & sa' & feet' & alt' & t' & Ht' & A' & S1).
  rewrite O0 in S0, Z0. rewrite O1 in S1, Z1.
  destruct (airborne_received v a c _ _ _ _ _ _ _ _ _ _ _ _ Hv Ht A S0) as (p0 & (d0 & R0 & C0 & Q0) & _ & _ & _ & _ & _ & _ & Lp & Gp).
  destruct (airborne_received v a c _ _ _ _ _ _ _ _ _ _ _ _ Hv Ht' A' S1) as (q0 & (d1 & R1 & C1 & Q1) & _ & _ & _ & _ & _ & _ & Lq & Gq).
  rewrite R in R0. injection R0 as <-. rewrite Q in Q0. injection Q0 as <-.
  rewrite R' in R1. injection R1 as <-. rewrite Q' in Q1. injection Q1 as <-.
  rewrite Lp, Gp, Lq, Gq in G.
  pose proof (airborne_pair_everywhere m _ (r_lon even) _ (r_lon odd) _ _ latest Sh B0 B1 Z0 Z1 M1 (fun _ => M2)) as P.
  cbv zeta in P. rewrite N, Z.eqb_refl in P. rewrite N in G. destruct P as (x & y & u & w & P & Fu & Eu & Fw & Bw & [k Ek]).
  rewrite G in P. injection P as ->.
  set (first := if latest then even else odd) in *.
  assert (First : r_odd first = negb latest /\ r_lat first = (if latest then r_lat even else r_lat odd) /\
                  r_lon first = (if latest then r_lon even else r_lon odd) /\ r_zones first = r_zones odd /\ r_turn first = 360 /\
                  -90 <= r_lat first <= 90 /\ zones_at (sent_latitude (r_odd first) (r_lat first)) (r_zones first)).
  { unfold first. destruct latest; unfold r_turn; rewrite ?O0, ?O1, ?N, ?G0, ?G1; (do 5 (split; [reflexivity|])); (split; [assumption|]); [rewrite <- N; exact Z0|exact Z1]. }
  destruct First as (F1 & F2 & F3 & F4 & FT & F5 & F6). rewrite <- F2 in Eu. rewrite <- F3, <- F4, <- F1 in Ek. rewrite <- F1 in Eu.
  exists k. apply tracked with first; auto.
  - exact (zones_range _ _ F6).
  - pose proof (half_steps first (zones_range _ _ F6)) as HS. rewrite FT in HS. apply Rabs_le_inv in Ek. apply Rabs_le. lra.
  - exists u, w. cbn [fst snd]. rewrite FT. split; [exact Fu|]. split; [lra|]. split; [exact Fw|].
    replace (w - (r_lon first + 360 * IZR k)) with (w - r_lon first - 360 * IZR k) by ring. lra.
Qed.

(* ---- what other frames may be ---- *)
Lemma squitter_17 : forall ca icao payload frame, Squitter ca icao payload frame -> bytes frame /\ bits 1 5 frame = 17%Z.
Proof.
  intros ca icao payload frame S. assert (Hb : bytes frame) by (destruct S as (_ & _ & _ & p & _ & ->); apply message_bytes).
  split; [exact Hb|]. destruct (squitter_received _ _ _ _ S) as (_ & _ & d & R & _). apply (long_17 frame d Hb R).
Qed.

Theorem other_address : forall ca icao icao' payload frame, Squitter ca icao' payload frame -> icao' <> icao -> other icao frame.
Proof.
  intros ca icao icao' payload frame S N. split; [apply (squitter_17 _ _ _ _ S)|]. intros ca' payload' S'. exfalso.
  destruct (squitter_received _ _ _ _ S) as (_ & _ & d & R & C & _). destruct (squitter_received _ _ _ _ S') as (_ & _ & d' & R' & C' & _).
  rewrite R in R'. injection R' as <-. rewrite C in C'. injection C' as E. exact (N E).
Qed.

Theorem other_format : forall icao frame, bytes frame -> bits 1 5 frame <> 17%Z -> other icao frame.
Proof. intros icao frame Hb N. split; [exact Hb|]. intros ca payload S. exfalso. apply N, (squitter_17 _ _ _ _ S). Qed.

Theorem other_type : forall icao ca tc rest frame, Squitter ca icao ((5, tc) :: rest)%Z frame -> ~ airborne_type tc -> ~ surface_type tc -> other icao frame.
Proof.
  intros icao ca tc rest frame S N N2. destruct (squitter_17 _ _ _ _ S) as [Hb _]. split; [exact Hb|]. intros ca' payload' _.
  destruct (squitter_received _ _ _ _ S) as (_ & _ & d & R & _ & X). destruct (long_17 frame d Hb R) as (L & _ & X').
  rewrite X' in X. change (33)%Z with (8 * (5 - 1) + 1)%Z. change 37%Z with (8 * (5 - 1) + 5)%Z.
  rewrite <- (bits_octets 5 11 frame 1 5) by (assumption || lia). rewrite X.
  destruct S as (_ & F & W & _). rewrite (bits_field _ 0 1 1 5 7 tc F); [split; [intros T; contradiction|assumption]|exact W|reflexivity|reflexivity|].
  cbn. lia.
Qed.

Theorem other_without_altitude : forall icao ca tc status antenna time odd lat lon frame, airborne_type tc ->
  Squitter ca icao (airborne_payload tc status antenna [(12, 0)]%Z time odd lat lon) frame -> other icao frame.
Proof.
  intros icao ca tc ss sa t odd la lo frame T S. destruct (squitter_17 _ _ _ _ S) as [Hb _]. split; [exact Hb|]. intros ca' payload' _.
  destruct (squitter_received _ _ _ _ S) as (_ & _ & d & R & _ & X). destruct (long_17 frame d Hb R) as (L & _ & X').
  rewrite X' in X. change (33)%Z with (8 * (5 - 1) + 1)%Z. change 37%Z with (8 * (5 - 1) + 5)%Z.
  change (41)%Z with (8 * (5 - 1) + 9)%Z. change 52%Z with (8 * (5 - 1) + 20)%Z.
  rewrite <- (bits_octets 5 11 frame 1 5), <- (bits_octets 5 11 frame 9 20) by (assumption || lia). rewrite X.
  destruct S as (_ & F & _ & _).
  assert (B1 : bits 1 5 (message (airborne_payload tc ss sa [(12, 0)%Z] t odd la lo)) = tc).
  { apply (bits_field _ 0 1 1 5 7 tc F); reflexivity || (cbn; lia). }
  assert (B2 : bits 9 20 (message (airborne_payload tc ss sa [(12, 0)%Z] t odd la lo)) = 0%Z).
  { apply (bits_field _ 3 1 9 20 7 0%Z F); reflexivity || (cbn; lia). }
  split; [intros _; exact B2|]. rewrite B1. unfold airborne_type, surface_type in *. lia.
Qed.

Theorem other_damaged : forall ca icao icao' payload sent frame, Squitter ca icao' payload sent -> damaged sent frame -> other icao frame.
Proof.
  intros ca icao icao' payload sent frame S D. split; [apply D|]. intros ca' payload' S'. exfalso.
  destruct (squitter_17 _ _ _ _ S') as [Hb B]. destruct (squitter_received _ _ _ _ S') as (_ & _ & d & R & C & _).
  destruct (Noise.squitter_damaged _ _ _ _ _ S D (or_introl B)) as (m & R' & E). rewrite R in R'. injection R' as <-.
  destruct (E [] []) as [e E']. rewrite C in E'. discriminate E'.
Qed.

(* ---- the hypotheses can be met ---- *)

(* every position can be sent *)
Theorem can_send : forall icao odd lat lon, (0 <= icao < 2 ^ 24)%Z -> -90 <= lat <= 90 ->
  exists n frame, sends icao {| r_ground := false; r_odd := odd; r_lat := lat; r_lon := lon; r_zones := n |} frame.
Proof.
  intros icao odd lat lon I B. destruct (sent_zones odd lat B) as ((n & Z) & _). exists n.
  assert (Fh : fits (header 5 icao)) by (repeat (constructor; [cbn; lia|]); constructor).
  destruct (squitter_exists 5 icao (airborne_payload 11 0 0 [(7, 1560 / 16); (1, 1); (4, 1560 mod 16)]%Z 0 odd (airborne_latitude odd lat) (airborne_longitude n odd lon)))
    as [frame S]; [exact Fh| |reflexivity|].
  { unfold airborne_payload. cbn [app]. do 10 one_fits. constructor. }
  exists frame. split; [exact B|]. split; [exact Z|]. exists 5%Z, 11%Z, 0%Z, 0%Z, (25 * 1560 - 1000)%Z, [(7, 1560 / 16); (1, 1); (4, 1560 mod 16)]%Z, 0%Z.
  split; [left; lia|]. split; [apply (altitude_25 1560); lia|]. exact S.
Qed.

(* over the 180th meridian, with a noise and the squitter of another aircraft between the reports: the longitude goes on
   above 180 degrees *)
Example antimeridian : exists start first frames last,
  r_lon first = 179 /\ r_lon last = 180.5 /\ r_odd last = true /\ Datatypes.length frames = 4%nat /\
  -90 <= r_lat first <= 90 /\ (1 <= r_zones first <= 59)%Z /\ Rabs (r_lon first + 360 * IZR 0) <= 181 /\
  located 0 start first /\ heard 0x40621D first frames last /\
  forall m version nicA nicC, sharp m -> (0 <= version <= 2)%Z ->
    exists w, fl (snd (track m version nicA nicC 0x40621D start frames)) w /\ 180.49 <= w.
Proof.
  destruct (can_send 0x40621D false 10 179 ltac:(lia) ltac:(lra)) as (n0 & f0 & S0).
  destruct (can_send 0x40621D true 10.5 179.9 ltac:(lia) ltac:(lra)) as (n1 & f1 & S1).
  destruct (can_send 0x40621E true 10.5 179.9 ltac:(lia) ltac:(lra)) as (n2 & f2 & S2).
  destruct (can_send 0x40621D true 11 180.5 ltac:(lia) ltac:(lra)) as (n3 & f3 & S3).
  set (first := {| r_ground := false; r_odd := false; r_lat := 10; r_lon := 179; r_zones := n0 |}) in *.
  set (middle := {| r_ground := false; r_odd := true; r_lat := 10.5; r_lon := 179.9; r_zones := n1 |}) in *.
  set (last := {| r_ground := false; r_odd := true; r_lat := 11; r_lon := 180.5; r_zones := n3 |}) in *.
  pose proof (proj2 (sends_range _ _ _ S0)) as N0. pose proof (proj2 (sends_range _ _ _ S1)) as N1. pose proof (proj2 (sends_range _ _ _ S3)) as N3.
  assert (W : forall n odd, (1 <= n <= 59)%Z -> 3 <= 360 / IZR (longitude_zones n odd) / 2).
  { intros n odd Hn. assert (1 <= IZR (longitude_zones n odd) <= 59) by (split; apply IZR_le; unfold longitude_zones; destruct odd; lia).
    enough (6 <= 360 / IZR (longitude_zones n odd)) by lra.
    apply Rmult_le_reg_r with (IZR (longitude_zones n odd)); [lra|]. unfold Rdiv. rewrite Rmult_assoc, Rinv_l by lra. lra. }
  pose proof (half_steps first N0) as P0. pose proof (half_steps last N3) as P3. pose proof (half_steps_lat first) as P0'.
  assert (L0 : located 0 (f64_of_Z 10, f64_of_Z 179) first).
  { exists 10, 179. cbn [fst snd]. change (r_lat first) with 10. change (r_lon first) with 179. split; [apply fl_of_Z; lia|]. split; [|split; [apply fl_of_Z; lia|]].
    - rewrite Rminus_diag_eq, Rabs_R0 by reflexivity. lra.
    - replace (179 - (179 + 360 * 0)) with 0 by ring. rewrite Rabs_R0. lra. }
  assert (H : heard 0x40621D first (((([] ++ [f1]) ++ [[0x5D; 0x40]%Z]) ++ [f2]) ++ [f3]) last).
  { apply heard_report with middle; [apply heard_other; [apply heard_other; [apply heard_report with first; [constructor|exact S1|]|]|]|exact S3|].
    - repeat split; cbn [r_ground r_odd r_lat r_lon r_zones r_turn first middle]; try (apply Rabs_le; lra). pose proof (W n1 true N1). apply Rabs_le. lra.
    - apply other_format; [apply Forall_cons; [unfold byte; lia|apply Forall_cons; [unfold byte; lia|apply Forall_nil]]|vm_compute; discriminate].
    - unfold sends in S2. cbn [r_ground] in S2. destruct S2 as (_ & _ & ca & tc & ss & sa & feet & alt & t & _ & _ & S2). apply (other_address _ _ _ _ _ S2). discriminate.
    - repeat split; cbn [r_ground r_odd r_lat r_lon r_zones r_turn first middle last]; try (apply Rabs_le; lra). pose proof (W n3 true N3). apply Rabs_le. lra. }
  assert (BL : Rabs (r_lon first + 360 * IZR 0) <= 181) by (cbn [r_lon first]; apply Rabs_le; lra).
  assert (B : -90 <= r_lat first <= 90) by (cbn [r_lat first]; lra).
  exists (f64_of_Z 10, f64_of_Z 179), first, (((([] ++ [f1]) ++ [[0x5D; 0x40]%Z]) ++ [f2]) ++ [f3]), last.
  do 4 (split; [reflexivity|]). split; [exact B|]. split; [exact N0|]. split; [exact BL|]. split; [exact L0|]. split; [exact H|].
  intros m v a c Sh Hv. destruct (tracked m v a c _ 0 _ first _ last Sh Hv B N0 BL L0 H) as (u & w & _ & _ & Fw & Ew).
  exists w. split; [exact Fw|]. change (r_lon last) with 180.5 in Ew. apply Rabs_le_inv in Ew. lra.
Qed.

Theorem can_send_ground : forall icao odd lat lon, (0 <= icao < 2 ^ 24)%Z -> 1 / 10000 <= Rabs lat <= 86.9998 ->
  exists n frame, sends icao {| r_ground := true; r_odd := odd; r_lat := lat; r_lon := lon; r_zones := n |} frame.
Proof.
  intros icao odd lat lon I C.
  assert (B : -90 <= lat <= 90) by (apply Rabs_le_inv; lra).
  destruct (sent_ground_zones odd lat B) as ((n & Z) & _ & _ & Gl). specialize (Gl C). pose proof (zones_range _ _ Z) as Hn.
  assert (Fh : fits (header 5 icao)) by (repeat (constructor; [cbn; lia|]); constructor).
  destruct (squitter_exists 5 icao (surface_payload 7 41 true 0 0 odd (surface_latitude odd lat) (surface_longitude n odd lon)))
    as [frame S]; [exact Fh| |reflexivity|].
  { unfold surface_payload. do 8 one_fits. constructor. }
  exists n, frame. split; [exact B|]. split; [exact Gl|]. split; [exact Z|].
  exists 5%Z, 7%Z, 41%Z, true, 0%Z, 0%Z. split; [unfold surface_type; lia|]. exact S.
Qed.

(* a take-off and a landing, from a known place *)
Example gate_to_gate : exists x y first frame frames last,
  fl x 45 /\ Rabs 45 <= 90 /\ fl y 7 /\ Rabs 7 <= 180 /\
  r_ground first = true /\ r_ground last = true /\ Datatypes.length frames = 2%nat /\
  sends 0x40621D first frame /\ near 45 7 first /\ Rabs (r_lon first) <= 181 /\ heard 0x40621D first frames last.
Proof.
  assert (A : forall x, 45 <= x <= 46 -> 1 / 10000 <= Rabs x <= 86.9998) by (intros x X; rewrite Rabs_pos_eq; lra).
  destruct (can_send_ground 0x40621D false 45 7.7 ltac:(lia) ltac:(apply A; lra)) as (n0 & f0 & S0).
  destruct (can_send 0x40621D true 45.6 8 ltac:(lia) ltac:(lra)) as (n1 & f1 & S1).
  destruct (can_send_ground 0x40621D true 45 7.8 ltac:(lia) ltac:(apply A; lra)) as (n2 & f2 & S2).
  set (first := {| r_ground := true; r_odd := false; r_lat := 45; r_lon := 7.7; r_zones := n0 |}) in *.
  set (flying := {| r_ground := false; r_odd := true; r_lat := 45.6; r_lon := 8; r_zones := n1 |}) in *.
  set (last := {| r_ground := true; r_odd := true; r_lat := 45; r_lon := 7.8; r_zones := n2 |}) in *.
  pose proof (proj2 (sends_range _ _ _ S0)) as N0. pose proof (proj2 (sends_range _ _ _ S1)) as N1. pose proof (proj2 (sends_range _ _ _ S2)) as N2.
  assert (W : forall turn n odd, 0 <= turn -> (1 <= n <= 59)%Z -> turn / 60 <= turn / IZR (longitude_zones n odd)).
  { intros turn n odd Ht Hn. apply Rmult_le_compat_l; [exact Ht|].
    apply Rinv_le_contravar; [apply IZR_lt; unfold longitude_zones; destruct odd; lia|apply IZR_le; unfold longitude_zones; destruct odd; lia]. }
  pose proof (W 90 n0 false ltac:(lra) N0) as W0. pose proof (W 360 n1 true ltac:(lra) N1) as W1. pose proof (W 90 n2 true ltac:(lra) N2) as W2.
  exists (f64_of_Z 45), (f64_of_Z 7), first, f0, (([] ++ [f1]) ++ [f2]), last.
  split; [apply fl_of_Z; lia|]. split; [apply Rabs_le; lra|]. split; [apply fl_of_Z; lia|]. split; [apply Rabs_le; lra|].
  do 3 (split; [reflexivity|]). split; [exact S0|].
  split; [split; cbn [r_ground r_odd r_lat r_lon r_zones r_turn first]; apply Rabs_le; lra|].
  split; [cbn [r_lon first]; apply Rabs_le; lra|].
  apply heard_report with flying; [apply heard_report with first; [constructor|exact S1|]|exact S2|].
  - repeat split; cbn [r_ground r_odd r_lat r_lon r_zones r_turn first flying]; apply Rabs_le; lra.
  - repeat split; cbn [r_ground r_odd r_lat r_lon r_zones r_turn first flying last]; apply Rabs_le; lra.
Qed.
