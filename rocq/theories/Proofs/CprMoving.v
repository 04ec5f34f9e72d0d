(* C92: global decoding of the positions of a moving aircraft. *)
From Verif Require Import GoBase.
From Verif.Model Require Import Geo.
From Coq Require Import ZArith Reals Lia Lra Psatz.
From Coq Require Import Floats.SpecFloat.
From Flocq Require Import Core BinarySingleNaN.
From Verif.Spec Require Import Binary64 Cpr Geodesy MathLib.
From Verif.Proofs Require Import FloatR FloatOps CprReal CprFloat CprGlobal CprLocal CprSurface GeoReals ZonesReal ZonesFloat CprAccurate.
Local Open Scope Z_scope.

Lemma encoded_turn : forall turn z x c k t, (0 < turn)%R -> 1 <= z -> encoded (turn / IZR z) x c k ->
  encoded (turn / IZR z) (x + turn * IZR t) c (k + z * t).
Proof.
  intros turn z x c k t Ht Hz [Hc H]. split; [exact Hc|].
  assert (Z1 : (1 <= IZR z)%R) by (apply IZR_le; lia).
  replace (131072 * ((x + turn * IZR t) / (turn / IZR z)) - IZR (131072 * (k + z * t) + c))%R
    with (131072 * (x / (turn / IZR z)) - IZR (131072 * k + c))%R; [exact H|].
  rewrite !plus_IZR, !mult_IZR, !plus_IZR, !mult_IZR. field. lra.
Qed.

Lemma index_move : forall turn n x y e ke o ko, (0 < turn)%R -> 2 <= n <= 60 ->
  encoded (turn / IZR n) x e ke -> encoded (turn / IZR (n - 1)) y o ko ->
  (Rabs (x - y) <= 0.4994 * turn / IZR (n * (n - 1)))%R ->
  ((n - 1) * e - n * o + 65536) / 131072 = n * ko - (n - 1) * ke.
Proof.
  intros turn n x y e ke o ko Ht Hn [He De] [Ho Do] M.
  assert (N : (2 <= IZR n <= 60)%R) by (split; apply IZR_le; lia).
  assert (N1 : IZR (n - 1) = (IZR n - 1)%R) by (rewrite minus_IZR; ring).
  assert (D : (Rabs (131072 * ((x - y) / turn) * (IZR n * (IZR n - 1))) <= 65457.5)%R).
  { rewrite mult_IZR, N1 in M. 
    replace (131072 * ((x - y) / turn) * (IZR n * (IZR n - 1)))%R with ((x - y) * (131072 * (IZR n * (IZR n - 1)) / turn))%R by (field; lra).
    rewrite Rabs_mult. rewrite (Rabs_pos_eq (131072 * _ / turn)) by (apply Rmult_le_pos; [nra|apply Rlt_le, Rinv_0_lt_compat; exact Ht]).
    apply Rle_trans with (0.4994 * turn / (IZR n * (IZR n - 1)) * (131072 * (IZR n * (IZR n - 1)) / turn))%R.
    - apply Rmult_le_compat_r; [apply Rmult_le_pos; [nra|apply Rlt_le, Rinv_0_lt_compat; exact Ht]|exact M].
    - replace (0.4994 * turn / (IZR n * (IZR n - 1)) * (131072 * (IZR n * (IZR n - 1)) / turn))%R with (0.4994 * 131072)%R by (field; lra). lra. }
  assert (Ye : (131072 * (x / (turn / IZR n)) = IZR n * (131072 * (x / turn)))%R) by (field; lra).
  assert (Yo : (131072 * (y / (turn / IZR (n - 1))) = (IZR n - 1) * (131072 * (y / turn)))%R) by (rewrite N1; field; lra).
  rewrite Ye in De. rewrite Yo in Do.
  replace (131072 * ((x - y) / turn) * (IZR n * (IZR n - 1)))%R
    with ((IZR n - 1) * (IZR n * (131072 * (x / turn))) - IZR n * ((IZR n - 1) * (131072 * (y / turn))))%R in D by (field; lra).
  set (u := (IZR n * (131072 * (x / turn)))%R) in *. set (w := ((IZR n - 1) * (131072 * (y / turn)))%R) in *.
  apply Rabs_le_inv in De, Do, D.
  set (Y := 131072 * ke + e) in *. set (W := 131072 * ko + o) in *.
  assert (B : - 65536 < (n - 1) * Y - n * W < 65536).
  { split; apply lt_IZR; rewrite minus_IZR, !mult_IZR, N1; clear - N De Do D; nra. }
  replace ((n - 1) * e - n * o + 65536) with ((n * ko - (n - 1) * ke) * 131072 + ((n - 1) * Y - n * W + 65536))
    by (unfold Y, W; ring).
  rewrite Z.div_add_l by lia. rewrite (Z.div_small ((n - 1) * Y - n * W + 65536)) by lia. ring.
Qed.

(* both zones, from the index *)
Lemma index_zones : forall turn n x y e ke o ko, (turn = 360 \/ turn = 90)%R -> 2 <= n <= 60 ->
  encoded (turn / IZR n) x e ke -> encoded (turn / IZR (n - 1)) y o ko ->
  same_angle x y (0.4994 * turn / IZR (n * (n - 1))) ->
  zone_index n e o mod n = ke mod n /\ zone_index n e o mod (n - 1) = ko mod (n - 1).
Proof.
  intros turn n x y e ke o ko Ht Hn Ke Ko (k & M).
  assert (T : (0 < turn)%R) by lra.
  assert (exists t, (360 * IZR k = turn * IZR t)%R) as (t & Q).
  { destruct Ht as [-> | ->]; [exists k; reflexivity|exists (4 * k)]. rewrite mult_IZR. lra. }
  pose proof (encoded_turn turn (n - 1) y o ko t T ltac:(lia) Ko) as Kt.
  assert (M' : (Rabs (x - (y + turn * IZR t)) <= 0.4994 * turn / IZR (n * (n - 1)))%R).
  { rewrite <- Q. replace (x - (y + 360 * IZR k))%R with (x - y - 360 * IZR k)%R by ring. exact M. }
  rewrite zone_index_Z, (index_move turn n x _ e ke o _ T Hn Ke Kt M').
  split; [apply index_even; lia|]. rewrite (index_odd n) by lia.
  replace (ko + (n - 1) * t) with (ko + t * (n - 1)) by ring. apply Z_mod_plus_full.
Qed.

(* with what each message says of its latitude, and the number of zones found there *)
Lemma airborne_moving_core : forall m lat0 lon0 lat1 lon1 n0 n1 last ke ko,
  (-90 <= lat0 <= 90)%R -> (-90 <= lat1 <= 90)%R -> 1 <= n0 <= 59 -> 1 <= n1 <= 59 ->
  encoded (360 / IZR 60) lat0 (airborne_latitude false lat0) ke -> encoded (360 / IZR 59) lat1 (airborne_latitude true lat1) ko ->
  (forall x v, fl x v -> (Rabs (v - lat0) <= 1 / 30000)%R -> on_grid 360 v ->
     v = (360 / IZR 60 * (IZR ke + IZR (airborne_latitude false lat0) / 131072))%R ->
     fl (getNumberOfLongitude (floats m) x) (IZR n0)) ->
  (forall x v, fl x v -> (Rabs (v - lat1) <= 1 / 30000)%R -> on_grid 360 v ->
     (Rabs (v - 360 / IZR 59 * (IZR ko + IZR (airborne_latitude true lat1) / 131072)) <= 1 / 100000000000)%R ->
     (131072 * ko + airborne_latitude true lat1 = 0 -> v = 0%R) ->
     fl (getNumberOfLongitude (floats m) x) (IZR n1)) ->
  (Rabs (lat0 - lat1) <= 0.0507)%R ->
  (n0 <> n1 -> forall E U, code E -> code U ->
    exists error, GetCPRAirborneGlobalPosition (floats m) (airborne_latitude false lat0) E (airborne_latitude true lat1) U last = Err error) /\
  (n0 = n1 -> short_move 360 n0 lon0 lon1 ->
   exists x y v w,
    GetCPRAirborneGlobalPosition (floats m) (airborne_latitude false lat0) (airborne_longitude n0 false lon0)
      (airborne_latitude true lat1) (airborne_longitude n1 true lon1) last = Ok (x, y) /\
    fl x v /\ (Rabs (v - (if last then lat0 else lat1)) <= half_step 360 (latitude_zones (negb last)) + 1 / 100000000000)%R /\
    fl y w /\ (-180 < w <= 180)%R /\
    same_angle w (if last then lon0 else lon1) (half_step 360 (longitude_zones n0 (negb last)) + 1 / 100000000000)).
Proof.
  intros m lat0 lon0 lat1 lon1 n n1 last ke ko Hlat0 Hlat1 Hn Hn1 Ke Ko NL0 NL1 Hm.
  set (e := airborne_latitude false lat0) in *. set (o := airborne_latitude true lat1) in *.
  assert (Ml : same_angle lat0 lat1 (0.4994 * 360 / IZR (60 * (60 - 1)))).
  { exists 0. replace (lat0 - lat1 - 360 * 0)%R with (lat0 - lat1)%R by ring. change (60 * (60 - 1)) with 3540. lra. }
  destruct (index_zones 360 60 lat0 lat1 e ke o ko (or_introl eq_refl) ltac:(lia) Ke Ko Ml) as [Ie Io]. change (60 - 1) with 59 in Io.
  assert (De : airborne_decoded_latitude false e o = (360 / IZR 60 * (IZR ke + IZR e / 131072))%R).
  { unfold airborne_decoded_latitude, decoded, latitude_zones. rewrite Ie. apply (southern_back 60 lat0); auto. }
  assert (Do : airborne_decoded_latitude true e o = (360 / IZR 59 * (IZR ko + IZR o / 131072))%R).
  { unfold airborne_decoded_latitude, decoded, latitude_zones. rewrite Io. apply (southern_back 59 lat1); auto. }
  pose proof (encoded_near (360 / IZR 60) lat0 e ke ltac:(lra) Ke) as Ne. rewrite <- De in Ne.
  pose proof (encoded_near (360 / IZR 59) lat1 o ko ltac:(lra) Ko) as No. rewrite <- Do in No.
  assert (Main : forall E U, code E -> code U -> exists xe xo ve vo, fl xe ve /\ fl xo vo /\
    (Rabs (ve - lat0) <= half_step 360 60 + 1 / 100000000000)%R /\ (Rabs (vo - lat1) <= half_step 360 59 + 1 / 100000000000)%R /\
    fl (getNumberOfLongitude (floats m) xe) (IZR n) /\ fl (getNumberOfLongitude (floats m) xo) (IZR n1) /\
    (let result := GetCPRAirborneGlobalPosition (floats m) e E o U last in
     let ne := getNumberOfLongitude (floats m) xe in let no := getNumberOfLongitude (floats m) xo in
    (fl_eqb ne no = false -> exists error, result = Err error) /\
    (forall n, 1 <= n <= 59 -> fl ne (IZR n) -> fl no (IZR n) ->
       exists lon v, result = Ok ((if last then xe else xo), lon) /\ fl lon v /\ (-180 < v <= 180)%R /\
         same_angle v (decoded 360 (longitude_zones n (negb last)) (zone_index n E U)
                               (if last then E else U)) (1 / 100000000000)))).
  { intros E U HE HU.
    destruct (airborne_decode0 m e E o U last) as (xe & xo & Ae & Ao & Ze & Zo & H);
      [exact (encode_code _ _ _)|exact HE|exact (encode_code _ _ _)|exact HU|].
    destruct Ae as (ve & Fe & Ve). destruct Ao as (vo & Fo & Vo).
    pose proof (fl_unique _ _ _ Fe Ze) as Xe. rewrite De in Xe.
    assert (Z59 : 131072 * ko + o = 0 -> vo = 0%R).
    { intros Z0. apply (fl_unique _ _ _ Fo), Zo. rewrite Do. replace o with (- (131072 * ko)) by lia. rewrite opp_IZR, mult_IZR. field. }
    assert (Ge : on_grid 360 ve).
    { apply (step_grid 360 60 ke e); [lra|lia|rewrite <- De; lra|]. intros Z0. rewrite Xe.
      replace e with (- (131072 * ke)) by lia. rewrite opp_IZR, mult_IZR. field. }
    assert (Go : on_grid 360 vo) by (apply (step_grid 360 59 ko o); [lra|lia|rewrite <- Do; lra|exact Z59]).
    assert (Vo' := Vo). apply Rabs_le_inv in Ne, No, Ve, Vo.
    assert (Ce : (Rabs (ve - lat0) <= half_step 360 60 + 1 / 100000000000)%R) by (unfold half_step; apply Rabs_le; lra).
    assert (Co : (Rabs (vo - lat1) <= half_step 360 59 + 1 / 100000000000)%R) by (unfold half_step; apply Rabs_le; lra).
    exists xe, xo, ve, vo. repeat (split; [assumption|]). split; [|split; [|exact H]].
    - apply NL0 with ve; [exact Fe| |exact Ge|exact Xe]. unfold half_step in Ce. lra.
    - apply NL1 with vo; [exact Fo| |exact Go|rewrite <- Do; exact Vo'|exact Z59]. unfold half_step in Co. lra. }
  split.
  { intros N E U HE HU. destruct (Main E U HE HU) as (xe & xo & ve & vo & Fe & Fo & _ & _ & Q0 & Q1 & H & _).
    apply H. rewrite (fl_eqb_R _ _ (IZR n) (IZR n1) Q0 Q1). apply Req_bool_false. intros Q. apply N, eq_IZR, Q. }
  intros <- Hl. set (E := airborne_longitude n false lon0). set (U := airborne_longitude n true lon1).
  destruct (Main E U (encode_code _ _ _) (encode_code _ _ _)) as (xe & xo & ve & vo & Fe & Fo & Ce & Co & Q0 & Q1 & _ & H).
  destruct (H n Hn Q0 Q1) as (y & w & R & Fw & Bw & k & Sw).
  exists (if last then xe else xo), y, (if last then ve else vo), w.
  split; [exact R|]. split; [destruct last; assumption|]. split; [destruct last; assumption|].
  split; [exact Fw|]. split; [exact Bw|].
  set (z := longitude_zones n (negb last)) in *.
  set (c := if last then E else U) in *. set (lon := if last then lon0 else lon1).
  assert (Bz : 1 <= z <= 60) by (unfold z, longitude_zones; destruct last; cbn; lia).
  assert (L : exists kl, encoded (360 / IZR z) lon c kl /\ zone_index n E U mod z = kl mod z).
  { destruct (encoded_17 (360 / IZR (longitude_zones n false)) lon0) as (le & Le);
      [apply zone_width; unfold longitude_zones; lia|]. change (encode 17 _ lon0) with E in Le.
    destruct (encoded_17 (360 / IZR (longitude_zones n true)) lon1) as (lo & Lo);
      [apply zone_width; unfold longitude_zones; lia|]. change (encode 17 _ lon1) with U in Lo.
    exists (if last then le else lo). split; [unfold z, c, lon; destruct last; assumption|].
    destruct (Z.eq_dec n 1) as [->|N1].
    - replace z with 1 by (unfold z, longitude_zones; destruct last; reflexivity). rewrite !Z.mod_1_r. reflexivity.
    - replace (longitude_zones n false) with n in Le by (unfold longitude_zones; lia).
      replace (longitude_zones n true) with (n - 1) in Lo by (unfold longitude_zones; lia).
      destruct Hl as [Hl|Hl]; [contradiction|].
      destruct (index_zones 360 n lon0 lon1 E le U lo (or_introl eq_refl) ltac:(lia) Le Lo Hl) as [I1 I2].
      unfold z, longitude_zones. destruct last; cbn [negb]; rewrite Z.max_l by lia; assumption. }
  destruct L as (kl & Kl & Il).
  unfold decoded in Sw. rewrite Il in Sw. destruct (turns z kl c ltac:(lia)) as (q & Q). rewrite Q in Sw.
  pose proof (encoded_near _ _ _ _ (zone_width z Bz) Kl) as Nl.
  exists (q + k). rewrite plus_IZR. unfold half_step. apply Rabs_le_inv in Sw, Nl. apply Rabs_le. lra.
Qed.

Lemma airborne_moving_grid : forall m lat0 lon0 lat1 lon1 n last,
  (-90 <= lat0 <= 90)%R -> (-90 <= lat1 <= 90)%R -> 1 <= n <= 59 ->
  (forall x v, fl x v -> (Rabs (v - lat0) <= 1 / 30000)%R -> on_grid 360 v -> fl (getNumberOfLongitude (floats m) x) (IZR n)) ->
  (forall x v, fl x v -> (Rabs (v - lat1) <= 1 / 30000)%R -> on_grid 360 v -> fl (getNumberOfLongitude (floats m) x) (IZR n)) ->
  (Rabs (lat0 - lat1) <= 0.0507)%R -> short_move 360 n lon0 lon1 ->
  exists x y v w,
    GetCPRAirborneGlobalPosition (floats m) (airborne_latitude false lat0) (airborne_longitude n false lon0)
      (airborne_latitude true lat1) (airborne_longitude n true lon1) last = Ok (x, y) /\
    fl x v /\ (Rabs (v - (if last then lat0 else lat1)) <= half_step 360 (latitude_zones (negb last)) + 1 / 100000000000)%R /\
    fl y w /\ (-180 < w <= 180)%R /\
    same_angle w (if last then lon0 else lon1) (half_step 360 (longitude_zones n (negb last)) + 1 / 100000000000).
Proof.
  intros m lat0 lon0 lat1 lon1 n last Hlat0 Hlat1 Hn NL0 NL1 Hm Hl.
  destruct (encoded_17 (360 / IZR 60) lat0 ltac:(lra)) as (ke & Ke).
  destruct (encoded_17 (360 / IZR 59) lat1 ltac:(lra)) as (ko & Ko).
  apply (proj2 (airborne_moving_core m lat0 lon0 lat1 lon1 n n last ke ko Hlat0 Hlat1 Hn Hn Ke Ko
    (fun x v F B G _ => NL0 x v F B G) (fun x v F B G _ _ => NL1 x v F B G) Hm) eq_refl Hl).
Qed.

Theorem airborne_global_moving : forall m lat0 lon0 lat1 lon1 n last,
  accurate m -> clear_of_transitions lat0 n -> clear_of_transitions lat1 n ->
  (Rabs (lat0 - lat1) <= 0.0507)%R -> short_move 360 n lon0 lon1 ->
  exists x y v w,
    GetCPRAirborneGlobalPosition (floats m) (airborne_latitude false lat0) (airborne_longitude n false lon0)
      (airborne_latitude true lat1) (airborne_longitude n true lon1) last = Ok (x, y) /\
    fl x v /\ (Rabs (v - (if last then lat0 else lat1)) <= half_step 360 (latitude_zones (negb last)) + 1 / 100000000000)%R /\
    fl y w /\ (-180 < w <= 180)%R /\
    same_angle w (if last then lon0 else lon1) (half_step 360 (longitude_zones n (negb last)) + 1 / 100000000000).
Proof.
  intros m lat0 lon0 lat1 lon1 n last Acc C0 C1 Hm Hl. apply airborne_moving_grid; auto.
  - destruct C0 as [B _]; apply Rabs_le_inv; lra.
  - destruct C1 as [B _]; apply Rabs_le_inv; lra.
  - exact (clear_range lat0 n C0).
  - intros x v Fx Hv _. exact (clear_zones m lat0 n Acc C0 x v Fx Hv).
  - intros x v Fx Hv _. exact (clear_zones m lat1 n Acc C1 x v Fx Hv).
Qed.

(* a pair of messages of an aircraft on the ground, when the number of zones is known at the latitudes they stand for *)
Lemma surface_moving_core : forall m lat0 lon0 lat1 lon1 x r y s n0 n1 (last : bool) ke ko,
  1 <= n0 <= 59 ->
  encoded (90 / IZR 60) lat0 (surface_latitude false lat0) ke -> encoded (90 / IZR 59) lat1 (surface_latitude true lat1) ko ->
  (forall x v, fl x v -> (Rabs (v - 90 / IZR 60 * (IZR ke + IZR (surface_latitude false lat0) / 131072)) <= 1 / 10000000000)%R ->
     fl (getNumberOfLongitude (floats m) x) (IZR n0)) ->
  (forall x v, fl x v -> (Rabs (v - 90 / IZR 59 * (IZR ko + IZR (surface_latitude true lat1) / 131072)) <= 1 / 10000000000)%R ->
     fl (getNumberOfLongitude (floats m) x) (IZR n1)) ->
  (0 <= lat0 <= 89.99 /\ 0 <= lat1 <= 89.99 /\ 0 <= r \/ -90 <= lat0 <= -0.0001 /\ -90 <= lat1 <= -0.0001 /\ r < 0)%R ->
  fl x r -> fl y s -> (Rabs (lat0 - lat1) <= 0.0126)%R ->
  (n0 <> n1 -> (Rabs s <= 360)%R -> forall E U, code E -> code U ->
     exists error, GetCPRSurfaceGlobalPosition (floats m) (surface_latitude false lat0) E (surface_latitude true lat1) U last x y = Err error) /\
  (n0 = n1 -> (Rabs (if last then lon0 else lon1) <= 179.999)%R -> (Rabs ((if last then lon0 else lon1) - s) <= 44.99)%R ->
   short_move 90 n0 lon0 lon1 ->
   exists X Y v w,
    GetCPRSurfaceGlobalPosition (floats m) (surface_latitude false lat0) (surface_longitude n0 false lon0)
      (surface_latitude true lat1) (surface_longitude n0 true lon1) last x y = Ok (X, Y) /\
    fl X v /\ (Rabs (v - (if last then lat0 else lat1)) <= half_step 90 (latitude_zones (negb last)) + 1 / 100000000000)%R /\
    fl Y w /\ (Rabs (w - (if last then lon0 else lon1)) <= half_step 90 (longitude_zones n0 (negb last)) + 1 / 1000000000)%R).
Proof.
  intros m lat0 lon0 lat1 lon1 x r y s n0 n1 last ke ko Hn Ke Ko NL0 NL1 Hlat Fx Fy Hm.
  set (e := surface_latitude false lat0) in *. set (o := surface_latitude true lat1) in *.
  assert (Ml : same_angle lat0 lat1 (0.4994 * 90 / IZR (60 * (60 - 1)))).
  { exists 0. replace (lat0 - lat1 - 360 * 0)%R with (lat0 - lat1)%R by ring. change (60 * (60 - 1)) with 3540. lra. }
  destruct (index_zones 90 60 lat0 lat1 e ke o ko (or_intror eq_refl) ltac:(lia) Ke Ko Ml) as [Ie Io]. change (60 - 1) with 59 in Io.
  assert (De : surface_decoded_latitude false (Rlt_bool r 0) e o = (90 / IZR 60 * (IZR ke + IZR e / 131072))%R).
  { unfold surface_decoded_latitude, decoded, latitude_zones. rewrite Ie. apply (hemisphere 60 lat0); auto; tauto. }
  assert (Do : surface_decoded_latitude true (Rlt_bool r 0) e o = (90 / IZR 59 * (IZR ko + IZR o / 131072))%R).
  { unfold surface_decoded_latitude, decoded, latitude_zones. rewrite Io. apply (hemisphere 59 lat1); auto; tauto. }
  pose proof (encoded_near (90 / IZR 60) lat0 e ke ltac:(lra) Ke) as Ne. rewrite <- De in Ne.
  pose proof (encoded_near (90 / IZR 59) lat1 o ko ltac:(lra) Ko) as No. rewrite <- Do in No.
  split.
  { intros N Hs E U HE HU.
    destruct (surface_global_decode m e E o U last x r y s) as (xe & xo & Ae & Ao & H & _);
      [exact (encode_code _ _ _)|exact HE|exact (encode_code _ _ _)|exact HU|exact Fx|exact Fy|exact Hs|].
    destruct Ae as (ve & Fe & Ve). destruct Ao as (vo & Fo & Vo).
    apply H. rewrite (fl_eqb_R _ _ (IZR n0) (IZR n1)).
    - apply Req_bool_false. intros Q. apply N, eq_IZR, Q.
    - apply NL0 with ve; [exact Fe|]. rewrite <- De. lra.
    - apply NL1 with vo; [exact Fo|]. rewrite <- Do. lra. }
  intros <- Hlon Hs Hl. rename n0 into n.
  set (E := surface_longitude n false lon0). set (U := surface_longitude n true lon1).
  set (lon := if last then lon0 else lon1) in *.
  assert (Hs' : (Rabs s <= 360)%R) by (apply Rabs_le_inv in Hlon, Hs; apply Rabs_le; lra).
  destruct (surface_global_decode m e E o U last x r y s) as (xe & xo & Ae & Ao & _ & H);
    [exact (encode_code _ _ _)|exact (encode_code _ _ _)|exact (encode_code _ _ _)|exact (encode_code _ _ _)|exact Fx|exact Fy|exact Hs'|].
  destruct Ae as (ve & Fe & Ve). destruct Ao as (vo & Fo & Vo).
  pose proof Ve as Ve'. pose proof Vo as Vo'. apply Rabs_le_inv in Ne, No, Ve, Vo.
  assert (Ce : (Rabs (ve - lat0) <= half_step 90 60 + 1 / 100000000000)%R) by (unfold half_step; apply Rabs_le; lra).
  assert (Co : (Rabs (vo - lat1) <= half_step 90 59 + 1 / 100000000000)%R) by (unfold half_step; apply Rabs_le; lra).
  destruct (H n Hn) as (Y & w & i & R & Fw & Bi & Ew & Mi).
  { apply NL0 with ve; [exact Fe|]. rewrite <- De. lra. }
  { apply NL1 with vo; [exact Fo|]. rewrite <- Do. lra. }
  exists (if last then xe else xo), Y, (if last then ve else vo), w.
  split; [exact R|]. split; [destruct last; assumption|]. split; [destruct last; assumption|].
  split; [exact Fw|].
  set (z := longitude_zones n (negb last)) in *.
  set (c := if last then E else U) in *.
  assert (Bz : 1 <= z <= 60) by (unfold z, longitude_zones; destruct last; cbn; lia).
  assert (L : exists kl, encoded (90 / IZR z) lon c kl /\ zone_index n E U mod z = kl mod z).
  { destruct (encoded_19 (360 / IZR (longitude_zones n false)) lon0) as (le & Le);
      [apply zone_width; unfold longitude_zones; lia|]. change (encode 19 _ lon0) with E in Le.
    destruct (encoded_19 (360 / IZR (longitude_zones n true)) lon1) as (lo & Lo);
      [apply zone_width; unfold longitude_zones; lia|]. change (encode 19 _ lon1) with U in Lo.
    rewrite quarter in Le, Lo by (unfold longitude_zones; lia).
    exists (if last then le else lo). split; [unfold z, c, lon; destruct last; assumption|].
    destruct (Z.eq_dec n 1) as [->|N1].
    - replace z with 1 by (unfold z, longitude_zones; destruct last; reflexivity). rewrite !Z.mod_1_r. reflexivity.
    - replace (longitude_zones n false) with n in Le by (unfold longitude_zones; lia).
      replace (longitude_zones n true) with (n - 1) in Lo by (unfold longitude_zones; lia).
      destruct Hl as [Hl|Hl]; [contradiction|].
      destruct (index_zones 90 n lon0 lon1 E le U lo (or_intror eq_refl) ltac:(lia) Le Lo Hl) as [I1 I2].
      unfold z, longitude_zones. destruct last; cbn [negb]; rewrite Z.max_l by lia; assumption. }
  destruct L as (kl & Kl & Il).
  assert (NZ : (1 <= IZR z <= 60)%R) by (split; apply IZR_le; lia).
  assert (Zt : (90 / IZR z * IZR z = 90)%R) by (field; lra).
  assert (Q : (3 / 2 <= 90 / IZR z <= 90)%R) by (split; nra).
  pose proof (encoded_near (90 / IZR z) lon c kl ltac:(lra) Kl) as Nl.
  set (zone := (90 / IZR z)%R) in *. set (V := (zone * (IZR kl + IZR c / 131072))%R) in *.
  assert (Ci : forall i : Z, surface_candidate n (negb last) E U i = (V + 90 * IZR (i - kl / z))%R).
  { intros k. unfold surface_candidate, decoded. fold z. rewrite Il.
    replace (if negb last then U else E) with c by (unfold c; destruct last; reflexivity).
    rewrite Z.mod_eq by lia. rewrite !minus_IZR, mult_IZR. fold zone. unfold V. rewrite <- Zt. ring. }
  assert (Hc : 0 <= c < 131072) by exact (proj1 Kl).
  assert (HcR : (0 <= IZR c < 131072)%R) by (split; [apply IZR_le|apply IZR_lt]; lia).
  apply Rabs_le_inv in Nl, Hlon, Hs.
  assert (BV : (-180 < V < 180)%R) by lra.
  assert (Bk : -2 <= kl / z <= 1).
  { unfold V in BV. assert (-2 * IZR z - 1 < IZR kl < 2 * IZR z)%R by (clear - Q Zt NZ HcR BV; clearbody zone; split; nra).
    assert (A : -2 * z - 1 < kl < 2 * z) by (split; apply lt_IZR; rewrite ?minus_IZR, mult_IZR; lra).
    split; [apply Z.div_le_lower_bound; lia|]. assert (kl / z < 2) by (apply Z.div_lt_upper_bound; lia). lia. }
  pose proof (Mi (kl / z) Bk) as Mk. rewrite !Ci in *. rewrite Z.sub_diag, Rmult_0_r, Rplus_0_r in Mk.
  assert (SV : (Rabs (s - V) <= 44.995)%R) by (apply Rabs_le; lra).
  assert (D : (Rabs (s - (V + 90 * IZR (i - kl / z))) <= 44.996)%R) by lra.
  apply Rabs_le_inv in SV, D.
  assert (I : (-1 < IZR (i - kl / z) < 1)%R) by lra.
  destruct I as [I1 I2]. apply lt_IZR in I1, I2. replace (i - kl / z) with 0 in Ew by lia.
  rewrite Rmult_0_r, Rplus_0_r in Ew. apply Rabs_le_inv in Ew. unfold half_step. fold zone. apply Rabs_le. lra.
Qed.

Lemma near_code : forall N lat c k v, (N = 59 \/ N = 60) -> encoded (90 / IZR N) lat c k ->
  (Rabs (v - 90 / IZR N * (IZR k + IZR c / 131072)) <= 1 / 10000000000)%R -> (Rabs (v - lat) <= 1 / 30000)%R.
Proof.
  intros N lat c k v HN E B. assert (Z : (1.5 <= 90 / IZR N <= 1.6)%R) by (destruct HN; subst N; lra).
  pose proof (encoded_near (90 / IZR N) lat c k ltac:(lra) E) as A. apply Rabs_le_inv in A, B. apply Rabs_le. lra.
Qed.

Theorem surface_global_moving : forall m lat0 lon0 lat1 lon1 x r y s n (last : bool),
  accurate m -> clear_of_transitions lat0 n -> clear_of_transitions lat1 n ->
  (0 <= lat0 <= 89.99 /\ 0 <= lat1 <= 89.99 /\ 0 <= r \/ -90 <= lat0 <= -0.0001 /\ -90 <= lat1 <= -0.0001 /\ r < 0)%R ->
  (Rabs (if last then lon0 else lon1) <= 179.999)%R ->
  fl x r -> fl y s -> (Rabs ((if last then lon0 else lon1) - s) <= 44.99)%R ->
  (Rabs (lat0 - lat1) <= 0.0126)%R -> short_move 90 n lon0 lon1 ->
  exists X Y v w,
    GetCPRSurfaceGlobalPosition (floats m) (surface_latitude false lat0) (surface_longitude n false lon0)
      (surface_latitude true lat1) (surface_longitude n true lon1) last x y = Ok (X, Y) /\
    fl X v /\ (Rabs (v - (if last then lat0 else lat1)) <= half_step 90 (latitude_zones (negb last)) + 1 / 100000000000)%R /\
    fl Y w /\ (Rabs (w - (if last then lon0 else lon1)) <= half_step 90 (longitude_zones n (negb last)) + 1 / 1000000000)%R.
Proof.
  intros m lat0 lon0 lat1 lon1 x r y s n last Acc C0 C1 Hlat Hlon Fx Fy Hs Hm Hl.
  pose proof (clear_zones m lat0 n Acc C0) as NL0. pose proof (clear_zones m lat1 n Acc C1) as NL1.
  destruct (encoded_19 (360 / IZR 60) lat0 ltac:(lra)) as (ke & Ke).
  destruct (encoded_19 (360 / IZR 59) lat1 ltac:(lra)) as (ko & Ko).
  rewrite quarter in Ke, Ko by lia.
  destruct (surface_moving_core m lat0 lon0 lat1 lon1 x r y s n n last ke ko (clear_range lat0 n C0) Ke Ko) as [_ H]; auto.
  - intros x' v F B. apply NL0 with v; [exact F|]. exact (near_code 60 lat0 _ ke v (or_intror eq_refl) Ke B).
  - intros x' v F B. apply NL1 with v; [exact F|]. exact (near_code 59 lat1 _ ko v (or_introl eq_refl) Ko B).
Qed.

(* an aircraft that changes its number of longitude zones between the two messages: an error, not a wrong position *)
Theorem airborne_global_crossing : forall m lat0 lat1 n0 n1 E U last,
  accurate m -> clear_of_transitions lat0 n0 -> clear_of_transitions lat1 n1 -> n0 <> n1 -> code E -> code U ->
  (Rabs (lat0 - lat1) <= 0.0507)%R ->
  exists error, GetCPRAirborneGlobalPosition (floats m) (airborne_latitude false lat0) E (airborne_latitude true lat1) U last = Err error.
Proof.
  intros m lat0 lat1 n0 n1 E U last Acc C0 C1 N HE HU Hm.
  assert (Hlat0 : (-90 <= lat0 <= 90)%R) by (destruct C0 as [B _]; apply Rabs_le_inv; lra).
  assert (Hlat1 : (-90 <= lat1 <= 90)%R) by (destruct C1 as [B _]; apply Rabs_le_inv; lra).
  pose proof (clear_zones m lat0 n0 Acc C0) as NL0. pose proof (clear_zones m lat1 n1 Acc C1) as NL1.
  set (e := airborne_latitude false lat0). set (o := airborne_latitude true lat1).
  destruct (airborne_global_decode m e E o U last) as (xe & xo & Ae & Ao & H & _);
    [exact (encode_code _ _ _)|exact HE|exact (encode_code _ _ _)|exact HU|].
  destruct (encoded_17 (360 / IZR 60) lat0 ltac:(lra)) as (ke & Ke). change (encode 17 (360 / IZR 60) lat0) with e in Ke.
  destruct (encoded_17 (360 / IZR 59) lat1 ltac:(lra)) as (ko & Ko). change (encode 17 (360 / IZR 59) lat1) with o in Ko.
  assert (Ml : same_angle lat0 lat1 (0.4994 * 360 / IZR (60 * (60 - 1)))).
  { exists 0. replace (lat0 - lat1 - 360 * 0)%R with (lat0 - lat1)%R by ring. change (60 * (60 - 1)) with 3540. lra. }
  destruct (index_zones 360 60 lat0 lat1 e ke o ko (or_introl eq_refl) ltac:(lia) Ke Ko Ml) as [Ie Io]. change (60 - 1) with 59 in Io.
  assert (De : airborne_decoded_latitude false e o = (360 / IZR 60 * (IZR ke + IZR e / 131072))%R).
  { unfold airborne_decoded_latitude, decoded, latitude_zones. rewrite Ie. apply (southern_back 60 lat0); auto. }
  assert (Do : airborne_decoded_latitude true e o = (360 / IZR 59 * (IZR ko + IZR o / 131072))%R).
  { unfold airborne_decoded_latitude, decoded, latitude_zones. rewrite Io. apply (southern_back 59 lat1); auto. }
  pose proof (encoded_near (360 / IZR 60) lat0 e ke ltac:(lra) Ke) as Ne. rewrite <- De in Ne.
  pose proof (encoded_near (360 / IZR 59) lat1 o ko ltac:(lra) Ko) as No. rewrite <- Do in No.
  destruct Ae as (ve & Fe & Ve). destruct Ao as (vo & Fo & Vo).
  apply Rabs_le_inv in Ne, No, Ve, Vo.
  apply H. rewrite (fl_eqb_R _ _ (IZR n0) (IZR n1)).
  - apply Req_bool_false. intros Q. apply N, eq_IZR, Q.
  - apply NL0 with ve; [exact Fe|]. apply Rabs_le. lra.
  - apply NL1 with vo; [exact Fo|]. apply Rabs_le. lra.
Qed.

Theorem surface_global_crossing : forall m lat0 lat1 n0 n1 E U x r y s last,
  accurate m -> clear_of_transitions lat0 n0 -> clear_of_transitions lat1 n1 -> n0 <> n1 -> code E -> code U ->
  (0 <= lat0 <= 89.99 /\ 0 <= lat1 <= 89.99 /\ 0 <= r \/ -90 <= lat0 <= -0.0001 /\ -90 <= lat1 <= -0.0001 /\ r < 0)%R ->
  fl x r -> fl y s -> (Rabs s <= 360)%R -> (Rabs (lat0 - lat1) <= 0.0126)%R ->
  exists error, GetCPRSurfaceGlobalPosition (floats m) (surface_latitude false lat0) E (surface_latitude true lat1) U last x y = Err error.
Proof.
  intros m lat0 lat1 n0 n1 E U x r y s last Acc C0 C1 N HE HU Hlat Fx Fy Hs Hm.
  pose proof (clear_zones m lat0 n0 Acc C0) as NL0. pose proof (clear_zones m lat1 n1 Acc C1) as NL1.
  destruct (encoded_19 (360 / IZR 60) lat0 ltac:(lra)) as (ke & Ke).
  destruct (encoded_19 (360 / IZR 59) lat1 ltac:(lra)) as (ko & Ko).
  rewrite quarter in Ke, Ko by lia.
  destruct (surface_moving_core m lat0 0 lat1 0 x r y s n0 n1 last ke ko (clear_range lat0 n0 C0) Ke Ko) as [H _]; auto.
  - intros x' v F B. apply NL0 with v; [exact F|]. exact (near_code 60 lat0 _ ke v (or_intror eq_refl) Ke B).
  - intros x' v F B. apply NL1 with v; [exact F|]. exact (near_code 59 lat1 _ ko v (or_introl eq_refl) Ko B).
Qed.

(* ---- positions which meet the hypotheses ---- *)
Local Open Scope R_scope.
Lemma zones_near_45 : forall lat, Rabs (lat - 45) <= 0.03 -> clear_of_transitions lat 42.
Proof.
  intros lat Hl. apply Rabs_le_inv in Hl.
  split; [rewrite Rabs_pos_eq; lra|]. intros lat' H. apply Rabs_le_inv in H.
  destruct (number_of_zones lat' ltac:(rewrite Rabs_pos_eq; lra)) as (n & _ & Z). replace 42%Z with n; [exact Z|].
  pose proof PI_tight as P. pose proof (ratio_mul lat' ltac:(lra)) as M. pose proof (cos_deg lat' ltac:(lra)) as C.
  pose proof a_bounds as A.
  assert (B : 0.499 <= cos (rad lat') * cos (rad lat') <= 0.501).
  { pose proof (cos_lip (rad lat') (PI / 4)) as L.
    assert (Rabs (rad lat' - PI / 4) <= 0.00055) by (replace (rad lat' - PI / 4) with (PI * (lat' - 45) / 180) by (unfold rad; field); apply Rabs_le; split; nra).
    assert (L' : Rabs (cos (rad lat') - cos (PI / 4)) <= 0.00055) by lra. apply Rabs_le_inv in L'.
    assert (S : cos (PI / 4) * cos (PI / 4) = 1 / 2).
    { replace (PI / 4) with (PI / 2 / 2) by lra. rewrite cos_half_sq, cos_PI2. lra. }
    assert (Q : 0 <= cos (PI / 4)) by (apply cos_ge_0; lra).
    assert (Q' : cos (PI / 4) <= 0.708) by nra. assert (Q'' : 0.707 <= cos (PI / 4)) by nra.
    set (c := cos (rad lat')) in *. set (d := cos (PI / 4)) in *. split; nra. }
  assert (Cn : forall k x, 2 * PI / k = x -> 0 < x < 0.2 -> x * x / 2 - x * x / 2 * (x * x / 12) <= 1 - cos (2 * PI / k) <= x * x / 2).
  { intros k x -> Hx. pose proof (cos_low x ltac:(lra)). pose proof (cos_high x ltac:(lra)). lra. }
  destruct Z as [Bn Z].
  assert (42 <= n)%Z.
  { apply Z; [lia|]. unfold within_transition. pose proof (Cn 42 (2 * PI / 42) eq_refl ltac:(lra)) as D.
    set (x := 2 * PI / 42) in *. assert (0.1495 <= x <= 0.1497) by (unfold x; lra). assert (0.02235 <= x * x <= 0.0225) by nra. nra. }
  assert (~ (43 <= n)%Z); [|lia].
  intros G. apply Z in G; [|lia]. unfold within_transition in G. pose proof (Cn 43 (2 * PI / 43) eq_refl ltac:(lra)) as D.
  set (x := 2 * PI / 43) in *. assert (0.146 <= x <= 0.1462) by (unfold x; lra). assert (0.0213 <= x * x <= 0.0214) by nra. nra.
Qed.

(* 2 km to the north and across the meridian 180 *)
Example moving_example : exists m, accurate m /\ clear_of_transitions 45 42 /\ clear_of_transitions 45.02 42 /\
  Rabs (45 - 45.02) <= 0.0507 /\ short_move 360 42 179.99 (-179.99) /\
  Rabs (45 - 45.01) <= 0.0126 /\ short_move 90 42 7.68 7.7.
Proof.
  destruct accurate_exists as [m A]. exists m. split; [exact A|].
  split; [apply zones_near_45, Rabs_le; lra|]. split; [apply zones_near_45, Rabs_le; lra|].
  split; [apply Rabs_le; lra|]. split; [right; exists 1%Z; apply Rabs_le; change (IZR (42 * (42 - 1))) with 1722; lra|]. split; [apply Rabs_le; lra|].
  right. exists 0%Z. apply Rabs_le. change (IZR (42 * (42 - 1))) with 1722. lra.
Qed.

(* from the polar zone, one single zone, to the next one *)
Example crossing_example : clear_of_transitions 87.02 1 /\ clear_of_transitions 86.98 2 /\ Rabs (87.02 - 86.98) <= 0.0507.
Proof.
  pose proof PI_tight as P.
  split; [|split; [|apply Rabs_le; lra]].
  - split; [rewrite Rabs_pos_eq; lra|]. intros lat' H. apply Rabs_le_inv in H. split; [lia|].
    intros k Hk. split; [lia|]. intros W. exfalso. revert W. apply zones_polar'; [lra|exact Hk].
  - split; [rewrite Rabs_pos_eq; lra|]. intros lat' H. apply Rabs_le_inv in H. split; [lia|].
    intros k Hk. rewrite within_ratio by lra. split.
    + intros K. assert (k = 2%Z) as -> by lia. apply ratio_2. lra.
    + intros W. destruct (Z_le_gt_dec k 2) as [L|G]; [exact L|exfalso].
      assert (K : 3 <= IZR k) by (apply IZR_le; lia).
      assert (C3 : - (1 / 2) <= cos (2 * PI / IZR k)).
      { replace (- (1 / 2)) with (cos (2 * (PI / 3))) by (rewrite cos_2PI3; lra).
        destruct (Req_dec (IZR k) 3) as [->|N]; [right; f_equal; lra|]. left.
        assert (Q : 2 * PI / IZR k * IZR k = 2 * PI) by (field; lra). set (q := 2 * PI / IZR k) in *.
        assert (0 < q) by (unfold q; apply Rdiv_lt_0_compat; lra).
        apply cos_decreasing_1; nra. }
      pose proof (ratio_mul lat' ltac:(lra)) as M. pose proof a_bounds as A. pose proof (cos_deg lat' ltac:(lra)) as C.
      assert (U : cos (rad lat') <= 0.0535).
      { pose proof (cos_lip (rad lat') (PI / 2)) as L. rewrite cos_PI2, Rminus_0_r in L.
        replace (rad lat' - PI / 2) with (- (PI * (90 - lat') / 180)) in L by (unfold rad; field). rewrite Rabs_Ropp in L.
        assert (V : 2.97 <= 90 - lat' <= 3.03) by lra. set (d := 90 - lat') in *. clearbody d.
        assert (D : Rabs (PI * d / 180) <= 0.0535) by (apply Rabs_le; clear - P V; split; nra).
        pose proof (Rle_abs (cos (rad lat'))). lra. }
      set (c := cos (rad lat')) in *. assert (c * c <= 0.0029) by nra. nra.
Qed.
