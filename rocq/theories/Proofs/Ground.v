(* C112: positions on the ground, next to the latitudes where the number of longitude zones changes as elsewhere. *)
From Verif Require Import GoBase.
From Verif.Model Require Import Geo.
From Coq Require Import ZArith Reals Lia Lra Psatz List.
From Coq Require Import Floats.SpecFloat.
From Flocq Require Import Core.
From Verif.Spec Require Import Binary64 Cpr Geodesy MathLib ZoneTable Precise Sent.
From Verif.Proofs Require Import FloatR FloatOps CprFloat CprReal CprGlobal CprLocal CprSurface CprMoving GeoReals ZonesReal ZonesFloat ZoneTable ZonesFine ZonesGrid Equator Everywhere.
Import ListNotations.
Local Open Scope R_scope.

(* the latitude number T in N zones *)
Definition ground (N T : Z) : R := 90 / IZR N * (IZR T / 131072).

(* in units of 1 / (N * 131072 * 10^8) degree, the latitudes are the multiples of 9 * 10^9 *)
Definition apart (N d t : Z) : bool :=
  (let r := (t * N * 131072) mod 9000000000 in (d <=? r) && (r <=? 9000000000 - d))%Z.

Lemma ground_59 : forallb (fun kt => (fst kt =? 42)%Z || apart 59 (5 * 59 * 131072) (snd kt)) nl_table = true.
Proof. vm_compute. reflexivity. Qed.

Lemma ground_60 : forallb (fun kt => (snd kt =? 8700000000)%Z || apart 60 (5 * 60 * 131072) (snd kt)) nl_table = true.
Proof. vm_compute. reflexivity. Qed.

Lemma apart_ok : forall N d t T, apart N d t = true -> (9000000000 * T + d <= t * N * 131072 \/ t * N * 131072 <= 9000000000 * T - d)%Z.
Proof.
  intros N d t T H. unfold apart in H. apply andb_prop in H. destruct H as [H1 H2]. apply Z.leb_le in H1, H2.
  pose proof (Z.div_mod (t * N * 131072) 9000000000 ltac:(lia)) as D.
  set (b := (t * N * 131072)%Z) in *. set (r := (b mod 9000000000)%Z) in *. set (q := (b / 9000000000)%Z) in *. clearbody b r q.
  destruct (Z_le_gt_dec T q); [left|right]; lia.
Qed.

Lemma apart_away : forall N d t T, (1 <= N)%Z -> apart N (d * N * 131072) t = true ->
  IZR d / 100000000 <= Rabs (ground N T - degrees t).
Proof.
  intros N d t T HN S. apply (apart_ok _ _ _ T) in S. assert (NR : 1 <= IZR N) by (apply IZR_le; lia).
  assert (E : (ground N T - degrees t) * (IZR N * 13107200000000) = IZR (9000000000 * T - t * N * 131072)).
  { rewrite minus_IZR, !mult_IZR. unfold degrees, ground. field. lra. }
  set (g := ground N T - degrees t) in *. clearbody g.
  destruct S as [S|S].
  - apply Rle_trans with (- g); [|rewrite <- Rabs_Ropp; apply Rle_abs].
    assert (L : (9000000000 * T - t * N * 131072 <= - (d * N * 131072))%Z) by lia.
    apply IZR_le in L. rewrite <- E, opp_IZR, !mult_IZR in L. apply Rmult_le_reg_r with (IZR N * 13107200000000); lra.
  - apply Rle_trans with g; [|apply Rle_abs].
    assert (L : (d * N * 131072 <= 9000000000 * T - t * N * 131072)%Z) by lia.
    apply IZR_le in L. rewrite <- E, !mult_IZR in L. apply Rmult_le_reg_r with (IZR N * 13107200000000); lra.
Qed.

Lemma ground_abs : forall N T, (1 <= N)%Z -> Rabs (ground N T) = ground N (Z.abs T).
Proof.
  intros N T H. unfold ground. assert (1 <= IZR N) by (apply IZR_le; lia).
  rewrite Rabs_mult, (Rabs_pos_eq (90 / IZR N)) by (apply Rlt_le, Rdiv_lt_0_compat; lra). f_equal.
  unfold Rdiv. rewrite Rabs_mult, (Rabs_pos_eq (/ 131072)), <- abs_IZR by lra. reflexivity.
Qed.

(* one latitude only is closer than that: 45.546267234..., in odd messages, 8e-9 degree from the latitude where 42 zones
   become 41 *)
Lemma ground_away : forall N T, (N = 59 \/ N = 60)%Z -> Rabs (ground N T) <= 86.9999 ->
  (N = 59 /\ Z.abs T = 3913562)%Z \/ away (5 / 100000000) (ground N T).
Proof.
  intros N T [-> | ->] B.
  - destruct (Z.eq_dec (Z.abs T) 3913562) as [E|E]; [left; auto|right].
    intros k t H. rewrite ground_abs in * by lia. pose proof (proj1 (forallb_forall _ _) ground_59 _ H) as R. cbn [fst snd] in R.
    apply Bool.orb_prop in R. destruct R as [R|R]; [|exact (apart_away 59 5 t (Z.abs T) ltac:(lia) R)].
    apply Z.eqb_eq in R. subst k. assert (t = 4554626723)%Z as ->.
    { cbn [nl_table In] in H. repeat (destruct H as [H|H]; [first [discriminate H|injection H as <-; reflexivity]|]). destruct H. }
    unfold ground, degrees. set (A := Z.abs T) in *.
    assert (C : (A <= 3913561 \/ 3913563 <= A)%Z) by lia. destruct C as [C|C]; apply IZR_le in C;
      [rewrite <- Rabs_Ropp; eapply Rle_trans; [|apply Rle_abs]|eapply Rle_trans; [|apply Rle_abs]]; lra.
  - right. intros k t H. rewrite ground_abs in * by lia. pose proof (proj1 (forallb_forall _ _) ground_60 _ H) as R. cbn [fst snd] in R.
    apply Bool.orb_prop in R. destruct R as [R|R]; [|exact (apart_away 60 5 t (Z.abs T) ltac:(lia) R)].
    apply Z.eqb_eq in R. subst t. unfold degrees. rewrite <- Rabs_Ropp. eapply Rle_trans; [|apply Rle_abs]. lra.
Qed.

(* ---- that one ---- *)

(* at 45.5462672345 degrees already, the condition of the zone 42 is missed by 2e-12 *)
Lemma missed_42 : (let h := cos_hi 455462672345 1800000000000 in let l := cos_lo 1 42 in
  (0 <=? l) && (0 <=? h) && (1000000000000 * (square h * (2 * square unit - 2 * square l)) + 2 * (square h * square unit) <?
    1000000000000 * (sixty_lo * square unit * unit)))%Z = true.
Proof. vm_compute. reflexivity. Qed.

Lemma ratio_42 : forall w, 45.5462672345 <= w <= 46 -> 1 - cos (2 * PI / 42) + 0.000000000002 <= ratio w.
Proof.
  intros w Hw. pose proof missed_42 as I. cbv zeta in I.
  pose proof (cos_pi_bounds 455462672345 1800000000000 ltac:(lia) ltac:(lia) ltac:(lia)) as [_ H].
  pose proof (cos_pi_bounds 1 42 ltac:(lia) ltac:(lia) ltac:(lia)) as [L _].
  pose proof sixty_bounds as [S _]. pose proof (ratio_mul w ltac:(lra)) as RM. pose proof (cos_deg w ltac:(lra)) as C.
  pose proof (double 42 ltac:(lia)) as D. rewrite D. clear D.
  assert (O : cos (rad w) <= cos (PI * (IZR 455462672345 / IZR 1800000000000))).
  { replace (PI * (455462672345 / 1800000000000)) with (rad 45.5462672345) by (unfold rad; lra).
    apply cos_order; lra. }
  set (c := cos (rad w)) in *. set (c0 := cos (PI * (IZR 455462672345 / _))) in *. set (z := cos (PI * (1 / IZR 42))) in *.
  set (a := 1 - cos (PI / 30)) in *. pose proof (COS_bound (PI * (1 / IZR 42))) as [_ Z1]. fold z in Z1.
  clearbody c c0 z a. set (h0 := cos_hi _ _) in *. set (l0 := cos_lo _ _) in *. clearbody h0 l0.
  apply andb_prop in I. destruct I as [I I4]. apply andb_prop in I. destruct I as [I1 I2]. apply Z.leb_le in I1, I2. apply Z.ltb_lt in I4.
  unfold square in I4. apply IZR_le in I1, I2. apply IZR_lt in I4.
  set (s0 := sixty_lo) in *. clearbody s0.
  rewrite ?plus_IZR, ?mult_IZR, ?minus_IZR, ?mult_IZR in I4. fold u in I4.
  assert (U : 0 < u) by (rewrite u_value; lra).
  assert (El : IZR l0 = IZR l0 / u * u) by (field; lra). assert (Eh : IZR h0 = IZR h0 / u * u) by (field; lra).
  assert (Es : IZR s0 = IZR s0 / u * u) by (field; lra).
  rewrite El in I1, I4. rewrite Eh in I2, I4. rewrite Es in I4. clear El Eh Es.
  set (l := IZR l0 / u) in *. set (h := IZR h0 / u) in *. set (sl := IZR s0 / u) in *. clearbody l h sl. set (v0 := u) in *. clearbody v0.
  assert (L0 : 0 <= l) by nra. assert (H0 : 0 <= h) by nra.
  assert (X : h * h * (2 - 2 * (l * l) + 0.000000000002) < sl).
  { assert (V : 0 < v0 * v0 * v0 * v0) by (repeat apply Rmult_lt_0_compat; exact U).
    apply Rmult_lt_reg_r with (v0 * v0 * v0 * v0); [exact V|]. lra. }
  change (IZR 42) with 42 in *.
  assert (Y1 : c * c <= h * h) by nra. assert (Y2 : l * l <= z * z) by nra. assert (Y3 : z * z <= 1) by nra.
  set (q := ratio w) in *. clearbody q.
  assert (P : 0 < c * c) by nra.
  apply Rmult_le_reg_r with (c * c); [exact P|]. rewrite RM.
  apply Rle_trans with (h * h * (2 - 2 * (l * l) + 0.000000000002)); [|lra].
  rewrite Rmult_comm. apply Rmult_le_compat; lra.
Qed.

Lemma margins_42 : forall w, 45.5462672345 <= w <= 45.5462672348 -> margins w 41.
Proof.
  intros w Hw. exists 0.000000000002. pose proof (ratio_42 w ltac:(lra)) as R.
  assert (I41 : In (41%Z, 4686733252%Z) nl_table) by (cbn; tauto).
  destruct (row 41 4686733252 I41) as (_ & W & _). specialize (W (w + dd)).
  assert (Up : ratio (w + 1) <= 1 - cos (2 * PI / IZR 41)).
  { apply within_ratio; [lra|]. destruct (row 41 4686733252 I41) as (_ & W' & _). apply W'. rewrite Rabs_pos_eq by lra. unfold degrees. cbn. lra. }
  clear W.
  pose proof (cos_deg w ltac:(lra)) as C. pose proof (ratio_mul w ltac:(lra)) as RM. pose proof a_bounds as A.
  assert (C2 : 0.48 <= cos (rad w) * cos (rad w)).
  { assert (O : cos (PI / 4) <= cos (rad w) + 0.0096).
    { pose proof (cos_lip (PI / 4) (rad w)) as K. pose proof PI_tight.
      assert (Rabs (PI / 4 - rad w) <= 0.0096) by (unfold rad; apply Rabs_le; split; nra).
      pose proof (Rle_abs (cos (PI / 4) - cos (rad w))). lra. }
    assert (0.7071 <= cos (PI / 4)).
    { rewrite cos_PI4. apply Rmult_le_reg_r with (R_sqrt.sqrt 2); [apply sqrt_lt_R0; lra|].
      replace (1 / R_sqrt.sqrt 2 * R_sqrt.sqrt 2) with 1 by (field; apply Rgt_not_eq, sqrt_lt_R0; lra).
      assert (R_sqrt.sqrt 2 <= 1.41422); [|lra]. rewrite <- (sqrt_Rsqr 1.41422) by lra. apply sqrt_le_1_alt. unfold Rsqr. lra. }
    assert (0.6975 <= cos (rad w)) by lra. nra. }
  set (c := cos (rad w)) in *.
  split; [lia|]. split; [lra|].
  split. { apply Rmult_le_reg_r with (c * c); [lra|]. replace (0.00000000000008 / (c * c) * (c * c)) with 0.00000000000008 by (field; lra). lra. }
  assert (M : ratio w + 0.0001 <= ratio (w + 1)).
  { pose proof (ratio_mul (w + 1) ltac:(lra)) as RM'. pose proof (cos_deg (w + 1) ltac:(lra)) as C'.
    assert (K : cos (rad (w + 1)) <= c - 0.01).
    { unfold c. pose proof (form2 (rad w) (rad (w + 1))) as F4. pose proof PI_tight.
      assert (S1 : 0.0087 <= sin ((rad (w + 1) - rad w) / 2)).
      { replace ((rad (w + 1) - rad w) / 2) with (PI / 360) by (unfold rad; field).
        pose proof (sin_low (PI / 360) ltac:(lra)) as SL. assert (0.008726 <= PI / 360 <= 0.008727) by lra. set (x := PI / 360) in *.
        assert (x * x * x <= 0.000001) by (assert (0 <= x * x <= 0.0000762) by nra; nra). lra. }
      assert (S2 : 0.7 <= sin ((rad w + rad (w + 1)) / 2)).
      { assert (sin (PI / 4) <= sin ((rad w + rad (w + 1)) / 2)) by (apply sin_incr_1; unfold rad; nra).
        rewrite sin_PI4 in H0. assert (0.7071 <= 1 / R_sqrt.sqrt 2); [|lra].
        apply Rmult_le_reg_r with (R_sqrt.sqrt 2); [apply sqrt_lt_R0; lra|].
        replace (1 / R_sqrt.sqrt 2 * R_sqrt.sqrt 2) with 1 by (field; apply Rgt_not_eq, sqrt_lt_R0; lra).
        assert (R_sqrt.sqrt 2 <= 1.41422); [|lra]. rewrite <- (sqrt_Rsqr 1.41422) by lra. apply sqrt_le_1_alt. unfold Rsqr. lra. }
      replace ((rad w - rad (w + 1)) / 2) with (- ((rad (w + 1) - rad w) / 2)) in F4 by field. rewrite sin_neg in F4.
      set (s1 := sin ((rad (w + 1) - rad w) / 2)) in *. set (s2 := sin ((rad w + rad (w + 1)) / 2)) in *. clearbody s1 s2.
      assert (0.0087 * 0.7 <= s1 * s2) by (apply Rmult_le_compat; lra). lra. }
    set (c' := cos (rad (w + 1))) in *. clearbody c c'. set (q := ratio w) in *. set (q' := ratio (w + 1)) in *. clearbody q q'.
    clear - RM RM' K C C' C2 A. assert (c * c <= 1) by nra. assert (0.005 <= q) by nra.
    assert (CC : c' * c' <= c * c - 0.01) by nra. assert (q * (c * c) = q' * (c' * c')) by lra.
    assert (P : 0 < c' * c') by nra. assert ((q' - q) * (c' * c') >= 0.00005) by nra.
    assert (q' - q >= 0.00005) by nra. 
    nra. }
  change (IZR (41 + 1)) with 42. split; [lra|].
  pose proof (ratio_low w ltac:(lra)) as RL. pose proof (zone_cos 41 ltac:(lia)). lra.
Qed.

(* the number of longitude zones at the latitudes of the messages *)
Theorem zones_ground : forall m N T v x n, sharp m -> (N = 59 \/ N = 60)%Z -> ground_latitude (ground N T) ->
  fl x v -> Rabs (v - ground N T) <= 1 / 10000000000 ->
  zones_at (ground N T) n -> fl (getNumberOfLongitude (floats m) x) (IZR n).
Proof.
  intros m N T v x n Sh HN [B1 B2] Fx Hv Zn.
  assert (Hw : Rabs (Rabs v - Rabs (ground N T)) <= 1 / 10000000000) by (apply Rle_trans with (2 := Hv); apply Rabs_triang_inv2).
  apply Rabs_le_inv in Hw.
  destruct (ground_away N T HN B2) as [[EN ET]|Aw].
  - assert (G : Rabs (ground N T) = 90 / 59 * (3913562 / 131072)).
    { rewrite ground_abs by lia. unfold ground. rewrite EN, ET. reflexivity. }
    rewrite G in Hw. apply zones_abs in Zn. rewrite G in Zn.
    assert (n = 41%Z) as ->.
    { destruct Zn as [B Z].
      assert (41 <= n)%Z.
      { apply Z; [lia|]. assert (I41 : In (41%Z, 4686733252%Z) nl_table) by (cbn; tauto).
        destruct (row 41 4686733252 I41) as (_ & W & _). apply W. rewrite Rabs_pos_eq by lra. unfold degrees. cbn. lra. }
      destruct (Z_le_gt_dec 42 n) as [L|L]; [exfalso|lia].
      assert (W : within_transition 42 (90 / 59 * (3913562 / 131072))) by (apply Z; lia).
      apply within_ratio in W; [|lra]. pose proof (ratio_42 (90 / 59 * (3913562 / 131072)) ltac:(lra)). change (IZR 42) with 42 in W. lra. }
    pose proof (fl_abs _ _ Fx) as Fw. set (w := Rabs v) in *.
    assert (F0 : fl (f64_lit 0 1) 0) by flc. assert (F87 : fl (f64_lit 87 1) 87) by flc.
    unfold getNumberOfLongitude.
    cbn [floats num of_Z lit litpi add sub mul div ltb leb eqb floor abs max sqrt cos sin acos atan2 pow].
    rewrite (fl_eqb_R _ _ _ _ Fx F0), (fl_eqb_R _ _ _ _ Fw F87), (fl_ltb_R _ _ _ _ F87 Fw).
    rewrite Req_bool_false by (intros Q; unfold w in Hw; rewrite Q, Rabs_R0 in Hw; lra).
    rewrite Req_bool_false by lra. rewrite Rlt_bool_false by lra.
    apply zones_margins with w; auto; [lra|]. apply margins_42. lra.
  - apply zones_point with (ground N T) v; auto; [lra|right; lra|intros E; lra|].
    right. split; [exact Aw|]. left. lra.
Qed.

(* the latitude of a message, its number and its code *)
Lemma sent_ground : forall odd lat, exists T k,
  sent_ground_latitude odd lat = ground (latitude_zones odd) T /\
  encoded (90 / IZR (latitude_zones odd)) lat (surface_latitude odd lat) k /\ (131072 * k + surface_latitude odd lat = T)%Z /\
  90 / IZR (latitude_zones odd) * (IZR k + IZR (surface_latitude odd lat) / 131072) = ground (latitude_zones odd) T.
Proof.
  intros odd lat. set (N := latitude_zones odd).
  assert (NR : IZR N = 59 \/ IZR N = 60) by (unfold N; destruct odd; cbn; auto).
  assert (Hz : 0 < 360 / IZR N) by (apply Rdiv_lt_0_compat; lra).
  set (T := Zfloor (131072 * (lat / (90 / IZR N)) + 1 / 2)).
  assert (E : surface_latitude odd lat = (T mod 131072)%Z).
  { unfold surface_latitude. fold N. rewrite encode_shift by (lia || lra). f_equal. unfold T. f_equal. f_equal.
    change (IZR (2 ^ 19)) with 524288. field. lra. }
  exists T, (T / 131072)%Z. split; [|split; [|split]].
  - unfold sent_ground_latitude. cbv zeta. fold N. unfold MOD. set (zone := 360 / IZR N) in *. set (f := Zfloor (lat / zone)).
    replace (524288 * ((lat - zone * IZR f) / zone) + 1 / 2) with (524288 * (lat / zone) + 1 / 2 - IZR (524288 * f))
      by (rewrite mult_IZR; field; lra).
    rewrite Zfloor_shift. replace (Zfloor (524288 * (lat / zone) + 1 / 2)) with T.
    + rewrite minus_IZR, mult_IZR. unfold ground, zone. field. lra.
    + unfold T, zone. f_equal. f_equal. field. lra.
  - rewrite E. apply encoded_of_floor.
  - rewrite E. rewrite <- Z.div_mod by lia. reflexivity.
  - rewrite E. unfold ground. f_equal. pose proof (Z.div_mod T 131072 ltac:(lia)) as D. apply (f_equal IZR) in D.
    rewrite plus_IZR, mult_IZR in D. lra.
Qed.

(* one message, and a reference *)
Theorem surface_one_everywhere : forall m lat lon x r y s odd n,
  sharp m -> ground_latitude (sent_ground_latitude odd lat) -> zones_at (sent_ground_latitude odd lat) n ->
  fl x r -> Rabs r <= 90 -> fl y s -> Rabs s <= 360 ->
  Rabs (lat - r) <= 90 / IZR (latitude_zones odd) / 2 - 1 / 500 ->
  same_angle lon s (90 / IZR (longitude_zones n odd) / 2 - 1 / 500) ->
  exists X Y v w,
    GetCPRSurfaceLocalPosition (floats m) (surface_latitude odd lat) (surface_longitude n odd lon) x y odd = (X, Y) /\
    fl X v /\ Rabs (v - lat) <= half_step 90 (latitude_zones odd) + 1 / 1000000000 /\
    fl Y w /\ same_angle w lon (half_step 90 (longitude_zones n odd) + 1 / 1000000000).
Proof.
  intros m lat lon x r y s odd n Sh B Z Fx Hr Fy Hs Dl DL.
  destruct (sent_ground odd lat) as (T & k & S & E & C & R). rewrite S in Z, B. pose proof (zones_range _ _ Z) as Hn.
  destruct (encoded_19 (360 / IZR (longitude_zones n odd)) lon) as (kL & EL);
    [apply zone_width; unfold longitude_zones; destruct odd; lia|].
  rewrite quarter in EL by (unfold longitude_zones; destruct odd; lia).
  apply (local_core m 90 (lit (floats m) 90 1) lat lon x r y s odd n (surface_latitude odd lat) (surface_longitude n odd lon) k kL); auto.
  - cbn [lit floats]. flc.
  - intros x' v Fx' _ _ G' Ev _ _. unfold G' in *. rewrite R in Ev.
    apply (zones_ground m (latitude_zones odd) T v x' n); auto. destruct odd; cbn; auto.
Qed.

(* a pair of messages of an aircraft, which may have moved between them: never a wrong position *)
Theorem surface_pair_everywhere : forall m lat0 lon0 lat1 lon1 x r y s n0 n1 (last : bool),
  sharp m ->
  ground_latitude (sent_ground_latitude false lat0) -> ground_latitude (sent_ground_latitude true lat1) ->
  zones_at (sent_ground_latitude false lat0) n0 -> zones_at (sent_ground_latitude true lat1) n1 ->
  0 <= lat0 <= 89.99 /\ 0 <= lat1 <= 89.99 /\ 0 <= r \/ -90 <= lat0 <= -0.0001 /\ -90 <= lat1 <= -0.0001 /\ r < 0 ->
  Rabs (if last then lon0 else lon1) <= 179.999 ->
  fl x r -> fl y s -> Rabs ((if last then lon0 else lon1) - s) <= 44.99 ->
  Rabs (lat0 - lat1) <= 0.0126 -> (n0 = n1 -> short_move 90 n0 lon0 lon1) ->
  let result := GetCPRSurfaceGlobalPosition (floats m) (surface_latitude false lat0) (surface_longitude n0 false lon0)
      (surface_latitude true lat1) (surface_longitude n1 true lon1) last x y in
  if (n0 =? n1)%Z then
    exists X Y v w, result = Ok (X, Y) /\
      fl X v /\ Rabs (v - (if last then lat0 else lat1)) <= half_step 90 (latitude_zones (negb last)) + 1 / 100000000000 /\
      fl Y w /\ Rabs (w - (if last then lon0 else lon1)) <= half_step 90 (longitude_zones n0 (negb last)) + 1 / 1000000000
  else exists error, result = Err error.
Proof.
  intros m lat0 lon0 lat1 lon1 x r y s n0 n1 last Sh B0 B1 Z0 Z1 Hlat Hlon Fx Fy Hs Hm Hl result.
  destruct (sent_ground false lat0) as (T0 & k0 & S0 & E0 & C0 & R0).
  destruct (sent_ground true lat1) as (T1 & k1 & S1 & E1 & C1 & R1).
  cbn [latitude_zones] in *. rewrite S0 in Z0, B0. rewrite S1 in Z1, B1.
  destruct (surface_moving_core m lat0 lon0 lat1 lon1 x r y s n0 n1 last k0 k1 (zones_range _ _ Z0) E0 E1) as [Err' Ok']; auto.
  - intros x' v F B. rewrite R0 in B. apply (zones_ground m 60 T0 v x' n0); auto.
  - intros x' v F B. rewrite R1 in B. apply (zones_ground m 59 T1 v x' n1); auto.
  - destruct (Z.eqb_spec n0 n1) as [E|E].
    + unfold result. rewrite <- E. apply Ok'; auto.
    + apply Err'; [exact E| |exact (encode_code _ _ _)|exact (encode_code _ _ _)].
      apply Rabs_le_inv in Hlon, Hs. apply Rabs_le. lra.
Qed.

(* every message has a number of zones, and one only; and it stands for a latitude within half a step *)
Theorem sent_ground_zones : forall odd lat, -90 <= lat <= 90 ->
  (exists n, zones_at (sent_ground_latitude odd lat) n) /\
  (forall n n', zones_at (sent_ground_latitude odd lat) n -> zones_at (sent_ground_latitude odd lat) n' -> n = n') /\
  Rabs (sent_ground_latitude odd lat - lat) <= half_step 90 (latitude_zones odd) /\
  (1 / 10000 <= Rabs lat <= 86.9998 -> ground_latitude (sent_ground_latitude odd lat)).
Proof.
  intros odd lat B. destruct (sent_ground odd lat) as (T & k & S & E & C & R).
  assert (N : 59 <= IZR (latitude_zones odd) <= 60) by (destruct odd; cbn; lra).
  assert (Nr : Rabs (sent_ground_latitude odd lat - lat) <= half_step 90 (latitude_zones odd)).
  { rewrite S, <- R. rewrite Rabs_minus_sym. apply encoded_near; [|exact E]. apply Rdiv_lt_0_compat; lra. }
  assert (Hh : half_step 90 (latitude_zones odd) <= 0.00001) by (unfold half_step; destruct odd; cbn [latitude_zones]; lra).
  assert (A : Rabs (Rabs (sent_ground_latitude odd lat) - Rabs lat) <= 0.00001).
  { eapply Rle_trans; [apply Rabs_triang_inv2|]. lra. }
  apply Rabs_le_inv in A.
  assert (Bl : Rabs lat <= 90) by (apply Rabs_le; lra).
  split; [|split; [|split; [exact Nr|]]].
  - assert (G : Rabs (sent_ground_latitude odd lat) <= 90).
    { rewrite S. apply Rabs_le. unfold encoded in E. destruct E as [E1 E2]. rewrite C in E2.
      apply Rabs_le_inv in E2. unfold ground. set (N0 := latitude_zones odd) in *.
      assert (Q : 131072 * (lat / (90 / IZR N0)) = 131072 * IZR N0 / 90 * lat) by (field; lra). rewrite Q in E2.
      assert (BT : (- (131072 * N0) <= T <= 131072 * N0)%Z).
      { assert (H1 : IZR T < IZR (131072 * N0 + 1)) by (rewrite plus_IZR, mult_IZR; unfold N0 in *; destruct odd; cbn [latitude_zones] in *; lra).
        assert (H2 : IZR (- (131072 * N0) - 1) < IZR T) by (rewrite minus_IZR, opp_IZR, mult_IZR; unfold N0 in *; destruct odd; cbn [latitude_zones] in *; lra).
        apply lt_IZR in H1, H2. lia. }
      destruct BT as [B1 B2]. apply IZR_le in B1, B2. rewrite opp_IZR, mult_IZR in B1. rewrite mult_IZR in B2.
      unfold N0 in *. destruct odd; cbn [latitude_zones] in *; lra. }
    destruct (number_of_zones _ G) as (n & _ & Z). exists n. exact Z.
  - intros n n'. apply zones_unique.
  - intros L. split; lra.
Qed.

(* next to the latitude where 42 zones become 41, the even and the odd message of one position differ *)
Lemma ground_value : forall odd lat T, Rabs (131072 * IZR (latitude_zones odd) / 90 * lat - IZR T) < 1 / 2 ->
  sent_ground_latitude odd lat = ground (latitude_zones odd) T.
Proof.
  intros odd lat T H. destruct (sent_ground odd lat) as (T' & k & S & E & C & R). rewrite S. f_equal.
  unfold encoded in E. destruct E as [_ E]. rewrite C in E.
  replace (131072 * (lat / (90 / IZR (latitude_zones odd)))) with (131072 * IZR (latitude_zones odd) / 90 * lat) in E
    by (field; destruct odd; cbn; lra).
  apply Rabs_lt_inv in H. apply Rabs_le_inv in E. set (q := _ * lat) in *. clearbody q.
  assert (D : -1 < IZR (T' - T) < 1) by (rewrite minus_IZR; lra). destruct D as [D1 D2]. apply lt_IZR in D1, D2. lia.
Qed.

Example closest : let lat := 45.546266 in
  ground_latitude (sent_ground_latitude false lat) /\ ground_latitude (sent_ground_latitude true lat) /\
  zones_at (sent_ground_latitude false lat) 42 /\ zones_at (sent_ground_latitude true lat) 41.
Proof.
  cbv zeta.
  assert (V0 : sent_ground_latitude false 45.546266 = ground 60 3979893).
  { apply (ground_value false). cbn [latitude_zones]. apply Rabs_lt. lra. }
  assert (V1 : sent_ground_latitude true 45.546266 = ground 59 3913562).
  { apply (ground_value true). cbn [latitude_zones]. apply Rabs_lt. lra. }
  rewrite V0, V1.
  assert (A : forall k t, In (k, t) nl_table -> (k <= 41)%Z /\ 4600000000 <= IZR t \/ k = 42%Z /\ t = 4554626723%Z \/ (43 <= k)%Z /\ IZR t <= 4500000000).
  { intros k t H. cbn [nl_table In] in H.
    repeat (destruct H as [H|H]; [inversion H; subst k t; first [left; split; [lia|lra]|right; left; split; reflexivity|right; right; split; [lia|lra]]|]). destruct H. }
  split; [|split; [|split]].
  - unfold ground_latitude. rewrite ground_abs by lia. unfold ground. cbn [Z.abs]. lra.
  - unfold ground_latitude. rewrite ground_abs by lia. unfold ground. cbn [Z.abs]. lra.
  - apply zones_by_table; [unfold ground; lra| |split; [lia|]]; intros k t H;
      assert (Rabs (ground 60 3979893) = ground 60 3979893) as -> by (apply Rabs_pos_eq; unfold ground; lra); unfold degrees, ground;
      destruct (A k t H) as [[K L]|[[K L]|[K L]]].
    + unfold Rabs. destruct (Rcase_abs _); lra.
    + subst t. unfold Rabs. destruct (Rcase_abs _); lra.
    + unfold Rabs. destruct (Rcase_abs _); lra.
    + split; intros; [lra|lia].
    + subst t. split; intros; [lra|lia].
    + split; intros; [lia|exfalso; lra].
  - split; [lia|]. intros k K. destruct (table_full k K) as [t I]. destruct (row k t I) as (_ & W1 & W2).
    assert (G : Rabs (ground 59 3913562) = 90 / 59 * (3913562 / 131072)) by (rewrite ground_abs by lia; reflexivity).
    specialize (W1 (ground 59 3913562)). specialize (W2 (ground 59 3913562)). rewrite G in W1, W2. destruct (A k t I) as [[H L]|[[H L]|[H L]]].
    + split; [intros _|lia]. apply W1. unfold degrees. rewrite minus_IZR. lra.
    + subst k. split; [lia|]. intros W. exfalso. apply within_ratio in W; [|unfold ground; lra].
      pose proof (ratio_42 (ground 59 3913562) ltac:(unfold ground; lra)). change (IZR 42) with 42 in W. lra.
    + split; [lia|]. intros W. exfalso. apply W2 in W; [exact W|]. unfold degrees. rewrite plus_IZR. lra.
Qed.
