(* C107: airborne positions at every latitude, with no exception. *)
From Verif Require Import GoBase.
From Verif.Model Require Import Geo.
From Coq Require Import ZArith Reals Lia Lra Psatz List.
From Coq Require Import Floats.SpecFloat.
From Flocq Require Import Core BinarySingleNaN.
From Verif.Spec Require Import Binary64 Cpr Geodesy MathLib ZoneTable Precise Sent.
From Verif.Proofs Require Import FloatR FloatOps CprFloat CprReal CprGlobal CprLocal CprMoving GeoReals ZonesReal ZonesFloat ZoneTable ZonesFine ZonesGrid Equator.
Local Open Scope R_scope.

Lemma recovered_code : forall zone x, 0 < zone -> let y := Zfloor (131072 * (x / zone) + 1 / 2) in
  encoded zone x (encode 17 zone x) (y / 131072) /\ recovered zone x = zone * (IZR y / 131072) /\
  (131072 * (y / 131072) + encode 17 zone x = y)%Z.
Proof.
  intros zone x Hz y. assert (E : encode 17 zone x = (y mod 131072)%Z) by (apply encode_shift; [lia|lra]).
  split; [rewrite E; apply encoded_of_floor|]. split; [|rewrite E; rewrite <- Z.div_mod by lia; reflexivity].
  unfold recovered, MOD. f_equal. set (f := Zfloor (x / zone)).
  replace (131072 * ((x - zone * IZR f) / zone) + 1 / 2) with (131072 * (x / zone) + 1 / 2 - IZR (131072 * f))
    by (rewrite mult_IZR; field; lra).
  rewrite Zfloor_shift. fold y. rewrite minus_IZR, mult_IZR. field.
Qed.

(* the latitude of a message, its number and its code *)
Lemma sent_grid : forall odd lat, -90 <= lat <= 90 -> exists T k,
  sent_latitude odd lat = grid (latitude_zones odd) T /\ Rabs (grid (latitude_zones odd) T) <= 90 /\
  encoded (360 / IZR (latitude_zones odd)) lat (airborne_latitude odd lat) k /\ (131072 * k + airborne_latitude odd lat = T)%Z /\
  360 / IZR (latitude_zones odd) * (IZR k + IZR (airborne_latitude odd lat) / 131072) = grid (latitude_zones odd) T.
Proof.
  intros odd lat B. set (N := latitude_zones odd).
  assert (HN : (N = 59 \/ N = 60)%Z) by (unfold N; destruct odd; cbn; auto).
  assert (NR : IZR N = 59 \/ IZR N = 60) by (destruct HN as [-> | ->]; auto).
  destruct (recovered_code (360 / IZR N) lat) as (E & R & C); [apply Rdiv_lt_0_compat; lra|].
  set (T := Zfloor (131072 * (lat / (360 / IZR N)) + 1 / 2)) in *.
  exists T, (T / 131072)%Z. split; [exact R|]. split; [|split; [exact E|split; [exact C|]]].
  - assert (Q : 131072 * (lat / (360 / IZR N)) = 131072 * IZR N / 360 * lat) by (field; lra).
    pose proof (Zfloor_lb (131072 * (lat / (360 / IZR N)) + 1 / 2)) as L. pose proof (Zfloor_ub (131072 * (lat / (360 / IZR N)) + 1 / 2)) as U.
    fold T in L, U. rewrite Q in L, U.
    assert (BT : (- (32768 * N) <= T <= 32768 * N)%Z).
    { assert (IZR T < IZR (32768 * N + 1)) by (rewrite plus_IZR, mult_IZR; destruct NR as [E'|E']; rewrite E' in *; lra).
      assert (IZR (- (32768 * N) - 1) < IZR T) by (rewrite minus_IZR, opp_IZR, mult_IZR; destruct NR as [E'|E']; rewrite E' in *; lra).
      apply lt_IZR in H, H0. lia. }
    destruct BT as [B1 B2]. apply IZR_le in B1, B2. rewrite opp_IZR, mult_IZR in B1. rewrite mult_IZR in B2.
    unfold grid. apply Rabs_le. destruct NR as [E'|E']; rewrite E' in *; lra.
  - pose proof (f_equal IZR C) as C'. rewrite plus_IZR, mult_IZR in C'. change (encode 17 (360 / IZR N) lat) with (airborne_latitude odd lat) in C'.
    unfold grid. rewrite <- C'. field. destruct NR; lra.
Qed.

Lemma zones_range : forall lat n, zones_at lat n -> (1 <= n <= 59)%Z.
Proof. intros lat n [B _]. exact B. Qed.

(* a pair of messages of an aircraft, which may have moved between them: never a wrong position *)
Theorem airborne_pair_everywhere : forall m lat0 lon0 lat1 lon1 n0 n1 last,
  sharp m -> -90 <= lat0 <= 90 -> -90 <= lat1 <= 90 ->
  zones_at (sent_latitude false lat0) n0 -> zones_at (sent_latitude true lat1) n1 ->
  Rabs (lat0 - lat1) <= 0.0507 -> (n0 = n1 -> short_move 360 n0 lon0 lon1) ->
  let result := GetCPRAirborneGlobalPosition (floats m) (airborne_latitude false lat0) (airborne_longitude n0 false lon0)
      (airborne_latitude true lat1) (airborne_longitude n1 true lon1) last in
  if (n0 =? n1)%Z then
    exists x y v w, result = Ok (x, y) /\
      fl x v /\ Rabs (v - (if last then lat0 else lat1)) <= half_step 360 (latitude_zones (negb last)) + 1 / 100000000000 /\
      fl y w /\ -180 < w <= 180 /\
      same_angle w (if last then lon0 else lon1) (half_step 360 (longitude_zones n0 (negb last)) + 1 / 100000000000)
  else exists error, result = Err error.
Proof.
  intros m lat0 lon0 lat1 lon1 n0 n1 last Sh B0 B1 Z0 Z1 Hm Hl result.
  destruct (sent_grid false lat0 B0) as (T0 & k0 & S0 & G0 & E0 & C0 & R0).
  destruct (sent_grid true lat1 B1) as (T1 & k1 & S1 & G1 & E1 & C1 & R1).
  cbn [latitude_zones] in *. rewrite S0 in Z0. rewrite S1 in Z1.
  destruct (airborne_moving_core m lat0 lon0 lat1 lon1 n0 n1 last k0 k1 B0 B1 (zones_range _ _ Z0) (zones_range _ _ Z1) E0 E1) as [Err' Ok']; auto.
  - intros x v Fx _ _ Ev. rewrite R0 in Ev. apply (zones_grid m 60 T0 v x n0); auto.
    + rewrite Ev, Rminus_diag_eq, Rabs_R0 by reflexivity. lra.
    + intros T. rewrite Ev, T. unfold grid. lra.
  - intros x v Fx _ _ Ev V0. rewrite R1 in Ev. rewrite C1 in V0. apply (zones_grid m 59 T1 v x n1); auto; [lra|]. intros N; discriminate N.
  - destruct (Z.eqb_spec n0 n1) as [E|E].
    + apply Ok'; auto.
    + apply Err'; [exact E|apply encode_code|apply encode_code].
Qed.

(* one message, and a reference *)
Theorem airborne_one_everywhere : forall m lat lon x r y s odd n,
  sharp m -> -90 <= lat <= 90 -> zones_at (sent_latitude odd lat) n ->
  fl x r -> Rabs r <= 90 -> fl y s -> Rabs s <= 360 ->
  Rabs (lat - r) <= 360 / IZR (latitude_zones odd) / 2 - 1 / 500 ->
  same_angle lon s (360 / IZR (longitude_zones n odd) / 2 - 1 / 500) ->
  exists X Y v w,
    GetCPRAirborneLocalPosition (floats m) (airborne_latitude odd lat) (airborne_longitude n odd lon) x y odd = (X, Y) /\
    fl X v /\ Rabs (v - lat) <= half_step 360 (latitude_zones odd) + 1 / 1000000000 /\
    fl Y w /\ same_angle w lon (half_step 360 (longitude_zones n odd) + 1 / 1000000000).
Proof.
  intros m lat lon x r y s odd n Sh B Z Fx Hr Fy Hs Dl DL.
  destruct (sent_grid odd lat B) as (T & k & S & G & E & C & R). rewrite S in Z.
  destruct (encoded_17 (360 / IZR (longitude_zones n odd)) lon) as (kL & EL);
    [apply zone_width; pose proof (zones_range _ _ Z); unfold longitude_zones; destruct odd; lia|].
  apply (local_core m 360 _ lat lon x r y s odd n _ _ k kL); auto.
  - cbn [lit floats]. flc.
  - exact (zones_range _ _ Z).
  - intros x' v Fx' _ _ G' Ev V0 V60. unfold G' in *. rewrite R in Ev, V60. rewrite C in V0.
    apply (zones_grid m (latitude_zones odd) T v x' n); auto. destruct odd; cbn; auto.
Qed.

(* an aircraft which does not move, and the two messages of which have the same number of zones *)
Theorem airborne_still_everywhere : forall m lat lon n last,
  sharp m -> -90 <= lat <= 90 -> zones_at (sent_latitude false lat) n -> zones_at (sent_latitude true lat) n ->
  exists x y v w,
    GetCPRAirborneGlobalPosition (floats m) (airborne_latitude false lat) (airborne_longitude n false lon)
      (airborne_latitude true lat) (airborne_longitude n true lon) last = Ok (x, y) /\
    fl x v /\ Rabs (v - lat) <= half_step 360 (latitude_zones (negb last)) + 1 / 100000000000 /\
    fl y w /\ -180 < w <= 180 /\
    same_angle w lon (half_step 360 (longitude_zones n (negb last)) + 1 / 100000000000).
Proof.
  intros m lat lon n last Sh B Z0 Z1.
  pose proof (airborne_pair_everywhere m lat lon lat lon n n last Sh B B Z0 Z1) as H. cbv zeta in H. rewrite Z.eqb_refl in H.
  assert (I : (if last then lat else lat) = lat) by (destruct last; reflexivity).
  assert (J : (if last then lon else lon) = lon) by (destruct last; reflexivity). rewrite I, J in H.
  apply H.
  - rewrite Rminus_diag_eq, Rabs_R0 by reflexivity. lra.
  - intros _. destruct (Z.eq_dec n 1) as [N|N]; [left; exact N|right]. exists 0%Z.
    rewrite Rmult_0_r, Rminus_0_r, Rminus_diag_eq, Rabs_R0 by reflexivity. pose proof (zones_range _ _ Z0).
    assert (0 < IZR (n * (n - 1))) by (apply IZR_lt; nia). apply Rlt_le, Rdiv_lt_0_compat; lra.
Qed.

(* every message has a number of zones, and one only; and it stands for a latitude within half a step *)
Theorem sent_zones : forall odd lat, -90 <= lat <= 90 ->
  (exists n, zones_at (sent_latitude odd lat) n) /\
  (forall n n', zones_at (sent_latitude odd lat) n -> zones_at (sent_latitude odd lat) n' -> n = n') /\
  Rabs (sent_latitude odd lat - lat) <= half_step 360 (latitude_zones odd).
Proof.
  intros odd lat B. destruct (sent_grid odd lat B) as (T & k & S & G & E & C & R). split; [|split].
  - rewrite S. destruct (number_of_zones _ G) as (n & _ & Z). exists n. exact Z.
  - intros n n'. apply zones_unique.
  - rewrite S, <- R. rewrite Rabs_minus_sym. apply encoded_near; [|exact E].
    apply Rdiv_lt_0_compat; [lra|]. destruct odd; cbn; lra.
Qed.

(* ---- the hypotheses can be met: a library; and next to the latitude where 59 zones become 58, where the even and
   the odd message of one position differ ---- *)
Example sharp_exists : exists m, sharp m.
Proof.
  assert (V : forall x v, fl x v -> SF2R radix2 x = v) by (intros x v (b & -> & _ & <-); apply SF2R_B2SF).
  exists (mkMathlib (fun x => near51 (Rtrigo_def.cos (SF2R radix2 x))) (fun x => near51 0) (fun x => near51 (Ratan.acos (SF2R radix2 x)))
            (fun y x => near51 0) (fun x _ => near51 (SF2R radix2 x * SF2R radix2 x))).
  unfold sharp. cbn [m_cos m_pow m_acos]. split; [|split]; intros x v Fx H; rewrite (V _ _ Fx); apply Rabs_le_inv in H.
  - apply near51_about, Rabs_le. pose proof (COS_bound v). lra.
  - apply near51_about, Rabs_le. split; nra.
  - apply about_weaken with fine; [|unfold fine, tolerance; lra]. apply near51_about, Rabs_le.
    pose proof (acos_bound v). pose proof PI_tight. lra.
Qed.

Lemma sent_value : forall odd lat T, Rabs (131072 * IZR (latitude_zones odd) / 360 * lat - IZR T) < 1 / 2 ->
  sent_latitude odd lat = grid (latitude_zones odd) T.
Proof.
  intros odd lat T H. assert (NR : IZR (latitude_zones odd) = 59 \/ IZR (latitude_zones odd) = 60) by (destruct odd; cbn; auto).
  destruct (recovered_code (360 / IZR (latitude_zones odd)) lat) as (_ & R & _); [apply Rdiv_lt_0_compat; lra|].
  unfold sent_latitude. rewrite R. unfold grid. do 2 f_equal. apply f_equal, Zfloor_imp. rewrite plus_IZR.
  replace (131072 * (lat / (360 / IZR (latitude_zones odd)))) with (131072 * IZR (latitude_zones odd) / 360 * lat) by (field; lra).
  apply Rabs_lt_inv in H. lra.
Qed.

Lemma zones_by_table : forall lat n, 0 <= lat <= 90 -> away (1 / 100000000) lat -> tabulated lat n -> zones_at lat n.
Proof. intros lat n B A T. apply zones_tabulated; [rewrite Rabs_pos_eq; lra|exact A|exact T]. Qed.

Example between_zones : zones_at (sent_latitude false 10.470455) 58 /\ zones_at (sent_latitude true 10.470455) 59.
Proof.
  split.
  - rewrite (sent_value false _ 228731) by (cbn [latitude_zones]; apply Rabs_lt; lra). unfold grid. cbn [latitude_zones].
    apply zones_by_table; [lra| |split; [lia|]]; intros k t H; rewrite (Rabs_pos_eq (360 / 60 * (228731 / 131072))) by lra; unfold degrees; cbn [nl_table In] in H.
    + repeat (destruct H as [H|H]; [inversion H; subst k t; unfold Rabs; destruct (Rcase_abs _); lra|]). destruct H.
    + repeat (destruct H as [H|H]; [inversion H; subst k t; split; intros; first [lra|lia|exfalso; lra]|]). destruct H.
  - rewrite (sent_value true _ 224918) by (cbn [latitude_zones]; apply Rabs_lt; lra). unfold grid. cbn [latitude_zones].
    apply zones_by_table; [lra| |split; [lia|]]; intros k t H; rewrite (Rabs_pos_eq (360 / 59 * (224918 / 131072))) by lra; unfold degrees; cbn [nl_table In] in H.
    + repeat (destruct H as [H|H]; [inversion H; subst k t; unfold Rabs; destruct (Rcase_abs _); lra|]). destruct H.
    + repeat (destruct H as [H|H]; [inversion H; subst k t; split; intros; first [lra|lia|exfalso; lra]|]). destruct H.
Qed.

(* at 87 degrees north, the even message has two zones and the odd one has two as well *)
Example pole_side : zones_at (sent_latitude false 87) 2 /\ zones_at (sent_latitude true 87) 2.
Proof.
  assert (Z87 : zones_at 87 2) by (destruct (number_of_zones 87 ltac:(rewrite Rabs_pos_eq; lra)) as (n & _ & Z); rewrite <- (zones_87 n Z); exact Z).
  split.
  - rewrite (sent_value false _ 1900544) by (cbn [latitude_zones]; apply Rabs_lt; lra). unfold grid. cbn [latitude_zones].
    replace (360 / 60 * (1900544 / 131072)) with 87 by lra. exact Z87.
  - rewrite (sent_value true _ 1868868) by (cbn [latitude_zones]; apply Rabs_lt; lra). unfold grid. cbn [latitude_zones].
    apply zones_by_table; [lra| |split; [lia|]]; intros k t H; rewrite (Rabs_pos_eq (360 / 59 * (1868868 / 131072))) by lra; unfold degrees; cbn [nl_table In] in H.
    + repeat (destruct H as [H|H]; [inversion H; subst k t; unfold Rabs; destruct (Rcase_abs _); lra|]). destruct H.
    + repeat (destruct H as [H|H]; [inversion H; subst k t; split; intros; first [lra|lia|exfalso; lra]|]). destruct H.
Qed.
