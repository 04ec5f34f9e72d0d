(* C77: the track computed from the two components of the ground speed, in binary64, then binary32. *)
From Verif.Proofs Require Import Tac.
From Verif.Spec Require Import Velocity AdsbMessages.
From Verif.Gen Require bds09 bds09_fields adsb_airborne_velocity.
From Verif.Model Require Import AdsbReader Geo.
From Verif.Proofs Require Import AdsbApi.
From Coq Require Import Reals Lra Psatz Floats.SpecFloat.
From Flocq Require Import Core BinarySingleNaN.
From Verif.Spec Require Import MathLib Track.
From Verif.Proofs Require Import FloatR FloatOps CprFloat ZonesReal CprAccurate DistanceFloat.
Local Open Scope R_scope.

Local Instance Hprec32 : Prec_gt_0 24. Proof. reflexivity. Qed.
Local Instance Hmax32 : Prec_lt_emax 24 128. Proof. reflexivity. Qed.
Local Instance Hvalid32 : Valid_exp (SpecFloat.fexp 24 128) := fexp_correct 24 128 Hprec32.

Definition rnd32 (r : R) : R := round radix2 (SpecFloat.fexp 24 128) ZnearestE r.

Lemma round_equiv32 s m e : SpecFloat.binary_round 24 128 s m e = binary_round 24 128 mode_NE s m e.
Proof.
  unfold SpecFloat.binary_round, binary_round, shl_align_fexp.
  set (mez := shl_align _ _ _); case mez as [mz ez].
  unfold SpecFloat.binary_round_aux, binary_round_aux.
  set (mrse' := shr_fexp _ _ _ _ _). case mrse'; intros mrs' e'; simpl.
  now rewrite (rne_equiv s).
Qed.

Lemma rnd32_le : forall a b, a <= b -> rnd32 a <= rnd32 b.
Proof. intros a b H. unfold rnd32. apply round_le; auto with typeclass_instances. Qed.

Lemma rnd32_IZR : forall m, (Z.abs m < 2 ^ 24)%Z -> rnd32 (IZR m) = IZR m.
Proof.
  intros m H. unfold rnd32. apply round_generic; [auto with typeclass_instances|].
  change (SpecFloat.fexp 24 128) with (FLT_exp (-149) 24). apply generic_format_FLT.
  exists (Float radix2 m 0); [unfold F2R; cbn; ring|exact H|cbn; lia].
Qed.

Lemma rnd32_err : forall a, 0 <= a <= 360 -> Rabs (rnd32 a - a) <= / 65536.
Proof.
  intros a H. destruct (Req_dec a 0) as [->|Z].
  { rewrite (rnd32_IZR 0) by lia. rewrite Rminus_diag_eq, Rabs_R0 by reflexivity. lra. }
  unfold rnd32. eapply Rle_trans; [apply error_le_half_ulp; exact Hvalid32|].
  apply Rle_trans with (/ 2 * bpow radix2 (-15)); [|cbn; lra].
  apply Rmult_le_compat_l; [lra|].
  rewrite ulp_neq_0 by exact Z. apply bpow_le. unfold cexp, SpecFloat.fexp, SpecFloat.emin.
  pose proof (mag_le_bpow radix2 a 9 Z ltac:(rewrite Rabs_pos_eq; cbn; lra)). lia.
Qed.

Lemma fl32_of_f64 : forall x v, fl x v -> 0 <= v <= 360 -> fl32 (f32_of_f64 x) (rnd32 v).
Proof.
  intros x v (b & -> & F & <-) H. destruct b as [s|s| |s m e B]; try discriminate F.
  - exists (B754_zero s). split; [reflexivity|]. split; [reflexivity|]. cbn. symmetry. exact (rnd32_IZR 0 ltac:(lia)).
  - cbn [B2SF f32_of_f64]. rewrite round_equiv32.
    destruct (binary_round_correct 24 128 Hprec32 Hmax32 mode_NE s m e) as (V & C). cbv zeta in C.
    change (F2R (Float radix2 (cond_Zopp s (Z.pos m)) e)) with (B2R (B754_finite s m e B)) in C.
    change (round radix2 (SpecFloat.fexp 24 128) (round_mode mode_NE)) with rnd32 in C.
    rewrite Rlt_bool_true in C.
    2: { apply Rle_lt_trans with 360; [|apply Rlt_le_trans with (bpow radix2 9); [cbn; lra|apply bpow_le; lia]].
         pose proof (rnd32_le _ _ (proj1 H)) as L0. pose proof (rnd32_le _ _ (proj2 H)) as L1.
         rewrite rnd32_IZR in L0, L1 by lia. apply Rabs_le. lra. }
    destruct C as (C1 & C2 & _).
    exists (SF2B _ V). split; [symmetry; apply B2SF_SF2B|]. split; [rewrite is_finite_SF2B; exact C2|].
    rewrite B2R_SF2B. exact C1.
Qed.

Lemma fl_opp : forall x v, fl x v -> fl (SFopp x) (- v).
Proof.
  intros x v (b & -> & F & <-). exists (Bopp b). split; [destruct b; reflexivity|].
  split; [rewrite is_finite_Bopp; exact F|apply B2R_Bopp].
Qed.

(* what GetTrack computes from the two components *)
Definition track64 (f : f64 -> f64 -> f64) (x y : f64) : f64 :=
  let d := f64_mul (f x y) (S754_finite false 8063664102031864 (-47)) in
  if fl_ltb d (f64_lit 0 1) then f64_add d (f64_lit 360 1) else d.

Lemma lit_deg : exists c, fl (S754_finite false 8063664102031864 (-47)) c /\ 57.2957795130823 <= c <= 57.2957795130824 /\
  Rabs (c * PI - 180) <= 0.0000000000001.
Proof.
  eexists. split; [apply fl_literal; reflexivity|]. cbn [cond_Zopp].
  replace (bpow radix2 (-47)) with (/ 140737488355328) by reflexivity.
  pose proof PI_tight. split; [split; lra|]. apply Rabs_le. lra.
Qed.

(* in degrees *)
Lemma degrees : forall t a, about t a tolerance -> - PI <= a <= PI ->
  exists d, fl (f64_mul t (S754_finite false 8063664102031864 (-47))) d /\ Rabs (d - a * 180 / PI) <= 0.000000000001.
Proof.
  intros t a (v & Fv & Ev) Ha. destruct lit_deg as (c & Fc & Bc & Ec). unfold tolerance in Ev.
  pose proof PI_tight as P. apply Rabs_le_inv in Ev, Ec.
  assert (B : -180.1 <= v * c <= 180.1) by nra.
  pose proof (fl_mul _ _ _ _ Fv Fc ltac:(apply big_le30, Rabs_le; lra)) as F.
  destruct (rnd_at 8 (v * c) ltac:(lia) ltac:(apply Rabs_le; cbn; lra)) as (e & Re & Ee).
  change (8 - 53)%Z with (-45)%Z in Ee. cbn in Ee. rewrite Re in F. apply Rabs_le_inv in Ee.
  exists (v * c + e). split; [exact F|]. apply abs_le.
  assert (D : a * 180 / PI = a * c - (a / PI) * (c * PI - 180)) by (field; lra).
  assert (Q : -1 <= a / PI <= 1).
  { split; apply Rmult_le_reg_r with PI; try lra; unfold Rdiv; rewrite Rmult_assoc, Rinv_l by lra; lra. }
  rewrite D. assert (-0.0000000000001 <= a / PI * (c * PI - 180) <= 0.0000000000001) by nra.
  assert (-0.000000000000574 <= (v - a) * c <= 0.000000000000574) by nra. lra.
Qed.

Lemma small_angle : forall k l a, (Z.abs k <= 4084)%Z -> (Z.abs l <= 4084)%Z ->
  IZR k = sqrt (IZR k * IZR k + IZR l * IZR l) * sin a -> IZR l = sqrt (IZR k * IZR k + IZR l * IZR l) * cos a ->
  - / 6000 < a < / 6000 -> k = 0%Z /\ (0 <= l)%Z.
Proof.
  intros k l a Hk Hl Es Ec Ha. pose proof PI_tight as P.
  set (r := sqrt _) in *. assert (R0 : 0 <= r) by apply sqrt_pos.
  assert (R1 : r <= 5780).
  { unfold r. rewrite <- (sqrt_Rsqr 5780) by lra. apply sqrt_le_1_alt. unfold Rsqr. rewrite <- !mult_IZR, <- plus_IZR. apply IZR_le. nia. }
  assert (C : 0 < cos a) by (apply cos_gt_0; lra).
  pose proof (sin_lip a 0) as S. rewrite sin_0, !Rminus_0_r in S.
  assert (S' : Rabs (sin a) < / 6000). { apply Rle_lt_trans with (1 := S). apply Rabs_lt. lra. }
  apply Rabs_def2 in S'. split.
  - assert (-1 < IZR k < 1) by (rewrite Es; nra). assert (-1 < k)%Z by (apply lt_IZR; lra). assert (k < 1)%Z by (apply lt_IZR; lra). lia.
  - apply le_IZR. rewrite Ec. apply Rmult_le_pos; lra.
Qed.

Lemma lit0 : fl (f64_lit 0 1) 0. Proof. apply fl_zero. Qed.
Lemma lit360 : fl (f64_lit 360 1) 360. Proof. flc. Qed.

Lemma positive_track : forall d v, fl d v -> 0 <= v -> (if fl_ltb d (f64_lit 0 1) then f64_add d (f64_lit 360 1) else d) = d.
Proof. intros d v F H. rewrite (fl_ltb_R _ _ _ _ F lit0). rewrite Rlt_bool_false by lra. reflexivity. Qed.
Lemma negative_track : forall d v, fl d v -> -200 <= v < 0 ->
  exists u, fl (if fl_ltb d (f64_lit 0 1) then f64_add d (f64_lit 360 1) else d) u /\ 0 <= u <= 360 /\ Rabs (u - (v + 360)) <= 0.0000000000001.
Proof.
  intros d v F H. rewrite (fl_ltb_R _ _ _ _ F lit0). rewrite Rlt_bool_true by lra.
  exists (rnd (v + 360)). split; [|split].
  - apply fl_add; [exact F|exact lit360|]. apply big_le30, Rabs_le. lra.
  - rewrite <- (rnd_IZR 0) at 1 by lia. rewrite <- (rnd_IZR 360) at 3 by lia. split; apply rnd_le; lra.
  - eapply Rle_trans; [apply (rnd_err 9); [lia|apply Rabs_le; cbn; lra]|]. cbn. lra.
Qed.

Lemma track64_ok : forall f x y k l, accurate_atan2 f -> fl x (IZR k) -> fl y (IZR l) -> (Z.abs k <= 4084)%Z -> (Z.abs l <= 4084)%Z ->
  exists u, fl (track64 f x y) u /\ 0 <= u <= 360 /\
    ((k <> 0 \/ l <> 0)%Z -> u <= 359.999 /\ exists theta, bearing (IZR k) (IZR l) theta /\ Rabs (u - theta) <= 0.00000000001).
Proof.
  intros f x y k l [A A0] Fx Fy Hk Hl. pose proof PI_tight as P. unfold track64. cbv zeta.
  assert (Z1 : forall z, (Z.abs z <= 4084)%Z -> Rabs (IZR z) <= 5000).
  { intros z Hz. rewrite <- abs_IZR. apply IZR_le. lia. }
  destruct (A _ _ _ _ Fx Fy (Z1 k Hk) (Z1 l Hl)) as (a & Ba & Es & Ec & Ab).
  destruct (degrees _ _ Ab Ba) as (d & Fd & Ed). apply Rabs_le_inv in Ed.
  assert (Q : -180 <= a * 180 / PI <= 180).
  { split; apply Rmult_le_reg_r with PI; try lra; unfold Rdiv; rewrite Rmult_assoc, Rinv_l by lra; lra. }
  assert (Z2 : a * 180 / PI * PI / 180 = a) by (field; lra).
  destruct (Rlt_le_dec a (/ 6000)) as [L1|L1]; [destruct (Rlt_le_dec (- / 6000) a) as [L2|L2]|].
  - destruct (small_angle k l a Hk Hl Es Ec (conj L2 L1)) as [K0 L0]. subst k.
    destruct (Z.eq_dec l 0) as [->|N].
    + destruct (Rlt_le_dec d 0) as [D|D].
      * destruct (negative_track _ _ Fd) as (u & Fu & Bu & _); [lra|]. exists u. split; [exact Fu|]. split; [exact Bu|]. lia.
      * rewrite (positive_track _ _ Fd D). exists d. split; [exact Fd|]. split; [lra|lia].
    + assert (W : 0 < IZR l <= 5000). { split; [apply IZR_lt|apply IZR_le]; lia. }
      pose proof (A0 _ _ _ Fx Fy W) as F0. destruct lit_deg as (c & Fc & Bc & _).
      pose proof (fl_mul _ _ _ _ F0 Fc ltac:(apply big_le30; rewrite Rmult_0_l, Rabs_R0; lra)) as F1.
      rewrite Rmult_0_l, (rnd_IZR 0) in F1 by lia. rewrite (positive_track _ _ F1) by lra. exists 0.
      split; [exact F1|]. split; [lra|]. intros _. split; [lra|]. exists 0. split.
      * unfold bearing. split; [lra|]. replace (0 * PI / 180) with 0 by field. rewrite sin_0, cos_0.
        rewrite !Rmult_0_l, Rplus_0_l, !Rmult_0_r, Rmult_1_r. split; [reflexivity|]. rewrite sqrt_square; lra.
      * rewrite Rminus_diag_eq, Rabs_R0 by reflexivity. lra.
  - assert (Qn : a * 180 / PI <= - 0.009).
    { apply Rmult_le_reg_r with PI; try lra; unfold Rdiv; rewrite Rmult_assoc, Rinv_l by lra; lra. }
    destruct (negative_track _ _ Fd) as (u & Fu & Bu & Eu); [lra|]. apply Rabs_le_inv in Eu.
    exists u. split; [exact Fu|]. split; [exact Bu|]. intros _. split; [lra|].
    exists (a * 180 / PI + 360). split.
    + unfold bearing. split; [lra|].
      replace ((a * 180 / PI + 360) * PI / 180) with (a + 2 * PI) by (field; lra).
      replace (a + 2 * PI) with (a + 2 * INR 1 * PI) by (simpl; ring). rewrite sin_period, cos_period. split; assumption.
    + apply abs_le. lra.
  - assert (Qn : 0.009 <= a * 180 / PI).
    { apply Rmult_le_reg_r with PI; try lra; unfold Rdiv; rewrite Rmult_assoc, Rinv_l by lra; lra. }
    rewrite (positive_track _ _ Fd) by lra. exists d. split; [exact Fd|].
    split; [lra|]. intros _. split; [lra|]. exists (a * 180 / PI). split; [|apply abs_le; lra].
    unfold bearing. rewrite Z2. split; [lra|]. split; assumption.
Qed.

Lemma track32_ok : forall f x y k l, accurate_atan2 f -> fl x (IZR k) -> fl y (IZR l) -> (Z.abs k <= 4084)%Z -> (Z.abs l <= 4084)%Z ->
  exists t r, Ok (f32_of_f64 (track64 f x y)) = Ok t /\ fl32 t r /\ 0 <= r <= 360 /\
    ((IZR k <> 0 \/ IZR l <> 0) -> r < 360 /\ exists theta, bearing (IZR k) (IZR l) theta /\ Rabs (r - theta) <= 1 / 50000).
Proof.
  intros f x y k l A Fx Fy Hk Hl. destruct (track64_ok f x y k l A Fx Fy Hk Hl) as (u & Fu & Bu & T).
  exists (f32_of_f64 (track64 f x y)), (rnd32 u). split; [reflexivity|]. split; [exact (fl32_of_f64 _ _ Fu Bu)|].
  pose proof (rnd32_err u Bu) as E. apply Rabs_le_inv in E. split.
  - rewrite <- (rnd32_IZR 0) at 1 by lia. rewrite <- (rnd32_IZR 360) by lia. split; apply rnd32_le; lra.
  - intros N. destruct T as (U & theta & Bt & Et).
    { destruct (Z.eq_dec k 0) as [->|]; [|auto]. destruct (Z.eq_dec l 0) as [->|]; [|auto]. exfalso. lra. }
    split; [lra|]. exists theta. split; [exact Bt|]. apply Rabs_le_inv in Et. apply abs_le. lra.
Qed.

Lemma component_Z : forall b step code, component b step code = IZR (if b then - (step * (code - 1)) else step * (code - 1))%Z.
Proof. intros [] step code; unfold component; [rewrite opp_IZR|]; reflexivity. Qed.
Lemma component_fl : forall data i step code, (0 <= step <= 4)%Z -> (1 <= code <= 1022)%Z -> 
  fl (if (bits i i data =? 1)%Z then SFopp (f64_of_Z (step * (code - 1))) else f64_of_Z (step * (code - 1)))
     (IZR (if bit i data then - (step * (code - 1)) else step * (code - 1))%Z).
Proof.
  intros data i step code Hs Hc. unfold bit. destruct (bits i i data =? 1)%Z.
  - rewrite opp_IZR. apply fl_opp, fl_of_Z. nia.
  - apply fl_of_Z. nia.
Qed.

Lemma normal_track : forall f data, accurate_atan2 f ->
  TrackOf 1 data (bds09.AirborneVelocityGroundSpeedNormal_GetTrack f (ground_speed_normal data)).
Proof.
  intros f data A. unfold TrackOf. rewrite !component_Z. unfold bds09.AirborneVelocityGroundSpeedNormal_GetTrack, ground_speed_normal.
  cbn -[bits bit Z.mul Z.pow f64_of_Z f64_mul f64_lit f64_add fl_ltb f32_of_f64 Z.sub].
  pose proof (bits_range 15 24 data ltac:(lia)). pose proof (bits_range 26 35 data ltac:(lia)).
  set (e := bits 15 24 data) in *. set (n := bits 26 35 data) in *. unfold regular, status, knots.
  split; [|split].
  - intros He Hn.
    rewrite (proj2 (Z.eqb_neq e 0)), (proj2 (Z.eqb_neq e 1023)), (proj2 (Z.eqb_neq n 0)), (proj2 (Z.eqb_neq n 1023)) by lia.
    cbn -[bits bit Z.mul Z.pow f64_of_Z f64_mul f64_lit f64_add fl_ltb f32_of_f64 Z.sub].
    pose proof (track32_ok f _ _ _ _ A (component_fl data 14 1 e ltac:(lia) He) (component_fl data 25 1 n ltac:(lia) Hn)) as T.
    rewrite !Z.mul_1_l in *. apply T; [destruct (bit 14 data)|destruct (bit 25 data)]; lia.
  - intros Hr. destruct (Z.eqb_spec e 0); [reflexivity|]. destruct (Z.eqb_spec e 1023); [reflexivity|]. exfalso. apply Hr. lia.
  - intros He Hn. rewrite (proj2 (Z.eqb_neq e 0)), (proj2 (Z.eqb_neq e 1023)) by lia.
    destruct (Z.eqb_spec n 0); [reflexivity|]. destruct (Z.eqb_spec n 1023); [reflexivity|]. exfalso. apply Hn. lia.
Qed.

Lemma supersonic_track : forall f data, accurate_atan2 f ->
  TrackOf 4 data (bds09.AirborneVelocityGroundSpeedSupersonic_GetTrack f (ground_speed_supersonic data)).
Proof.
  intros f data A. unfold TrackOf. rewrite !component_Z. unfold bds09.AirborneVelocityGroundSpeedSupersonic_GetTrack, ground_speed_supersonic.
  cbn -[bits bit Z.mul Z.pow f64_of_Z f64_mul f64_lit f64_add fl_ltb f32_of_f64 Z.sub].
  pose proof (bits_range 15 24 data ltac:(lia)). pose proof (bits_range 26 35 data ltac:(lia)).
  set (e := bits 15 24 data) in *. set (n := bits 26 35 data) in *. unfold regular, status, knots_supersonic.
  split; [|split].
  - intros He Hn.
    rewrite (proj2 (Z.eqb_neq e 0)), ?(proj2 (Z.eqb_neq e 1023)), (proj2 (Z.eqb_neq n 0)), ?(proj2 (Z.eqb_neq n 1023)) by lia.
    cbn -[bits bit Z.mul Z.pow f64_of_Z f64_mul f64_lit f64_add fl_ltb f32_of_f64 Z.sub].
    pose proof (track32_ok f _ _ _ _ A (component_fl data 14 4 e ltac:(lia) He) (component_fl data 25 4 n ltac:(lia) Hn)) as T.
    apply T; [destruct (bit 14 data)|destruct (bit 25 data)]; lia.
  - intros Hr. destruct (Z.eqb_spec e 0); [reflexivity|]. destruct (Z.eqb_spec e 1023); [reflexivity|]. exfalso. apply Hr. lia.
  - intros He Hn. rewrite (proj2 (Z.eqb_neq e 0)), ?(proj2 (Z.eqb_neq e 1023)) by lia.
    destruct (Z.eqb_spec n 0); [reflexivity|]. destruct (Z.eqb_spec n 1023); [reflexivity|]. exfalso. apply Hn. lia.
Qed.

Theorem ground_track : forall f v a c data m,
  accurate_atan2 f -> bytes data -> len data = 7%Z ->
  ReadADSBMessage v a c data = Ok (AVelocity m) ->
  match adsb_airborne_velocity.AirborneVelocity_AirborneVelocity m with
  | bds09.IAirborneVelocity_AirborneVelocityGroundSpeedNormal x =>
      bits 6 8 data = 1%Z /\ TrackOf 1 data (bds09.AirborneVelocityGroundSpeedNormal_GetTrack f x)
  | bds09.IAirborneVelocity_AirborneVelocityGroundSpeedSupersonic x =>
      bits 6 8 data = 2%Z /\ TrackOf 4 data (bds09.AirborneVelocityGroundSpeedSupersonic_GetTrack f x)
  | _ => bits 6 8 data = 3%Z \/ bits 6 8 data = 4%Z
  end.
Proof.
  intros f v a c data m A Hb Hl E.
  pose proof (adsb_kind _ _ _ _ _ Hb E) as [_ K]. cbn [kind] in K.
  destruct (Z_le_dec 1 (bits 6 8 data)) as [S1|S1];
    [destruct (Z_le_dec (bits 6 8 data) 4) as [S2|S2]|].
  2,3: destruct (velocity_bad_subtype v a c data Hb Hl K ltac:(lia)) as [e E']; congruence.
  destruct (velocity_ok v a c data Hb Hl K ltac:(lia)) as (x & V & E'). rewrite E in E'. injection E' as ->.
  cbn [adsb_airborne_velocity.AirborneVelocity_AirborneVelocity].
  destruct V as [S|S|h S _|h S _]; auto using normal_track, supersonic_track.
Qed.

(* ---- the hypotheses can be met ---- *)

Definition polar (v w : R) : R :=
  let a := acos (w / sqrt (v * v + w * w)) in if Rlt_dec v 0 then - a else a.

Lemma polar_ok : forall v w, v * v + w * w <> 0 ->
  v = sqrt (v * v + w * w) * sin (polar v w) /\ w = sqrt (v * v + w * w) * cos (polar v w).
Proof.
  intros v w N. set (r := sqrt (v * v + w * w)).
  assert (Q : 0 <= v * v + w * w) by nra.
  assert (R0 : 0 < r) by (apply sqrt_lt_R0; lra).
  assert (RR : r * r = v * v + w * w) by (apply sqrt_sqrt; exact Q).
  assert (C : -1 <= w / r <= 1).
  { split; apply Rmult_le_reg_r with r; try exact R0; unfold Rdiv; rewrite Rmult_assoc, Rinv_l by lra; nra. }
  assert (Cc : r * cos (acos (w / r)) = w). { rewrite cos_acos by exact C. field. lra. }
  assert (Ss : r * sin (acos (w / r)) = Rabs v).
  { rewrite sin_acos by exact C. rewrite <- (sqrt_Rsqr r) at 1 by lra. rewrite <- sqrt_mult_alt by apply Rle_0_sqr.
    replace (Rsqr r * (1 - Rsqr (w / r))) with (Rsqr v); [apply sqrt_Rsqr_abs|]. unfold Rsqr.
    replace (r * r * (1 - w / r * (w / r))) with (r * r - w * w) by (field; lra). rewrite RR. ring. }
  unfold polar. fold r. cbv zeta. destruct (Rlt_dec v 0) as [L|L].
  - rewrite sin_neg, cos_neg. rewrite Rabs_left in Ss by exact L. split; lra.
  - rewrite Rabs_pos_eq in Ss by lra. split; lra.
Qed.

Definition atan2_50 (y x : f64) : f64 :=
  let v := SF2R radix2 y in let w := SF2R radix2 x in
  if Req_EM_T (v * v + w * w) 0 then S754_zero false else near50 (polar v w).

Theorem accurate_atan2_exists : exists f, accurate_atan2 f.
Proof.
  exists atan2_50.
  assert (V : forall x v, fl x v -> SF2R radix2 x = v) by (intros x v (b & -> & _ & <-); apply SF2R_B2SF).
  pose proof PI_tight as P.
  assert (B : forall v w, - PI <= polar v w <= PI).
  { intros v w. unfold polar. cbv zeta. pose proof (acos_bound (w / sqrt (v * v + w * w))). destruct (Rlt_dec v 0); lra. }
  split.
  - intros y x v w Fy Fx _ _. unfold atan2_50. rewrite (V _ _ Fy), (V _ _ Fx). cbv zeta.
    destruct (Req_EM_T (v * v + w * w) 0) as [Z|N].
    + assert (v = 0) by nra. assert (w = 0) by nra. subst. exists 0. split; [lra|]. rewrite Z, sqrt_0. split; [ring|]. split; [ring|].
      exists 0. split; [apply fl_zero|]. rewrite Rminus_diag_eq, Rabs_R0 by reflexivity. unfold tolerance. lra.
    + exists (polar v w). split; [apply B|]. destruct (polar_ok v w N) as [E1 E2]. split; [exact E1|]. split; [exact E2|].
      apply near50_about. specialize (B v w). apply Rabs_le. lra.
  - intros y x w Fy Fx W. unfold atan2_50. rewrite (V _ _ Fy), (V _ _ Fx). cbv zeta.
    destruct (Req_EM_T (0 * 0 + w * w) 0) as [Z|N]; [apply fl_zero|].
    replace (polar 0 w) with 0.
    + unfold near50. rewrite Rmult_0_l, (Zfloor_IZR 0). change (f64_of_Z 0) with (S754_zero false).
      exists (B754_zero false). repeat split. 
    + unfold polar. cbv zeta. destruct (Rlt_dec 0 0) as [L|L]; [lra|]. rewrite Rmult_0_l, Rplus_0_l, sqrt_square by lra.
      unfold Rdiv. rewrite Rinv_r by lra. symmetry. exact acos_1.
Qed.

Lemma bearing_example : forall theta, bearing (-8) (-159) theta -> 182.87 <= theta <= 182.89.
Proof.
  intros theta ((T0 & T1) & S & C). pose proof PI_tight as P.
  set (r := sqrt _) in *. set (b := theta * PI / 180) in *. set (phi := b - PI).
  assert (B : theta = (phi + PI) * 180 / PI) by (unfold phi, b; field; lra).
  assert (R2 : r * r = 25345) by (unfold r; rewrite sqrt_sqrt; lra).
  assert (R0 : 0 < r) by (unfold r; apply sqrt_lt_R0; lra).
  assert (R1 : 159.2 <= r <= 159.21) by (split; nra).
  assert (Sp : sin phi = 8 / r).
  { unfold phi. replace (b - PI) with (- (PI - b)) by ring. rewrite sin_neg, sin_PI_x. apply Rmult_eq_reg_r with r; [|lra].
    unfold Rdiv. rewrite Rmult_assoc, Rinv_l by lra. lra. }
  assert (Cp : cos phi = 159 / r).
  { unfold phi. replace (b - PI) with (- (PI - b)) by ring. rewrite cos_neg. replace (PI - b) with (- b + PI) by ring.
    rewrite neg_cos, cos_neg. apply Rmult_eq_reg_r with r; [|lra]. unfold Rdiv. rewrite Rmult_assoc, Rinv_l by lra. lra. }
  assert (I : 0.006281 <= / r <= 0.0062815).
  { split; [apply Rle_trans with (/ 159.21); [lra|]|apply Rle_trans with (/ 159.2); [|lra]]; apply Rinv_le_contravar; lra. }
  assert (Hp : - PI <= phi < PI).
  { unfold phi, b. split; [|assert (theta * PI / 180 < 2 * PI); [|lra]]; unfold Rdiv; [nra|].
    apply Rmult_lt_reg_r with 180; [lra|]. rewrite Rmult_assoc, Rinv_l by lra. nra. }
  assert (P0 : 0 < phi).
  { apply Rnot_le_lt. intro L. assert (0 <= sin (- phi)) by (apply sin_ge_0; lra). rewrite sin_neg, Sp in H. unfold Rdiv in H. nra. }
  assert (P1 : phi < PI / 2).
  { apply Rnot_le_lt. intro L. assert (cos phi <= 0) by (apply cos_le_0; lra). rewrite Cp in H. unfold Rdiv in H. nra. }
  assert (L : sin phi <= phi) by (left; apply sin_lt_x; exact P0).
  assert (A : atan (8 / 159) = phi).
  { rewrite <- (atan_tan phi) by lra. f_equal. unfold tan. rewrite Sp, Cp. field. lra. }
  pose proof (atan_lip (8 / 159) 0) as U. rewrite atan_0, !Rminus_0_r, A, !Rabs_pos_eq in U by lra.
  rewrite Sp in L. unfold Rdiv in L. rewrite B.
  split; apply Rmult_le_reg_r with PI; try lra; unfold Rdiv; rewrite (Rmult_assoc _ (/ PI) PI), Rinv_l by lra; nra.
Qed.

(* a message of the Mode S literature, 8D485020994409940838175B284F: 8 kt to the west and 159 kt to the south *)
Example ground_track_example : forall f, accurate_atan2 f -> exists m x t r,
  ReadADSBMessage 0%Z false false [0x99;0x44;0x09;0x94;0x08;0x38;0x17]%Z = Ok (AVelocity m) /\
  adsb_airborne_velocity.AirborneVelocity_AirborneVelocity m = bds09.IAirborneVelocity_AirborneVelocityGroundSpeedNormal x /\
  bds09.AirborneVelocityGroundSpeedNormal_GetTrack f x = Ok t /\ fl32 t r /\ (182.86 <= r <= 182.9)%R.
Proof.
  intros f A. set (data := [0x99;0x44;0x09;0x94;0x08;0x38;0x17]%Z).
  assert (Hb : bytes data) by (unfold data; repeat constructor; lia).
  destruct (velocity_ok 0%Z false false data Hb eq_refl (Adsb.k_velocity data eq_refl) ltac:(vm_compute; split; discriminate)) as (x & V & E).
  destruct V as [S|S|h S _|h S _]; try (vm_compute in S; discriminate S).
  pose proof (normal_track f data A) as (T & _ & _).
  destruct (T ltac:(vm_compute; split; discriminate) ltac:(vm_compute; split; discriminate)) as (t & r & Et & Ft & _ & K).
  change (component (bit 14 data) 1 (bits 15 24 data)) with (- IZR 8) in K.
  change (component (bit 25 data) 1 (bits 26 35 data)) with (- IZR 159) in K.
  destruct (K ltac:(left; lra)) as (_ & theta & Bt & Dt). rewrite <- !opp_IZR in Bt.
  pose proof (bearing_example theta Bt). apply Rabs_le_inv in Dt.
  do 4 eexists. split; [exact E|]. split; [reflexivity|]. split; [exact Et|]. split; [exact Ft|]. lra.
Qed.
