(* C29: the ground speed computed from its two components, in binary64. *)
From Verif.Proofs Require Import Tac.
From Verif.Spec Require Import Velocity AdsbMessages.
From Verif.Gen Require bds09 bds09_fields adsb_airborne_velocity.
From Verif.Model Require Import AdsbReader.
From Verif.Proofs Require Import AdsbApi.
From Coq Require Import Reals Lra Psatz.
From Flocq Require Import Core.
From Verif.Proofs Require Import FloatR.
Local Open Scope Z_scope.

Lemma big_ge : forall m, Z.abs m <= 2 ^ 53 -> (Rabs (IZR m) <= big)%R.
Proof.
  intros m H. rewrite <- abs_IZR. apply Rle_trans with (IZR (2 ^ 53)); [apply IZR_le; lia|].
  change (IZR (2 ^ 53)) with (bpow radix2 53). apply bpow_le. lia.
Qed.

(* the integer part of the rounded square root of an integer is the integer square root *)
Lemma floor_sqrt : forall S, 0 <= S < 2 ^ 26 -> Zfloor (rnd (sqrt (IZR S))) = Z.sqrt S.
Proof.
  intros S H. pose proof (Z.sqrt_spec S ltac:(lia)) as [A B]. cbv zeta in *.
  set (s := Z.sqrt S) in *. assert (S0 : 0 <= s) by apply Z.sqrt_nonneg.
  assert (S1 : s < 2 ^ 13) by nia. unfold Z.succ in B.
  apply Zfloor_imp. split.
  - rewrite <- (rnd_IZR s) by lia. unfold rnd. apply round_le; try apply FloatR.Hvalid; auto with typeclass_instances.
    rewrite <- (sqrt_Rsqr (IZR s)) by (apply IZR_le; lia). apply sqrt_le_1_alt. unfold Rsqr. rewrite <- mult_IZR. apply IZR_le. lia.
  - apply Rle_lt_trans with (IZR ((s + 1) * 2 ^ 14 - 1) * bpow radix2 (-14))%R.
    + rewrite <- (rnd_exact ((s + 1) * 2 ^ 14 - 1) (-14)) by lia. unfold rnd.
      apply round_le; try apply FloatR.Hvalid; auto with typeclass_instances.
      set (y := (IZR ((s + 1) * 2 ^ 14 - 1) * bpow radix2 (-14))%R).
      assert (Y : (0 <= y)%R). { apply Rmult_le_pos; [apply IZR_le; lia|apply bpow_ge_0]. }
      rewrite <- (sqrt_Rsqr y Y). apply sqrt_le_1_alt. unfold Rsqr, y.
      replace (IZR ((s + 1) * 2 ^ 14 - 1) * bpow radix2 (-14) * (IZR ((s + 1) * 2 ^ 14 - 1) * bpow radix2 (-14)))%R
        with (IZR (((s + 1) * 2 ^ 14 - 1) * ((s + 1) * 2 ^ 14 - 1)) * bpow radix2 (-28))%R.
      2:{ rewrite mult_IZR. change (-28) with (-14 + -14). rewrite bpow_plus. ring. }
      apply Rle_trans with (IZR (S * 2 ^ 28) * bpow radix2 (-28))%R.
      * rewrite mult_IZR, Rmult_assoc. replace (IZR (2 ^ 28) * bpow radix2 (-28))%R with 1%R; [lra|].
        change (IZR (2 ^ 28)) with (bpow radix2 28). rewrite <- bpow_plus. reflexivity.
      * apply Rmult_le_compat_r; [apply bpow_ge_0|]. apply IZR_le. nia.
    + rewrite minus_IZR, Rmult_minus_distr_r, mult_IZR, Rmult_assoc.
      replace (IZR (2 ^ 14) * bpow radix2 (-14))%R with 1%R
        by (change (IZR (2 ^ 14)) with (bpow radix2 14); rewrite <- bpow_plus; reflexivity).
      rewrite plus_IZR. pose proof (bpow_gt_0 radix2 (-14)). lra.
Qed.

Lemma speed_ok : forall a b, 0 <= a < 5000 -> 0 <= b < 5000 ->
  u32_of_f64 (f64_sqrt (f64_add (f64_mul (f64_of_Z a) (f64_of_Z a)) (f64_mul (f64_of_Z b) (f64_of_Z b))))
    = Z.sqrt (a * a + b * b).
Proof.
  intros a b Ha Hb.
  assert (M : forall z, 0 <= z < 5000 -> fl (f64_mul (f64_of_Z z) (f64_of_Z z)) (IZR (z * z))).
  { intros z Hz. rewrite <- (rnd_IZR (z * z)) by nia. rewrite mult_IZR.
    apply fl_mul; try (apply fl_of_Z; lia). rewrite <- mult_IZR. apply big_ge. nia. }
  assert (S : fl (f64_add (f64_mul (f64_of_Z a) (f64_of_Z a)) (f64_mul (f64_of_Z b) (f64_of_Z b))) (IZR (a * a + b * b))).
  { rewrite <- (rnd_IZR (a * a + b * b)) by nia. rewrite plus_IZR. apply fl_add; auto.
    rewrite <- plus_IZR. apply big_ge. nia. }
  assert (N : (0 <= IZR (a * a + b * b))%R) by (apply IZR_le; nia).
  pose proof (fl_sqrt _ _ S N) as Q.
  rewrite <- (floor_sqrt (a * a + b * b)) by nia.
  apply trunc_fl; [exact Q| |].
  - replace 0%R with (rnd 0); [|apply round_0; auto with typeclass_instances].
    apply round_le; try apply FloatR.Hvalid; auto with typeclass_instances. apply sqrt_pos.
  - rewrite floor_sqrt by nia. apply IZR_lt. pose proof (Z.sqrt_le_lin (a * a + b * b) ltac:(nia)). nia.
Qed.

Lemma normal_speed : forall data,
  SpeedOf 1 data (bds09.AirborneVelocityGroundSpeedNormal_GetSpeed (ground_speed_normal data)).
Proof.
  intros data. unfold SpeedOf, bds09.AirborneVelocityGroundSpeedNormal_GetSpeed, ground_speed_normal. 
  cbn -[bits Z.mul Z.pow f64_of_Z f64_mul f64_sqrt f64_add u32_of_f64].
  pose proof (bits_range 15 24 data ltac:(lia)). pose proof (bits_range 26 35 data ltac:(lia)).
  set (e := bits 15 24 data) in *. set (n := bits 26 35 data) in *. unfold regular.
  split; [|split].
  - intros He Hn. unfold status, knots.
    rewrite (proj2 (Z.eqb_neq e 0)), (proj2 (Z.eqb_neq e 1023)), (proj2 (Z.eqb_neq n 0)), (proj2 (Z.eqb_neq n 1023)) by lia. cbn -[Z.mul Z.pow f64_of_Z f64_mul f64_sqrt f64_add u32_of_f64 Z.sqrt]. rewrite speed_ok by lia. do 2 f_equal. ring.
  - intros Hr. unfold status.
    destruct (Z.eqb_spec e 0); [reflexivity|]. destruct (Z.eqb_spec e 1023); [reflexivity|]. exfalso. apply Hr. lia.
  - intros He Hn. unfold status. rewrite (proj2 (Z.eqb_neq e 0)), (proj2 (Z.eqb_neq e 1023)) by lia.
    destruct (Z.eqb_spec n 0); [reflexivity|]. destruct (Z.eqb_spec n 1023); [reflexivity|]. exfalso. apply Hn. lia.
Qed.

Lemma supersonic_speed : forall data,
  SpeedOf 4 data (bds09.AirborneVelocityGroundSpeedSupersonic_GetSpeed (ground_speed_supersonic data)).
Proof.
  intros data. unfold SpeedOf, bds09.AirborneVelocityGroundSpeedSupersonic_GetSpeed, ground_speed_supersonic. 
  cbn -[bits Z.mul Z.pow f64_of_Z f64_mul f64_sqrt f64_add u32_of_f64].
  pose proof (bits_range 15 24 data ltac:(lia)). pose proof (bits_range 26 35 data ltac:(lia)).
  set (e := bits 15 24 data) in *. set (n := bits 26 35 data) in *. unfold regular.
  split; [|split].
  - intros He Hn. unfold status, knots_supersonic.
    rewrite (proj2 (Z.eqb_neq e 0)), (proj2 (Z.eqb_neq e 1023)), (proj2 (Z.eqb_neq n 0)), (proj2 (Z.eqb_neq n 1023)) by lia. cbn -[Z.mul Z.pow f64_of_Z f64_mul f64_sqrt f64_add u32_of_f64 Z.sqrt]. rewrite speed_ok by lia. do 2 f_equal. ring.
  - intros Hr. unfold status.
    destruct (Z.eqb_spec e 0); [reflexivity|]. destruct (Z.eqb_spec e 1023); [reflexivity|]. exfalso. apply Hr. lia.
  - intros He Hn. unfold status. rewrite (proj2 (Z.eqb_neq e 0)), (proj2 (Z.eqb_neq e 1023)) by lia.
    destruct (Z.eqb_spec n 0); [reflexivity|]. destruct (Z.eqb_spec n 1023); [reflexivity|]. exfalso. apply Hn. lia.
Qed.

Theorem ground_speed : forall v a c data m,
  bytes data -> len data = 7 ->
  ReadADSBMessage v a c data = Ok (AVelocity m) ->
  match adsb_airborne_velocity.AirborneVelocity_AirborneVelocity m with
  | bds09.IAirborneVelocity_AirborneVelocityGroundSpeedNormal x =>
      bits 6 8 data = 1 /\ SpeedOf 1 data (bds09.AirborneVelocityGroundSpeedNormal_GetSpeed x)
  | bds09.IAirborneVelocity_AirborneVelocityGroundSpeedSupersonic x =>
      bits 6 8 data = 2 /\ SpeedOf 4 data (bds09.AirborneVelocityGroundSpeedSupersonic_GetSpeed x)
  | _ => bits 6 8 data = 3 \/ bits 6 8 data = 4
  end.
Proof.
  intros v a c data m Hb Hl E.
  pose proof (adsb_kind _ _ _ _ _ Hb E) as [_ K]. cbn [kind] in K.
  destruct (Z_le_dec 1 (bits 6 8 data)) as [S1|S1];
    [destruct (Z_le_dec (bits 6 8 data) 4) as [S2|S2]|].
  2,3: destruct (velocity_bad_subtype v a c data Hb Hl K ltac:(lia)) as [e E']; congruence.
  destruct (velocity_ok v a c data Hb Hl K ltac:(lia)) as (x & V & E'). rewrite E in E'. injection E' as ->.
  cbn [adsb_airborne_velocity.AirborneVelocity_AirborneVelocity].
  destruct V as [S|S|h S _|h S _]; auto using normal_speed, supersonic_speed.
Qed.

(* a message of the Mode S literature: 8D485020994409940838175B284F, 159 kt *)
Example ground_speed_example : exists m x,
  ReadADSBMessage 0 false false [0x99;0x44;0x09;0x94;0x08;0x38;0x17] = Ok (AVelocity m) /\
  adsb_airborne_velocity.AirborneVelocity_AirborneVelocity m = bds09.IAirborneVelocity_AirborneVelocityGroundSpeedNormal x /\
  bds09.AirborneVelocityGroundSpeedNormal_GetSpeed x = Ok 159.
Proof. do 2 eexists. split; [vm_compute; reflexivity|]. split; [reflexivity|vm_compute; reflexivity]. Qed.
