(* Airborne velocity (C28). *)
From Verif.Proofs Require Import Tac.
From Verif.Spec Require Import Floats Velocity.
From Verif.Gen Require bds09 bds09_fields.
Local Open Scope Z_scope.

Lemma u16_small : forall z, 0 <= z < 65536 -> u16 z = z.
Proof. intros. unfold u16. apply Z.mod_small. lia. Qed.

Lemma i16_small : forall z, -32768 <= z < 32768 -> i16 z = z.
Proof. intros. unfold i16. rewrite Z.mod_small; lia. Qed.

(* name the fields read, forget the bytes *)
Ltac name_bits Hb :=
  repeat match goal with
  | |- context [bits ?i ?j ?l] =>
      lazymatch l with _ :: _ => idtac end;
      bits_bound i j l;
      let b := fresh "f" in set (b := bits i j l) in *; clearbody b
  end.

Ltac cases :=
  repeat match goal with
  | |- context [if ?b then _ else _] =>
      lazymatch b with
      | context [if _ then _ else _] => fail
      | _ => let E := fresh "E" in destruct b eqn:E
      end
  end.

Ltac small :=
  repeat match goal with
  | |- context [u16 ?z] => rewrite (u16_small z) by lia
  | |- context [i16 ?z] => rewrite (i16_small z) by lia
  end.

Ltac num data Hb Hl :=
  split_list data Hl; reg_run Hb; unfold bit; name_bits Hb;
  unfold status, knots, knots_supersonic, with_sign, bds09_fields.NVSNoInformation,
    bds09_fields.NVSRegular, bds09_fields.NVSMaximum; cases;
  small; f_equal; f_equal; lia.

Lemma ew_normal : forall data, bytes data -> len data = 7 -> bds09_fields.ReadVelocityEWNormal data =
  Ok (knots (bits 15 24 data), status 1023 (bits 15 24 data)).
Proof. intros data Hb Hl. unfold bds09_fields.ReadVelocityEWNormal. num data Hb Hl. Qed.

Lemma ew_supersonic : forall data, bytes data -> len data = 7 -> bds09_fields.ReadVelocityEWSupersonic data =
  Ok (knots_supersonic (bits 15 24 data), status 1023 (bits 15 24 data)).
Proof. intros data Hb Hl. unfold bds09_fields.ReadVelocityEWSupersonic. num data Hb Hl. Qed.

Lemma ns_normal : forall data, bytes data -> len data = 7 -> bds09_fields.ReadVelocityNSNormal data =
  Ok (knots (bits 26 35 data), status 1023 (bits 26 35 data)).
Proof. intros data Hb Hl. unfold bds09_fields.ReadVelocityNSNormal. num data Hb Hl. Qed.

Lemma ns_supersonic : forall data, bytes data -> len data = 7 -> bds09_fields.ReadVelocityNSSupersonic data =
  Ok (knots_supersonic (bits 26 35 data), status 1023 (bits 26 35 data)).
Proof. intros data Hb Hl. unfold bds09_fields.ReadVelocityNSSupersonic. num data Hb Hl. Qed.

Lemma air_normal : forall data, bytes data -> len data = 7 -> bds09_fields.ReadAirspeedNormal data =
  Ok (knots (bits 26 35 data), status 1023 (bits 26 35 data)).
Proof. intros data Hb Hl. unfold bds09_fields.ReadAirspeedNormal. num data Hb Hl. Qed.

Lemma air_supersonic : forall data, bytes data -> len data = 7 -> bds09_fields.ReadAirspeedSupersonic data =
  Ok (knots_supersonic (bits 26 35 data), status 1023 (bits 26 35 data)).
Proof. intros data Hb Hl. unfold bds09_fields.ReadAirspeedSupersonic. num data Hb Hl. Qed.

Lemma height_difference : forall data, bytes data -> len data = 7 -> bds09_fields.ReadHeightDifference data =
  Ok (with_sign (bit 49 data) (25 * (bits 50 56 data - 1)) (bits 50 56 data), status 127 (bits 50 56 data)).
Proof. intros data Hb Hl. unfold bds09_fields.ReadHeightDifference. num data Hb Hl. Qed.

Lemma vertical_rate : forall data, bytes data -> len data = 7 -> bds09_fields.ReadVerticalRate data =
  Ok (with_sign (bit 37 data) (64 * (bits 38 46 data - 1)) (bits 38 46 data), status 511 (bits 38 46 data)).
Proof. intros data Hb Hl. unfold bds09_fields.ReadVerticalRate. num data Hb Hl. Qed.

Lemma magnetic_heading_ok : forall code, 0 <= code < 0 + 1024 ->
  is_value (f32_of_f64 (f64_div (f64_mul (f64_of_Z code) (f64_lit 360 1)) (f64_lit 1024 1))) (inject_Z code * (360 # 1024)).
Proof. apply value_range. vm_compute. reflexivity. Qed.

Lemma magnetic_heading : forall data, bytes data -> len data = 7 -> exists v,
  bds09_fields.ReadMagneticHeading data = Ok (v, bits 14 14 data) /\
  is_value v (inject_Z (bits 15 24 data) * (360 # 1024)).
Proof.
  intros data Hb Hl. unfold bds09_fields.ReadMagneticHeading. split_list data Hl. reg_run Hb.
  eexists. split; [reflexivity|]. apply magnetic_heading_ok.
  match type of Hb with bytes ?l => bits_bound 15 24 l end. lia.
Qed.

Lemma read_ground_speed_normal : forall data, bytes data -> len data = 7 -> bits 1 5 data = 19 -> bits 6 8 data = 1 ->
  bds09.ReadAirborneVelocity data = Ok (bds09.IAirborneVelocity_AirborneVelocityGroundSpeedNormal (ground_speed_normal data)).
Proof.
  intros data Hb Hl Ht Hs. pose proof (ew_normal data Hb Hl) as R1. pose proof (ns_normal data Hb Hl) as R2.
  pose proof (height_difference data Hb Hl) as R3. pose proof (vertical_rate data Hb Hl) as R4.
  unfold bds09.ReadAirborneVelocity, bds09.ReadAirborneVelocityGroundSpeedNormal, ground_speed_normal. rewrite R1, R2, R3, R4. clear R1 R2 R3 R4.
  split_list data Hl. reg_run Hb. rewrite Ht, Hs. reflexivity.
Qed.

Lemma read_ground_speed_supersonic : forall data, bytes data -> len data = 7 -> bits 1 5 data = 19 -> bits 6 8 data = 2 ->
  bds09.ReadAirborneVelocity data = Ok (bds09.IAirborneVelocity_AirborneVelocityGroundSpeedSupersonic (ground_speed_supersonic data)).
Proof.
  intros data Hb Hl Ht Hs. pose proof (ew_supersonic data Hb Hl) as R1. pose proof (ns_supersonic data Hb Hl) as R2.
  pose proof (height_difference data Hb Hl) as R3. pose proof (vertical_rate data Hb Hl) as R4.
  unfold bds09.ReadAirborneVelocity, bds09.ReadAirborneVelocityGroundSpeedSupersonic, ground_speed_supersonic. rewrite R1, R2, R3, R4. clear R1 R2 R3 R4.
  split_list data Hl. reg_run Hb. rewrite Ht, Hs. reflexivity.
Qed.

Lemma read_air_speed_normal : forall data, bytes data -> len data = 7 -> bits 1 5 data = 19 -> bits 6 8 data = 3 ->
  exists heading, is_value heading (inject_Z (bits 15 24 data) * (360 # 1024)) /\
  bds09.ReadAirborneVelocity data = Ok (bds09.IAirborneVelocity_AirborneVelocityAirSpeedNormal (air_speed_normal data heading)).
Proof.
  intros data Hb Hl Ht Hs. pose proof (air_normal data Hb Hl) as R1.
  destruct (magnetic_heading data Hb Hl) as (v & R2 & V). exists v. split; [exact V|]. clear V.
  pose proof (height_difference data Hb Hl) as R3. pose proof (vertical_rate data Hb Hl) as R4.
  unfold bds09.ReadAirborneVelocity, bds09.ReadAirborneVelocityAirSpeedNormal, air_speed_normal. rewrite R1, R2, R3, R4. clear R1 R2 R3 R4.
  split_list data Hl. reg_run Hb. rewrite Ht, Hs. reflexivity.
Qed.

Lemma read_air_speed_supersonic : forall data, bytes data -> len data = 7 -> bits 1 5 data = 19 -> bits 6 8 data = 4 ->
  exists heading, is_value heading (inject_Z (bits 15 24 data) * (360 # 1024)) /\
  bds09.ReadAirborneVelocity data = Ok (bds09.IAirborneVelocity_AirborneVelocityAirSpeedSupersonic (air_speed_supersonic data heading)).
Proof.
  intros data Hb Hl Ht Hs. pose proof (air_supersonic data Hb Hl) as R1.
  destruct (magnetic_heading data Hb Hl) as (v & R2 & V). exists v. split; [exact V|]. clear V.
  pose proof (height_difference data Hb Hl) as R3. pose proof (vertical_rate data Hb Hl) as R4.
  unfold bds09.ReadAirborneVelocity, bds09.ReadAirborneVelocityAirSpeedSupersonic, air_speed_supersonic. rewrite R1, R2, R3, R4. clear R1 R2 R3 R4.
  split_list data Hl. reg_run Hb. rewrite Ht, Hs. reflexivity.
Qed.

Lemma read_velocity_other : forall data, bytes data -> len data = 7 -> bits 1 5 data = 19 ->
  ~ (1 <= bits 6 8 data <= 4) ->
  bds09.ReadAirborneVelocity data =
    Err ("the field SubType must be comprised between 1 and 4 included, got " ++ dec (bits 6 8 data))%string.
Proof.
  intros data Hb Hl Ht Hs. unfold bds09.ReadAirborneVelocity. 
  unfold bds09_fields.ReadSubtype, bds09_fields.SubtypeGroundSpeedNormal, bds09_fields.SubtypeGroundSpeedSupersonic,
    bds09_fields.SubtypeAirspeedNormal, bds09_fields.SubtypeAirspeedSupersonic.
  split_list data Hl. gostep. normbits Hb. rewrite Ht. repeat decide_if. reflexivity.
Qed.
