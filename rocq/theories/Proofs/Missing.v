(* C109: a value the aircraft does not know does not hide the others. *)
From Verif.Proofs Require Import Tac.
From Verif.Spec Require Import Altitude Floats Velocity Adsb AdsbMessages Squitter Missing.
From Verif.Gen Require bds09 adsb_airborne_velocity modes_messages.
From Verif.Model Require Import Crc ModesReader AdsbReader.
From Verif.Proofs Require Import Octets AdsbApi Squitter GroundSpeed.
From Verif.Proofs Require Payloads.
Local Open Scope Z_scope.

Lemma coded_status : forall top m s c, 2 <= top -> coded top m s c -> status top c = told_status m.
Proof.
  intros top m s c Ht [s'|s' z Hz|s']; unfold status, told_status.
  - reflexivity.
  - rewrite !(proj2 (Z.eqb_neq _ _)) by lia. reflexivity.
  - rewrite Z.eqb_refl, (proj2 (Z.eqb_neq _ _)) by lia. reflexivity.
Qed.

Lemma coded_signed : forall top step m s c, 2 <= top -> coded top m s c ->
  with_sign s (step * (c - 1)) c = told step (step * (top - 1)) m.
Proof.
  intros top step m s c Ht [s'|s' z Hz|s']; unfold with_sign, told.
  - reflexivity.
  - rewrite (proj2 (Z.eqb_neq _ _)) by lia. destruct s'; lia.
  - rewrite (proj2 (Z.eqb_neq _ _)) by lia. destruct s'; reflexivity.
Qed.

Lemma coded_knots : forall m s c, coded 1023 m s c -> knots c = Z.abs (told 1 1023 m).
Proof.
  intros m s c [s'|s' z Hz|s']; unfold knots, told.
  - reflexivity.
  - rewrite !(proj2 (Z.eqb_neq _ _)) by lia. destruct s'; lia.
  - destruct s'; reflexivity.
Qed.

Lemma coded_supersonic : forall m s c, coded 1023 m s c -> knots_supersonic c = Z.abs (told 4 4088 m).
Proof.
  intros m s c [s'|s' z Hz|s']; unfold knots_supersonic, told.
  - reflexivity.
  - rewrite !(proj2 (Z.eqb_neq _ _)) by lia. destruct s'; lia.
  - destruct s'; reflexivity.
Qed.

Lemma coded_speed : forall step e n se sn ce cn data speed,
  coded 1023 e se ce -> coded 1023 n sn cn -> bits 15 24 data = ce -> bits 26 35 data = cn ->
  SpeedOf step data speed -> speed = speed_of step e n.
Proof.
  intros step e n se sn ce cn data speed He Hn Be Bn (S1 & S2 & S3). rewrite Be, Bn in *. unfold regular in *.
  destruct He as [s|s z Hz|s]; [apply S2; lia| |apply S2; lia].
  destruct Hn as [s'|s' z' Hz'|s']; [apply S3; lia| |apply S3; lia].
  rewrite S1 by lia. cbn [speed_of]. do 2 f_equal. destruct s, s'; rewrite ?Z.add_simpl_r; ring.
Qed.

Lemma velocity_head : forall sub intent ifr nuc west e south n source down rate below diff,
  let fs := velocity_payload sub intent ifr nuc west e south n source down rate below diff in fits fs ->
  bits 9 9 (message fs) = intent /\ bits 10 10 (message fs) = ifr /\ bits 11 13 (message fs) = nuc.
Proof.
  intros sub intent ifr nuc west e south n source down rate below diff fs F. assert (W : width fs = 8 * 7) by reflexivity. unfold fs in *.
  split; [look 2%nat 1%nat; reflexivity|]. split; [look 3%nat 1%nat; reflexivity|look 4%nat 1%nat; reflexivity].
Qed.

Lemma airspeed_payload_bits : forall sub intent ifr nuc known heading tas airspeed source down rate below diff,
  let fs := airspeed_payload sub intent ifr nuc known heading tas airspeed source down rate below diff in fits fs ->
  bits 1 5 (message fs) = 19 /\ bits 6 8 (message fs) = sub /\ bits 9 9 (message fs) = intent /\ bits 10 10 (message fs) = ifr /\
  bits 11 13 (message fs) = nuc /\ bits 14 14 (message fs) = flag known /\ bits 15 24 (message fs) = heading /\
  bits 26 35 (message fs) = airspeed /\
  bits 36 36 (message fs) = source /\ bits 37 37 (message fs) = flag down /\ bits 38 46 (message fs) = rate /\
  bits 49 49 (message fs) = flag below /\ bits 50 56 (message fs) = diff.
Proof.
  intros sub intent ifr nuc known heading tas airspeed source down rate below diff fs F. assert (W : width fs = 8 * 7) by reflexivity. unfold fs in *.
  split; [look 0%nat 1%nat; reflexivity|]. split; [look 1%nat 1%nat; reflexivity|]. split; [look 2%nat 1%nat; reflexivity|].
  split; [look 3%nat 1%nat; reflexivity|]. split; [look 4%nat 1%nat; reflexivity|]. split; [look 5%nat 1%nat; reflexivity|].
  split; [look 6%nat 1%nat; reflexivity|]. split; [look 8%nat 1%nat; reflexivity|].
  split; [look 9%nat 1%nat; reflexivity|]. split; [look 10%nat 1%nat; reflexivity|]. split; [look 11%nat 1%nat; reflexivity|].
  split; [look 13%nat 1%nat; reflexivity|look 14%nat 1%nat; reflexivity].
Qed.


Theorem ground_speed_missing : forall v nicA nicC ca icao intent ifr nuc e west ew n south ns source rate down r difference below d frame,
  coded 1023 e west ew -> coded 1023 n south ns -> coded 511 rate down r -> coded 127 difference below d ->
  Squitter ca icao (velocity_payload 1 intent ifr nuc west ew south ns source down r below d) frame ->
  exists m x,
    received v nicA nicC frame icao (AVelocity m) /\
    adsb_airborne_velocity.AirborneVelocity_AirborneVelocity m = bds09.IAirborneVelocity_AirborneVelocityGroundSpeedNormal x /\
    bds09.AirborneVelocityGroundSpeedNormal_IntentChange x = intent /\
    bds09.AirborneVelocityGroundSpeedNormal_IFRCapability x = ifr /\
    bds09.AirborneVelocityGroundSpeedNormal_NavigationUncertaintyCategory x = nuc /\
    bds09.AirborneVelocityGroundSpeedNormal_DirectionEastWest x = flag west /\
    bds09.AirborneVelocityGroundSpeedNormal_VelocityEWStatus x = told_status e /\
    bds09.AirborneVelocityGroundSpeedNormal_VelocityEW x = Z.abs (told 1 1023 e) /\
    bds09.AirborneVelocityGroundSpeedNormal_DirectionNorthSouth x = flag south /\
    bds09.AirborneVelocityGroundSpeedNormal_VelocityNSStatus x = told_status n /\
    bds09.AirborneVelocityGroundSpeedNormal_VelocityNS x = Z.abs (told 1 1023 n) /\
    bds09.AirborneVelocityGroundSpeedNormal_GetSpeed x = speed_of 1 e n /\
    bds09.AirborneVelocityGroundSpeedNormal_VerticalRateSource x = source /\
    bds09.AirborneVelocityGroundSpeedNormal_VerticalRateStatus x = told_status rate /\
    bds09.AirborneVelocityGroundSpeedNormal_VerticalRate x = told 64 32640 rate /\
    bds09.AirborneVelocityGroundSpeedNormal_DifferenceAltitudeGNSSBaroStatus x = told_status difference /\
    bds09.AirborneVelocityGroundSpeedNormal_DifferenceAltitudeGNSSBaro x = told 25 3150 difference.
Proof.
  intros v nicA nicC ca icao intent ifr nuc e west ew n south ns source rate down r diff below dd frame He Hn Hr Hd S.
  pose proof S as (_ & F & _).
  destruct (velocity_bits _ _ _ _ _ _ _ _ _ _ _ _ _ F) as (B1 & B2 & B3 & B4 & B5 & B6 & B7 & B8 & B9 & B10 & B11).
  destruct (velocity_head _ _ _ _ _ _ _ _ _ _ _ _ _ F) as (C1 & C2 & C3).
  destruct (squitter_received _ _ _ _ S) as (Hb & Hl & d & R & C & E). clear S F.
  generalize dependent (message (velocity_payload 1 intent ifr nuc west ew south ns source down r below dd)). intros me; intros.
  assert (K : KindOf me KVelocity) by (apply k_velocity; exact B1).
  destruct (velocity_ok v nicA nicC me Hb Hl K ltac:(lia)) as (x & V & Rm).
  destruct V as [Q | Q | h Q Hh | h Q Hh]; try (exfalso; lia).
  eexists. eexists. split; [exists d; rewrite E; split; [exact R|]; split; [exact C|exact Rm]|]. split; [reflexivity|].
  split; [exact C1|]. split; [exact C2|]. split; [exact C3|]. split; [exact B3|].
  split. { change (status 1023 (bits 15 24 me) = told_status e). rewrite B4. exact (coded_status 1023 _ _ _ ltac:(lia) He). }
  split. { change (knots (bits 15 24 me) = Z.abs (told 1 1023 e)). rewrite B4. exact (coded_knots _ _ _ He). }
  split; [exact B5|].
  split. { change (status 1023 (bits 26 35 me) = told_status n). rewrite B6. exact (coded_status 1023 _ _ _ ltac:(lia) Hn). }
  split. { change (knots (bits 26 35 me) = Z.abs (told 1 1023 n)). rewrite B6. exact (coded_knots _ _ _ Hn). }
  split. { exact (coded_speed 1 e n _ _ _ _ me _ He Hn B4 B6 (normal_speed me)). }
  split; [exact B7|].
  split. { change (status 511 (bits 38 46 me) = told_status rate). rewrite B9. exact (coded_status 511 _ _ _ ltac:(lia) Hr). }
  split. { change (with_sign (bit 37 me) (64 * (bits 38 46 me - 1)) (bits 38 46 me) = told 64 32640 rate). unfold bit. rewrite B8, B9, flag_test.
    exact (coded_signed 511 64 _ _ _ ltac:(lia) Hr). }
  split. { change (status 127 (bits 50 56 me) = told_status diff). rewrite B11. exact (coded_status 127 _ _ _ ltac:(lia) Hd). }
  change (with_sign (bit 49 me) (25 * (bits 50 56 me - 1)) (bits 50 56 me) = told 25 3150 diff). unfold bit. rewrite B10, B11, flag_test.
  exact (coded_signed 127 25 _ _ _ ltac:(lia) Hd).
Qed.

Theorem supersonic_missing : forall v nicA nicC ca icao intent ifr nuc e west ew n south ns source rate down r difference below d frame,
  coded 1023 e west ew -> coded 1023 n south ns -> coded 511 rate down r -> coded 127 difference below d ->
  Squitter ca icao (velocity_payload 2 intent ifr nuc west ew south ns source down r below d) frame ->
  exists m x,
    received v nicA nicC frame icao (AVelocity m) /\
    adsb_airborne_velocity.AirborneVelocity_AirborneVelocity m = bds09.IAirborneVelocity_AirborneVelocityGroundSpeedSupersonic x /\
    bds09.AirborneVelocityGroundSpeedSupersonic_IntentChange x = intent /\
    bds09.AirborneVelocityGroundSpeedSupersonic_IFRCapability x = ifr /\
    bds09.AirborneVelocityGroundSpeedSupersonic_NavigationUncertaintyCategory x = nuc /\
    bds09.AirborneVelocityGroundSpeedSupersonic_DirectionEastWest x = flag west /\
    bds09.AirborneVelocityGroundSpeedSupersonic_VelocityEWStatus x = told_status e /\
    bds09.AirborneVelocityGroundSpeedSupersonic_VelocityEW x = Z.abs (told 4 4088 e) /\
    bds09.AirborneVelocityGroundSpeedSupersonic_DirectionNorthSouth x = flag south /\
    bds09.AirborneVelocityGroundSpeedSupersonic_VelocityNSStatus x = told_status n /\
    bds09.AirborneVelocityGroundSpeedSupersonic_VelocityNS x = Z.abs (told 4 4088 n) /\
    bds09.AirborneVelocityGroundSpeedSupersonic_GetSpeed x = speed_of 4 e n /\
    bds09.AirborneVelocityGroundSpeedSupersonic_VerticalRateSource x = source /\
    bds09.AirborneVelocityGroundSpeedSupersonic_VerticalRateStatus x = told_status rate /\
    bds09.AirborneVelocityGroundSpeedSupersonic_VerticalRate x = told 64 32640 rate /\
    bds09.AirborneVelocityGroundSpeedSupersonic_DifferenceAltitudeGNSSBaroStatus x = told_status difference /\
    bds09.AirborneVelocityGroundSpeedSupersonic_DifferenceAltitudeGNSSBaro x = told 25 3150 difference.
Proof.
  intros v nicA nicC ca icao intent ifr nuc e west ew n south ns source rate down r diff below dd frame He Hn Hr Hd S.
  pose proof S as (_ & F & _).
  destruct (velocity_bits _ _ _ _ _ _ _ _ _ _ _ _ _ F) as (B1 & B2 & B3 & B4 & B5 & B6 & B7 & B8 & B9 & B10 & B11).
  destruct (velocity_head _ _ _ _ _ _ _ _ _ _ _ _ _ F) as (C1 & C2 & C3).
  destruct (squitter_received _ _ _ _ S) as (Hb & Hl & d & R & C & E). clear S F.
  generalize dependent (message (velocity_payload 2 intent ifr nuc west ew south ns source down r below dd)). intros me; intros.
  assert (K : KindOf me KVelocity) by (apply k_velocity; exact B1).
  destruct (velocity_ok v nicA nicC me Hb Hl K ltac:(lia)) as (x & V & Rm).
  destruct V as [Q | Q | h Q Hh | h Q Hh]; try (exfalso; lia).
  eexists. eexists. split; [exists d; rewrite E; split; [exact R|]; split; [exact C|exact Rm]|]. split; [reflexivity|].
  split; [exact C1|]. split; [exact C2|]. split; [exact C3|]. split; [exact B3|].
  split. { change (status 1023 (bits 15 24 me) = told_status e). rewrite B4. exact (coded_status 1023 _ _ _ ltac:(lia) He). }
  split. { change (knots_supersonic (bits 15 24 me) = Z.abs (told 4 4088 e)). rewrite B4. exact (coded_supersonic _ _ _ He). }
  split; [exact B5|].
  split. { change (status 1023 (bits 26 35 me) = told_status n). rewrite B6. exact (coded_status 1023 _ _ _ ltac:(lia) Hn). }
  split. { change (knots_supersonic (bits 26 35 me) = Z.abs (told 4 4088 n)). rewrite B6. exact (coded_supersonic _ _ _ Hn). }
  split. { exact (coded_speed 4 e n _ _ _ _ me _ He Hn B4 B6 (supersonic_speed me)). }
  split; [exact B7|].
  split. { change (status 511 (bits 38 46 me) = told_status rate). rewrite B9. exact (coded_status 511 _ _ _ ltac:(lia) Hr). }
  split. { change (with_sign (bit 37 me) (64 * (bits 38 46 me - 1)) (bits 38 46 me) = told 64 32640 rate). unfold bit. rewrite B8, B9, flag_test.
    exact (coded_signed 511 64 _ _ _ ltac:(lia) Hr). }
  split. { change (status 127 (bits 50 56 me) = told_status diff). rewrite B11. exact (coded_status 127 _ _ _ ltac:(lia) Hd). }
  change (with_sign (bit 49 me) (25 * (bits 50 56 me - 1)) (bits 50 56 me) = told 25 3150 diff). unfold bit. rewrite B10, B11, flag_test.
  exact (coded_signed 127 25 _ _ _ ltac:(lia) Hd).
Qed.

Theorem airspeed_missing : forall v nicA nicC ca icao intent ifr nuc known heading tas airspeed s a source rate down r difference below d frame,
  coded 1023 airspeed s a -> coded 511 rate down r -> coded 127 difference below d ->
  Squitter ca icao (airspeed_payload 3 intent ifr nuc known heading tas a source down r below d) frame ->
  exists m x,
    received v nicA nicC frame icao (AVelocity m) /\
    adsb_airborne_velocity.AirborneVelocity_AirborneVelocity m = bds09.IAirborneVelocity_AirborneVelocityAirSpeedNormal x /\
    bds09.AirborneVelocityAirSpeedNormal_IntentChange x = intent /\
    bds09.AirborneVelocityAirSpeedNormal_IFRCapability x = ifr /\
    bds09.AirborneVelocityAirSpeedNormal_NavigationUncertaintyCategory x = nuc /\
    bds09.AirborneVelocityAirSpeedNormal_MagneticHeadingStatus x = flag known /\
    is_value (bds09.AirborneVelocityAirSpeedNormal_MagneticHeading x) (inject_Z heading * (360 # 1024)) /\
    bds09.AirborneVelocityAirSpeedNormal_AirspeedStatus x = told_status airspeed /\
    bds09.AirborneVelocityAirSpeedNormal_Airspeed x = Z.abs (told 1 1023 airspeed) /\
    bds09.AirborneVelocityAirSpeedNormal_VerticalRateSource x = source /\
    bds09.AirborneVelocityAirSpeedNormal_VerticalRateStatus x = told_status rate /\
    bds09.AirborneVelocityAirSpeedNormal_VerticalRate x = told 64 32640 rate /\
    bds09.AirborneVelocityAirSpeedNormal_HeightDifferenceFromBaroStatus x = told_status difference /\
    bds09.AirborneVelocityAirSpeedNormal_HeightDifferenceFromBaro x = told 25 3150 difference.
Proof.
  intros v nicA nicC ca icao intent ifr nuc known heading tas airspeed s a source rate down r diff below dd frame Hs Hr Hd S.
  pose proof S as (_ & F & _).
  destruct (airspeed_payload_bits _ _ _ _ _ _ _ _ _ _ _ _ _ F) as (B1 & B2 & B3 & B4 & B5 & B6 & B7 & B9 & B10 & B11 & B12 & B13 & B14).
  destruct (squitter_received _ _ _ _ S) as (Hb & Hl & d & R & C & E). clear S F.
  generalize dependent (message (airspeed_payload 3 intent ifr nuc known heading tas a source down r below dd)). intros me; intros.
  assert (K : KindOf me KVelocity) by (apply k_velocity; exact B1).
  destruct (velocity_ok v nicA nicC me Hb Hl K ltac:(lia)) as (x & V & Rm).
  destruct V as [Q| Q | h Q Hh | h Q Hh]; try (exfalso; lia).
  eexists. eexists. split; [exists d; rewrite E; split; [exact R|]; split; [exact C|exact Rm]|]. split; [reflexivity|].
  split; [exact B3|]. split; [exact B4|]. split; [exact B5|]. split; [exact B6|]. split; [rewrite <- B7; exact Hh|].
  split. { change (status 1023 (bits 26 35 me) = told_status airspeed). rewrite B9. exact (coded_status 1023 _ _ _ ltac:(lia) Hs). }
  split. { change (knots (bits 26 35 me) = Z.abs (told 1 1023 airspeed)). rewrite B9. exact (coded_knots _ _ _ Hs). }
  split; [exact B10|].
  split. { change (status 511 (bits 38 46 me) = told_status rate). rewrite B12. exact (coded_status 511 _ _ _ ltac:(lia) Hr). }
  split. { change (with_sign (bit 37 me) (64 * (bits 38 46 me - 1)) (bits 38 46 me) = told 64 32640 rate). unfold bit. rewrite B11, B12, flag_test.
    exact (coded_signed 511 64 _ _ _ ltac:(lia) Hr). }
  split. { change (status 127 (bits 50 56 me) = told_status diff). rewrite B14. exact (coded_status 127 _ _ _ ltac:(lia) Hd). }
  change (with_sign (bit 49 me) (25 * (bits 50 56 me - 1)) (bits 50 56 me) = told 25 3150 diff). unfold bit. rewrite B13, B14, flag_test.
  exact (coded_signed 127 25 _ _ _ ltac:(lia) Hd).
Qed.

Theorem supersonic_airspeed_missing : forall v nicA nicC ca icao intent ifr nuc known heading tas airspeed s a source rate down r difference below d frame,
  coded 1023 airspeed s a -> coded 511 rate down r -> coded 127 difference below d ->
  Squitter ca icao (airspeed_payload 4 intent ifr nuc known heading tas a source down r below d) frame ->
  exists m x,
    received v nicA nicC frame icao (AVelocity m) /\
    adsb_airborne_velocity.AirborneVelocity_AirborneVelocity m = bds09.IAirborneVelocity_AirborneVelocityAirSpeedSupersonic x /\
    bds09.AirborneVelocityAirSpeedSupersonic_IntentChange x = intent /\
    bds09.AirborneVelocityAirSpeedSupersonic_IFRCapability x = ifr /\
    bds09.AirborneVelocityAirSpeedSupersonic_NavigationUncertaintyCategory x = nuc /\
    bds09.AirborneVelocityAirSpeedSupersonic_MagneticHeadingStatus x = flag known /\
    is_value (bds09.AirborneVelocityAirSpeedSupersonic_MagneticHeading x) (inject_Z heading * (360 # 1024)) /\
    bds09.AirborneVelocityAirSpeedSupersonic_AirspeedStatus x = told_status airspeed /\
    bds09.AirborneVelocityAirSpeedSupersonic_Airspeed x = Z.abs (told 4 4088 airspeed) /\
    bds09.AirborneVelocityAirSpeedSupersonic_VerticalRateSource x = source /\
    bds09.AirborneVelocityAirSpeedSupersonic_VerticalRateStatus x = told_status rate /\
    bds09.AirborneVelocityAirSpeedSupersonic_VerticalRate x = told 64 32640 rate /\
    bds09.AirborneVelocityAirSpeedSupersonic_HeightDifferenceFromBaroStatus x = told_status difference /\
    bds09.AirborneVelocityAirSpeedSupersonic_HeightDifferenceFromBaro x = told 25 3150 difference.
Proof.
  intros v nicA nicC ca icao intent ifr nuc known heading tas airspeed s a source rate down r diff below dd frame Hs Hr Hd S.
  pose proof S as (_ & F & _).
  destruct (airspeed_payload_bits _ _ _ _ _ _ _ _ _ _ _ _ _ F) as (B1 & B2 & B3 & B4 & B5 & B6 & B7 & B9 & B10 & B11 & B12 & B13 & B14).
  destruct (squitter_received _ _ _ _ S) as (Hb & Hl & d & R & C & E). clear S F.
  generalize dependent (message (airspeed_payload 4 intent ifr nuc known heading tas a source down r below dd)). intros me; intros.
  assert (K : KindOf me KVelocity) by (apply k_velocity; exact B1).
  destruct (velocity_ok v nicA nicC me Hb Hl K ltac:(lia)) as (x & V & Rm).
  destruct V as [Q| Q | h Q Hh | h Q Hh]; try (exfalso; lia).
  eexists. eexists. split; [exists d; rewrite E; split; [exact R|]; split; [exact C|exact Rm]|]. split; [reflexivity|].
  split; [exact B3|]. split; [exact B4|]. split; [exact B5|]. split; [exact B6|]. split; [rewrite <- B7; exact Hh|].
  split. { change (status 1023 (bits 26 35 me) = told_status airspeed). rewrite B9. exact (coded_status 1023 _ _ _ ltac:(lia) Hs). }
  split. { change (knots_supersonic (bits 26 35 me) = Z.abs (told 4 4088 airspeed)). rewrite B9. exact (coded_supersonic _ _ _ Hs). }
  split; [exact B10|].
  split. { change (status 511 (bits 38 46 me) = told_status rate). rewrite B12. exact (coded_status 511 _ _ _ ltac:(lia) Hr). }
  split. { change (with_sign (bit 37 me) (64 * (bits 38 46 me - 1)) (bits 38 46 me) = told 64 32640 rate). unfold bit. rewrite B11, B12, flag_test.
    exact (coded_signed 511 64 _ _ _ ltac:(lia) Hr). }
  split. { change (status 127 (bits 50 56 me) = told_status diff). rewrite B14. exact (coded_status 127 _ _ _ ltac:(lia) Hd). }
  change (with_sign (bit 49 me) (25 * (bits 50 56 me - 1)) (bits 50 56 me) = told 25 3150 diff). unfold bit. rewrite B13, B14, flag_test.
  exact (coded_signed 127 25 _ _ _ ltac:(lia) Hd).
Qed.

(* ---- a position without altitude is refused ---- *)
Lemma no_altitude12 : forall data alt, len data = 7 -> bits 9 20 data = 0 -> ~ Altitude12 data alt.
Proof.
  intros data alt L Z H.
  assert (B : forall i, 9 <= i <= 20 -> bit i data = false).
  { intros i Hi. unfold bit. rewrite (bits_of_zero 9 20 data i i) by (assumption || lia). reflexivity. }
  unfold Altitude12 in H. rewrite (B 16) in H by lia. rewrite (B 9), (B 11), (B 13) in H by lia.
  destruct (Payloads.gillham_c _ _ _ _ _ _ _ _ _ _ _ _ _ H) as [D|[D|D]]; discriminate D.
Qed.

Theorem position_without_altitude_refuted : forall v nicA nicC ca icao tc status antenna time odd lat lon frame,
  9 <= tc <= 18 \/ 20 <= tc <= 22 ->
  Squitter ca icao (airborne_payload tc status antenna [(12, 0)] time odd lat lon) frame ->
  exists d e,
    ReadMessage frame = Ok (MDF17 d) /\ CheckCRC (MDF17 d) frame [] [] = Ok icao /\
    ReadADSBMessage v nicA nicC (modes_messages.MessageDF17_MessageExtendedSquitter d) = Err e.
Proof.
  intros v nicA nicC ca icao tc ss sa t odd la lo frame Ht S. pose proof S as (_ & F & _).
  destruct (squitter_received _ _ _ _ S) as (Hb & Hl & d & R & C & E). clear S.
  assert (B : bits 1 5 (message (airborne_payload tc ss sa [(12, 0)] t odd la lo)) = tc /\
    bits 9 20 (message (airborne_payload tc ss sa [(12, 0)] t odd la lo)) = 0).
  { assert (W : width (airborne_payload tc ss sa [(12, 0)] t odd la lo) = 8 * 7) by reflexivity.
    split; [look 0%nat 1%nat; reflexivity|look 3%nat 1%nat; reflexivity]. }
  destruct B as (B1 & B2). set (me := message _) in *. clearbody me.
  assert (K : KindOf me KAirborne) by (apply k_airborne; rewrite B1; exact Ht).
  destruct (airborne_bad_altitude v nicA nicC me Hb Hl K (fun alt => no_altitude12 me alt Hl B2)) as (e & Er).
  exists d, e. rewrite E. auto.
Qed.

(* ---- such squitters exist: an aircraft that climbs beyond 32000 ft/min and knows neither its speed to the east nor the
   difference of its altitudes; and one without altitude ---- *)
Example ground_speed_missing_example : exists frame,
  coded 1023 unknown false 0 /\ coded 1023 (value (-159)) true 160 /\ coded 511 (beyond false) false 511 /\ coded 127 unknown true 0 /\
  Squitter 5 0x485020 (velocity_payload 1 0 1 0 false 0 true 160 0 false 511 true 0) frame.
Proof.
  destruct (squitter_exists 5 0x485020 (velocity_payload 1 0 1 0 false 0 true 160 0 false 511 true 0)) as (frame & S);
    [unfold fits; repeat (constructor; [cbn; lia|]); constructor|unfold fits; repeat (constructor; [cbn; lia|]); constructor|reflexivity|].
  exists frame. split; [constructor|]. split; [apply (coded_value 1023 true 159); lia|]. split; [constructor|]. split; [constructor|exact S].
Qed.

Example airspeed_missing_example : exists frame,
  coded 1023 unknown false 0 /\ coded 511 (value (-37)) true 38 /\ coded 127 (beyond true) true 127 /\
  Squitter 5 0x400940 (airspeed_payload 3 0 0 0 true 694 true 0 1 true 38 true 127) frame.
Proof.
  destruct (squitter_exists 5 0x400940 (airspeed_payload 3 0 0 0 true 694 true 0 1 true 38 true 127)) as (frame & S);
    [unfold fits; repeat (constructor; [cbn; lia|]); constructor|unfold fits; repeat (constructor; [cbn; lia|]); constructor|reflexivity|].
  exists frame. split; [constructor|]. split; [apply (coded_value 511 true 37); lia|]. split; [constructor|exact S].
Qed.

Example position_without_altitude_example : exists frame,
  Squitter 5 0x40621D (airborne_payload 11 0 0 [(12, 0)] 0 false 93000 51372) frame.
Proof.
  apply squitter_exists; [| |reflexivity]; unfold fits; repeat (constructor; [cbn; lia|]); constructor.
Qed.
