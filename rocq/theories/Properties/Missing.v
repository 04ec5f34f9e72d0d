(* Property theorems: Missing. Generated by tools/mkprops.py; proofs are in theories/Proofs. *)
From Verif Require Import GoBase Bits.
From Verif.Spec Require Import Floats AdsbMessages Squitter Missing.
From Verif.Gen Require bds09 adsb_airborne_velocity modes_messages.
From Verif.Model Require Import Crc ModesReader AdsbReader.
From Verif.Proofs Require Missing.
Local Open Scope Z_scope.

Theorem C109_ground_speed_missing_partial : forall v nicA nicC ca icao intent ifr nuc e west ew n south ns source rate down r difference below d frame,
  coded 1023 e west ew -> coded 1023 n south ns -> coded 511 rate down r -> coded 127 difference below d ->
  Squitter ca icao (velocity_payload 1 intent ifr nuc west ew south ns source down r below d) frame ->
  exists m x,
    received v nicA nicC frame icao (AVelocity m) /\
    adsb_airborne_velocity.AirborneVelocity_AirborneVelocity m = bds09.IAirborneVelocity_AirborneVelocityGroundSpeedNormal x /\
    bds09.AirborneVelocityGroundSpeedNormal_IntentChange x = intent /\
    bds09.AirborneVelocityGroundSpeedNormal_IFRCapability x = ifr /\
    bds09.AirborneVelocityGroundSpeedNormal_NavigationUncertaintyCategory x = nuc /\
    bds09.AirborneVelocityGroundSpeedNormal_DirectionEastWest x = flag west /\
    bds09.AirborneVelocityGroundSpeedNormal_VelocityEWStatus x = told_status e /\
    bds09.AirborneVelocityGroundSpeedNormal_VelocityEW x = Z.abs (told 1 1023 e) /\
    bds09.AirborneVelocityGroundSpeedNormal_DirectionNorthSouth x = flag south /\
    bds09.AirborneVelocityGroundSpeedNormal_VelocityNSStatus x = told_status n /\
    bds09.AirborneVelocityGroundSpeedNormal_VelocityNS x = Z.abs (told 1 1023 n) /\
    bds09.AirborneVelocityGroundSpeedNormal_GetSpeed x = speed_of 1 e n /\
    bds09.AirborneVelocityGroundSpeedNormal_VerticalRateSource x = source /\
    bds09.AirborneVelocityGroundSpeedNormal_VerticalRateStatus x = told_status rate /\
    bds09.AirborneVelocityGroundSpeedNormal_VerticalRate x = told 64 32640 rate /\
    bds09.AirborneVelocityGroundSpeedNormal_DifferenceAltitudeGNSSBaroStatus x = told_status difference /\
    bds09.AirborneVelocityGroundSpeedNormal_DifferenceAltitudeGNSSBaro x = told 25 3150 difference.
Proof. exact Missing.ground_speed_missing. Qed.
Print Assumptions C109_ground_speed_missing_partial.

Theorem C109_supersonic_missing_partial : forall v nicA nicC ca icao intent ifr nuc e west ew n south ns source rate down r difference below d frame,
  coded 1023 e west ew -> coded 1023 n south ns -> coded 511 rate down r -> coded 127 difference below d ->
  Squitter ca icao (velocity_payload 2 intent ifr nuc west ew south ns source down r below d) frame ->
  exists m x,
    received v nicA nicC frame icao (AVelocity m) /\
    adsb_airborne_velocity.AirborneVelocity_AirborneVelocity m = bds09.IAirborneVelocity_AirborneVelocityGroundSpeedSupersonic x /\
    bds09.AirborneVelocityGroundSpeedSupersonic_IntentChange x = intent /\
    bds09.AirborneVelocityGroundSpeedSupersonic_IFRCapability x = ifr /\
    bds09.AirborneVelocityGroundSpeedSupersonic_NavigationUncertaintyCategory x = nuc /\
    bds09.AirborneVelocityGroundSpeedSupersonic_DirectionEastWest x = flag west /\
    bds09.AirborneVelocityGroundSpeedSupersonic_VelocityEWStatus x = told_status e /\
    bds09.AirborneVelocityGroundSpeedSupersonic_VelocityEW x = Z.abs (told 4 4088 e) /\
    bds09.AirborneVelocityGroundSpeedSupersonic_DirectionNorthSouth x = flag south /\
    bds09.AirborneVelocityGroundSpeedSupersonic_VelocityNSStatus x = told_status n /\
    bds09.AirborneVelocityGroundSpeedSupersonic_VelocityNS x = Z.abs (told 4 4088 n) /\
    bds09.AirborneVelocityGroundSpeedSupersonic_GetSpeed x = speed_of 4 e n /\
    bds09.AirborneVelocityGroundSpeedSupersonic_VerticalRateSource x = source /\
    bds09.AirborneVelocityGroundSpeedSupersonic_VerticalRateStatus x = told_status rate /\
    bds09.AirborneVelocityGroundSpeedSupersonic_VerticalRate x = told 64 32640 rate /\
    bds09.AirborneVelocityGroundSpeedSupersonic_DifferenceAltitudeGNSSBaroStatus x = told_status difference /\
    bds09.AirborneVelocityGroundSpeedSupersonic_DifferenceAltitudeGNSSBaro x = told 25 3150 difference.
Proof. exact Missing.supersonic_missing. Qed.
Print Assumptions C109_supersonic_missing_partial.

Theorem C109_airspeed_missing_partial : forall v nicA nicC ca icao intent ifr nuc known heading tas airspeed s a source rate down r difference below d frame,
  coded 1023 airspeed s a -> coded 511 rate down r -> coded 127 difference below d ->
  Squitter ca icao (airspeed_payload 3 intent ifr nuc known heading tas a source down r below d) frame ->
  exists m x,
    received v nicA nicC frame icao (AVelocity m) /\
    adsb_airborne_velocity.AirborneVelocity_AirborneVelocity m = bds09.IAirborneVelocity_AirborneVelocityAirSpeedNormal x /\
    bds09.AirborneVelocityAirSpeedNormal_IntentChange x = intent /\
    bds09.AirborneVelocityAirSpeedNormal_IFRCapability x = ifr /\
    bds09.AirborneVelocityAirSpeedNormal_NavigationUncertaintyCategory x = nuc /\
    bds09.AirborneVelocityAirSpeedNormal_MagneticHeadingStatus x = flag known /\
    is_value (bds09.AirborneVelocityAirSpeedNormal_MagneticHeading x) (inject_Z heading * (360 # 1024)) /\
    bds09.AirborneVelocityAirSpeedNormal_AirspeedStatus x = told_status airspeed /\
    bds09.AirborneVelocityAirSpeedNormal_Airspeed x = Z.abs (told 1 1023 airspeed) /\
    bds09.AirborneVelocityAirSpeedNormal_VerticalRateSource x = source /\
    bds09.AirborneVelocityAirSpeedNormal_VerticalRateStatus x = told_status rate /\
    bds09.AirborneVelocityAirSpeedNormal_VerticalRate x = told 64 32640 rate /\
    bds09.AirborneVelocityAirSpeedNormal_HeightDifferenceFromBaroStatus x = told_status difference /\
    bds09.AirborneVelocityAirSpeedNormal_HeightDifferenceFromBaro x = told 25 3150 difference.
Proof. exact Missing.airspeed_missing. Qed.
Print Assumptions C109_airspeed_missing_partial.

Theorem C109_supersonic_airspeed_missing_partial : forall v nicA nicC ca icao intent ifr nuc known heading tas airspeed s a source rate down r difference below d frame,
  coded 1023 airspeed s a -> coded 511 rate down r -> coded 127 difference below d ->
  Squitter ca icao (airspeed_payload 4 intent ifr nuc known heading tas a source down r below d) frame ->
  exists m x,
    received v nicA nicC frame icao (AVelocity m) /\
    adsb_airborne_velocity.AirborneVelocity_AirborneVelocity m = bds09.IAirborneVelocity_AirborneVelocityAirSpeedSupersonic x /\
    bds09.AirborneVelocityAirSpeedSupersonic_IntentChange x = intent /\
    bds09.AirborneVelocityAirSpeedSupersonic_IFRCapability x = ifr /\
    bds09.AirborneVelocityAirSpeedSupersonic_NavigationUncertaintyCategory x = nuc /\
    bds09.AirborneVelocityAirSpeedSupersonic_MagneticHeadingStatus x = flag known /\
    is_value (bds09.AirborneVelocityAirSpeedSupersonic_MagneticHeading x) (inject_Z heading * (360 # 1024)) /\
    bds09.AirborneVelocityAirSpeedSupersonic_AirspeedStatus x = told_status airspeed /\
    bds09.AirborneVelocityAirSpeedSupersonic_Airspeed x = Z.abs (told 4 4088 airspeed) /\
    bds09.AirborneVelocityAirSpeedSupersonic_VerticalRateSource x = source /\
    bds09.AirborneVelocityAirSpeedSupersonic_VerticalRateStatus x = told_status rate /\
    bds09.AirborneVelocityAirSpeedSupersonic_VerticalRate x = told 64 32640 rate /\
    bds09.AirborneVelocityAirSpeedSupersonic_HeightDifferenceFromBaroStatus x = told_status difference /\
    bds09.AirborneVelocityAirSpeedSupersonic_HeightDifferenceFromBaro x = told 25 3150 difference.
Proof. exact Missing.supersonic_airspeed_missing. Qed.
Print Assumptions C109_supersonic_airspeed_missing_partial.

Theorem C109_position_without_altitude_refuted : forall v nicA nicC ca icao tc status antenna time odd lat lon frame,
  9 <= tc <= 18 \/ 20 <= tc <= 22 ->
  Squitter ca icao (airborne_payload tc status antenna [(12, 0)] time odd lat lon) frame ->
  exists d e,
    ReadMessage frame = Ok (MDF17 d) /\ CheckCRC (MDF17 d) frame [] [] = Ok icao /\
    ReadADSBMessage v nicA nicC (modes_messages.MessageDF17_MessageExtendedSquitter d) = Err e.
Proof. exact Missing.position_without_altitude_refuted. Qed.
Print Assumptions C109_position_without_altitude_refuted.
