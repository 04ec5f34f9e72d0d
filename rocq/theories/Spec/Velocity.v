(* Specification of airborne velocity messages (Doc 9871 Table A-2-9). *)
From Verif Require Import GoBase Bits.
From Verif.Spec Require Import Floats.
From Verif.Gen Require bds09.
Local Open Scope Z_scope.

(* status of a numeric field whose largest code is top:
   0 no information, 1 regular value, 2 at or above the maximum *)
Definition status (top code : Z) : Z := if code =? 0 then 0 else if code =? top then 2 else 1.

(* speed in knots: code 1 is 0 kt, steps of 1 kt (normal) or 4 kt (supersonic); the last
   code means "more than" 1021.5 kt (4086 kt), for which the API gives 1023 (4088) *)
Definition knots (code : Z) : Z := if code =? 0 then 0 else if code =? 1023 then 1023 else code - 1.
Definition knots_supersonic (code : Z) : Z := if code =? 0 then 0 else 4 * (code - 1).

(* a magnitude with its sign bit (1: negative); 0 when there is no information *)
Definition with_sign (negative : bool) (magnitude code : Z) : Z :=
  if code =? 0 then 0 else if negative then - magnitude else magnitude.

Definition ground_speed_normal (data : list Z) : bds09.AirborneVelocityGroundSpeedNormal :=
  {| bds09.AirborneVelocityGroundSpeedNormal_FormatTypeCode := 19;
     bds09.AirborneVelocityGroundSpeedNormal_Subtype := 1;
     bds09.AirborneVelocityGroundSpeedNormal_IntentChange := bits 9 9 data;
     bds09.AirborneVelocityGroundSpeedNormal_IFRCapability := bits 10 10 data;
     bds09.AirborneVelocityGroundSpeedNormal_NavigationUncertaintyCategory := bits 11 13 data;
     bds09.AirborneVelocityGroundSpeedNormal_DirectionEastWest := bits 14 14 data;
     bds09.AirborneVelocityGroundSpeedNormal_VelocityEWStatus := status 1023 (bits 15 24 data);
     bds09.AirborneVelocityGroundSpeedNormal_VelocityEW := knots (bits 15 24 data);
     bds09.AirborneVelocityGroundSpeedNormal_DirectionNorthSouth := bits 25 25 data;
     bds09.AirborneVelocityGroundSpeedNormal_VelocityNSStatus := status 1023 (bits 26 35 data);
     bds09.AirborneVelocityGroundSpeedNormal_VelocityNS := knots (bits 26 35 data);
     bds09.AirborneVelocityGroundSpeedNormal_VerticalRateSource := bits 36 36 data;
     bds09.AirborneVelocityGroundSpeedNormal_VerticalRateStatus := status 511 (bits 38 46 data);
     bds09.AirborneVelocityGroundSpeedNormal_VerticalRate := with_sign (bit 37 data) (64 * (bits 38 46 data - 1)) (bits 38 46 data);
     bds09.AirborneVelocityGroundSpeedNormal_DifferenceAltitudeGNSSBaroStatus := status 127 (bits 50 56 data);
     bds09.AirborneVelocityGroundSpeedNormal_DifferenceAltitudeGNSSBaro := with_sign (bit 49 data) (25 * (bits 50 56 data - 1)) (bits 50 56 data) |}.

Definition ground_speed_supersonic (data : list Z) : bds09.AirborneVelocityGroundSpeedSupersonic :=
  {| bds09.AirborneVelocityGroundSpeedSupersonic_FormatTypeCode := 19;
     bds09.AirborneVelocityGroundSpeedSupersonic_Subtype := 2;
     bds09.AirborneVelocityGroundSpeedSupersonic_IntentChange := bits 9 9 data;
     bds09.AirborneVelocityGroundSpeedSupersonic_IFRCapability := bits 10 10 data;
     bds09.AirborneVelocityGroundSpeedSupersonic_NavigationUncertaintyCategory := bits 11 13 data;
     bds09.AirborneVelocityGroundSpeedSupersonic_DirectionEastWest := bits 14 14 data;
     bds09.AirborneVelocityGroundSpeedSupersonic_VelocityEWStatus := status 1023 (bits 15 24 data);
     bds09.AirborneVelocityGroundSpeedSupersonic_VelocityEW := knots_supersonic (bits 15 24 data);
     bds09.AirborneVelocityGroundSpeedSupersonic_DirectionNorthSouth := bits 25 25 data;
     bds09.AirborneVelocityGroundSpeedSupersonic_VelocityNSStatus := status 1023 (bits 26 35 data);
     bds09.AirborneVelocityGroundSpeedSupersonic_VelocityNS := knots_supersonic (bits 26 35 data);
     bds09.AirborneVelocityGroundSpeedSupersonic_VerticalRateSource := bits 36 36 data;
     bds09.AirborneVelocityGroundSpeedSupersonic_VerticalRateStatus := status 511 (bits 38 46 data);
     bds09.AirborneVelocityGroundSpeedSupersonic_VerticalRate := with_sign (bit 37 data) (64 * (bits 38 46 data - 1)) (bits 38 46 data);
     bds09.AirborneVelocityGroundSpeedSupersonic_DifferenceAltitudeGNSSBaroStatus := status 127 (bits 50 56 data);
     bds09.AirborneVelocityGroundSpeedSupersonic_DifferenceAltitudeGNSSBaro := with_sign (bit 49 data) (25 * (bits 50 56 data - 1)) (bits 50 56 data) |}.

Definition air_speed_normal (data : list Z) (heading : spec_float) : bds09.AirborneVelocityAirSpeedNormal :=
  {| bds09.AirborneVelocityAirSpeedNormal_FormatTypeCode := 19;
     bds09.AirborneVelocityAirSpeedNormal_Subtype := 3;
     bds09.AirborneVelocityAirSpeedNormal_IntentChange := bits 9 9 data;
     bds09.AirborneVelocityAirSpeedNormal_IFRCapability := bits 10 10 data;
     bds09.AirborneVelocityAirSpeedNormal_NavigationUncertaintyCategory := bits 11 13 data;
     bds09.AirborneVelocityAirSpeedNormal_MagneticHeadingStatus := bits 14 14 data;
     bds09.AirborneVelocityAirSpeedNormal_MagneticHeading := heading;
     bds09.AirborneVelocityAirSpeedNormal_AirspeedStatus := status 1023 (bits 26 35 data);
     bds09.AirborneVelocityAirSpeedNormal_Airspeed := knots (bits 26 35 data);
     bds09.AirborneVelocityAirSpeedNormal_VerticalRateSource := bits 36 36 data;
     bds09.AirborneVelocityAirSpeedNormal_VerticalRateStatus := status 511 (bits 38 46 data);
     bds09.AirborneVelocityAirSpeedNormal_VerticalRate := with_sign (bit 37 data) (64 * (bits 38 46 data - 1)) (bits 38 46 data);
     bds09.AirborneVelocityAirSpeedNormal_HeightDifferenceFromBaroStatus := status 127 (bits 50 56 data);
     bds09.AirborneVelocityAirSpeedNormal_HeightDifferenceFromBaro := with_sign (bit 49 data) (25 * (bits 50 56 data - 1)) (bits 50 56 data) |}.

Definition air_speed_supersonic (data : list Z) (heading : spec_float) : bds09.AirborneVelocityAirSpeedSupersonic :=
  {| bds09.AirborneVelocityAirSpeedSupersonic_FormatTypeCode := 19;
     bds09.AirborneVelocityAirSpeedSupersonic_Subtype := 4;
     bds09.AirborneVelocityAirSpeedSupersonic_IntentChange := bits 9 9 data;
     bds09.AirborneVelocityAirSpeedSupersonic_IFRCapability := bits 10 10 data;
     bds09.AirborneVelocityAirSpeedSupersonic_NavigationUncertaintyCategory := bits 11 13 data;
     bds09.AirborneVelocityAirSpeedSupersonic_MagneticHeadingStatus := bits 14 14 data;
     bds09.AirborneVelocityAirSpeedSupersonic_MagneticHeading := heading;
     bds09.AirborneVelocityAirSpeedSupersonic_AirspeedStatus := status 1023 (bits 26 35 data);
     bds09.AirborneVelocityAirSpeedSupersonic_Airspeed := knots_supersonic (bits 26 35 data);
     bds09.AirborneVelocityAirSpeedSupersonic_VerticalRateSource := bits 36 36 data;
     bds09.AirborneVelocityAirSpeedSupersonic_VerticalRateStatus := status 511 (bits 38 46 data);
     bds09.AirborneVelocityAirSpeedSupersonic_VerticalRate := with_sign (bit 37 data) (64 * (bits 38 46 data - 1)) (bits 38 46 data);
     bds09.AirborneVelocityAirSpeedSupersonic_HeightDifferenceFromBaroStatus := status 127 (bits 50 56 data);
     bds09.AirborneVelocityAirSpeedSupersonic_HeightDifferenceFromBaro := with_sign (bit 49 data) (25 * (bits 50 56 data - 1)) (bits 50 56 data) |}.


(* the ground speed of subtypes 1 and 2: the integer part of the Euclidean norm of the two
   components, when both are regular values; an error that names the first one that is not otherwise *)
Definition regular (code : Z) : Prop := 1 <= code <= 1022.
Definition SpeedOf (step : Z) (data : list Z) (speed : res Z) : Prop :=
  (regular (bits 15 24 data) -> regular (bits 26 35 data) ->
     speed = Ok (Z.sqrt ((step * (bits 15 24 data - 1)) ^ 2 + (step * (bits 26 35 data - 1)) ^ 2))) /\
  (~ regular (bits 15 24 data) -> speed = Err "velocity EW is not regular"%string) /\
  (regular (bits 15 24 data) -> ~ regular (bits 26 35 data) -> speed = Err "velocity NS is not regular"%string).
