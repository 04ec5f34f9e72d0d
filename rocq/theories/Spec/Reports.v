(* The rows of the report of each message: every field of the message, under its
   title, in order.  The titles are those of the documentation of the fields as
   printed by the application. *)
From Verif Require Import GoBase.
From Verif.Gen Require modes_fields modes_messages bds00 acas_ra acas_ra_fields adsb_airborne_position adsb_airborne_position_fields adsb_no_position_information adsb_surface_position adsb_surface_position_fields bds05 bds06 bds07 bds08 bds08_fields bds09 bds09_fields bds10 bds10_fields bds17 bds20 bds30 bds40 bds44 bds45 bds50 bds60 bds61 bds62 bds62_fields bds65 bds65_fields
  adsb_airborne_velocity adsb_aircraft_status adsb_target_state_and_status adsb_aircraft_operational_status
  adsb_aircraft_identification_and_category.
From Verif.Model Require Import Crc ModesReader.
From Verif.Model Require AdsbReader CommbReader.
From Verif.Spec Require Import Text Report.
Require Import ZArith List String.
Import ListNotations.
Local Open Scope string_scope.
Local Open Scope list_scope.
Notation "a ++ b" := (String.append a b) : string_scope.

(* a field printed as words: the words of its code, given by the enumeration *)
Definition worded {A : Type} (words : A -> string) (code : A) : string -> Prop := exactly (words code).

(* the version of the ADS-B application *)
Definition version_value (v : Z) : string -> Prop :=
  if (v =? 0)%Z then exactly "0 - ADSB V0: Conformant to Doc 9871, Appendix A"
  else if (v =? 1)%Z then exactly "1 - ADSB V1: Conformant to Doc 9871, Appendix B"
  else if (v =? 2)%Z then exactly "2 - ADSB V2: Conformant to Doc 9871, Appendix C"
  else number v.

(* computed speed and track of a velocity message *)
Definition speed_value (speed : res Z) : string -> Prop := fun v =>
  match speed with
  | Ok s => v = (numeral s ++ " (knots)")%string
  | _ => exists why, v = ("not computable: " ++ why)%string
  end.
Definition track_value (ffmt : spec_float -> string) (track : res f64) : string -> Prop := fun v =>
  match track with
  | Ok t => v = (ffmt t ++ " (degrees)")%string
  | _ => exists why, v = ("not computable: " ++ why)%string
  end.

(* the sixteen bits of a number, the most significant first *)
Definition sixteen_bits (z : Z) : string -> Prop :=
  exactly (String.concat ", " (map (fun i => if Z.testbit z (15 - Z.of_nat i) then "1" else "0") (seq 0 16))).

Definition multiple_threats_rows (m : acas_ra_fields.ActiveRAMultipleThreatsDifferentSeparation) : list row :=
  [("Type", exactly "Multiple threats with separation in different directions");
   ("Require a correction in the upward sense", yesno (acas_ra_fields.ActiveRAMultipleThreatsDifferentSeparation_RequiresCorrectionUpwardSense m));
   ("Requires a positive climb", yesno (acas_ra_fields.ActiveRAMultipleThreatsDifferentSeparation_RequiresPositiveClimb m));
   ("Requires a correction in the downward sense", yesno (acas_ra_fields.ActiveRAMultipleThreatsDifferentSeparation_RequiresCorrectionDownwardSense m));
   ("Requires a positive descend", yesno (acas_ra_fields.ActiveRAMultipleThreatsDifferentSeparation_RequiresPositiveDescend m));
   ("Requires a crossing", yesno (acas_ra_fields.ActiveRAMultipleThreatsDifferentSeparation_RequiresCrossing m));
   ("Is a sense reversal", yesno (acas_ra_fields.ActiveRAMultipleThreatsDifferentSeparation_IsSenseReversal m))].

Definition complement_rows (m : acas_ra_fields.RAComplement) : list row :=
  [("Do not pass below", yesno (acas_ra_fields.RAComplement_DoNotPassBelow m));
   ("Do not pass above", yesno (acas_ra_fields.RAComplement_DoNotPassAbove m));
   ("Do not turn left", yesno (acas_ra_fields.RAComplement_DoNotTurnLeft m));
   ("Do not turn right", yesno (acas_ra_fields.RAComplement_DoNotTurnRight m))].

Definition one_threat_rows (m : acas_ra_fields.ActiveRAOneThreatOrSameSeparation) : list row :=
  [("Type", exactly "One threat or multiple threats with separation in same direction");
   ("Preventive/Corrective", said ["Preventive"; "Corrective"] (acas_ra_fields.ActiveRAOneThreatOrSameSeparation_PreventiveCorrective m));
   ("Sense generated", said ["Upward"; "Downward"] (acas_ra_fields.ActiveRAOneThreatOrSameSeparation_Sense m));
   ("Is increased rate", yesno (acas_ra_fields.ActiveRAOneThreatOrSameSeparation_IsIncreasedRate m));
   ("Is sense reversal", yesno (acas_ra_fields.ActiveRAOneThreatOrSameSeparation_IsSenseReversal m));
   ("Is altitude crossing", yesno (acas_ra_fields.ActiveRAOneThreatOrSameSeparation_IsAltitudeCrossing m));
   ("Vertical Speed Limit/Positive", said ["Vertical Speed Limit"; "Positive"] (acas_ra_fields.ActiveRAOneThreatOrSameSeparation_VerticalSpeedLimitOrPositive m))].

Definition no_advisory_rows : list row :=
  [("Type", exactly "no Resolution Advisory has been generated")].

Definition active_advisory_rows (m : acas_ra_fields.ActiveResolutionAdvisory) : list row :=
  match m with
  | acas_ra_fields.IActiveResolutionAdvisory_ActiveRAMultipleThreatsDifferentSeparation x => multiple_threats_rows x
  | acas_ra_fields.IActiveResolutionAdvisory_ActiveRAOneThreatOrSameSeparation x => one_threat_rows x
  | acas_ra_fields.IActiveResolutionAdvisory_ActiveRANoVerticalRAGenerated _ => no_advisory_rows
  end.

(* a row for a part that may be missing *)
Definition optional {A : Type} (x : option A) (title : string) (p : A -> string -> Prop) : list row :=
  match x with Some a => [(title, p a)] | None => [] end.

(* the bearing of a threat: a sector of 6 degrees for the codes 1 to 60 *)
Definition bearing_value (b : Z) : string -> Prop :=
  if ((1 <=? b) && (b <=? 60))%Z
  then exactly (numeral b ++ " - between " ++ numeral (6 * (b - 1)) ++ " and " ++ numeral (6 * b))%string
  else fun v => exists n w, v = (blanks n ++ w)%string /\ coded b w.

(* the range of a threat: a value for the codes 2 to 126, known within 0.05 NM *)
Definition range_value (ffmt : spec_float -> string) (r : Z) : string -> Prop :=
  if ((2 <=? r) && (r <=? 126))%Z
  then exactly (numeral r ++ " - " ++ ffmt (acas_ra_fields.ThreatIdentityRange_GetRange r) ++ " +/- 0.05 NM")%string
  else if (r =? 127)%Z then exactly "Greater than 12.55"
  else fun v => exists n w, v = (blanks n ++ w)%string /\ coded r w.

(* the threat is described by its address, or by its altitude, range and bearing *)
Definition resolution_advisory_rows (ffmt : spec_float -> string) (m : acas_ra.ResolutionAdvisory) : list row :=
  [("Active Resolution Advisory", heading)] ++
  indented 4 (active_advisory_rows (acas_ra.ResolutionAdvisory_ActiveRA m)) ++
  [("Active Resolution Advisory Complement", heading)] ++
  indented 4 (complement_rows (acas_ra.ResolutionAdvisory_RAComplement m)) ++
  [("Active Resolution Advisory Terminated Indicator", said ["ACAS is currently generating the RA"; "the RA indicated has been terminated"] (acas_ra.ResolutionAdvisory_RATerminatedIndicator m));
   ("Multiple Threat Encounter", said ["One or no threat is currently being processed by the ACAS"; "Two or more threats are currently being processed by the ACAS"] (acas_ra.ResolutionAdvisory_MultipleThreatEncounter m));
   ("Threat Type Indicator", coded (acas_ra.ResolutionAdvisory_ThreatTypeIndicator m))] ++
  optional (acas_ra.ResolutionAdvisory_ThreatIdentityAddress m) "Threat Mode-S Identity" address_text ++
  optional (acas_ra.ResolutionAdvisory_ThreatIdentityAltitude m) "Threat Altitude"
    (fun a v => exists status, v = (numeral (acas_ra_fields.ThreatIdentityAltitude_AltitudeInFeet a) ++ " ft / Status: " ++ status)%string /\
       said ["Not Available or Invalid"; "Valid"] (acas_ra_fields.ThreatIdentityAltitude_AltitudeStatus a) status) ++
  optional (acas_ra.ResolutionAdvisory_ThreatIdentityRange m) "Threat Range"
    (range_value ffmt) ++
  optional (acas_ra.ResolutionAdvisory_ThreatIdentityBearing m) "Threat Bearing"
    bearing_value.

(* the two probabilities of a surveillance integrity level *)
Definition sil_horizontal : string :=
  "Probability of exceeding the Horizontal Containment Radius reported in the NIC Subfield without an indication".
Definition sil_vertical : string :=
  "Probability of exceeding the Vertical Integrity Containment Region (VPL) without an indication".
Definition sil_probabilities (level : Z) : string * string :=
  (if level =? 0 then ("Unknown", "Unknown")
   else if level =? 1 then ("<= 1 * 10^-3 per flight hour or per sample", "<= 1 * 10^-3 per flight hour or per sample")
   else if level =? 2 then ("<= 1 * 10^-5 per flight hour or per sample", "<= 1 * 10^-5 per flight hour or per sample")
   else ("<= 1 * 10^-7 per flight hour or per sample", "<= 2 * 10^-7 per 150 seconds or per sample"))%Z.
(* codes above 3 do not exist *)
Definition sil_rows (level : Z) : list row :=
  if ((0 <=? level) && (level <=? 3))%Z then
    [(sil_horizontal, exactly (fst (sil_probabilities level)));
     (sil_vertical, exactly (snd (sil_probabilities level)))]
  else [("", coded level)].
(* the first line continues the line of the title *)
Definition sil_inline_rows (title : string) (level : Z) : list row :=
  if ((0 <=? level) && (level <=? 3))%Z then
    [(title, titled sil_horizontal (exactly (fst (sil_probabilities level))));
     (sil_vertical, exactly (snd (sil_probabilities level)))]
  else [(title, coded level)].

Definition airborne_base_rows (m : bds05.AirbornePosition) : list row :=
  [("Message", exactly "BDS 0,5 - Extended squitter airborne position");
   ("Format Type Code", number (bds05.AirbornePosition_FormatTypeCode m));
   ("Surveillance Status", coded (bds05.AirbornePosition_SurveillanceStatus m));
   ("Single Antenna Flag", coded (bds05.AirbornePosition_SingleAntennaFlag m));
   ("Altitude Source", coded (bds05.AirbornePosition_AltitudeSource m));
   ("Altitude Report Method", coded (bds05.AirbornePosition_AltitudeReportMethod m));
   ("Altitude (feet)", number (bds05.AirbornePosition_AltitudeInFeet m));
   ("Time", coded (bds05.AirbornePosition_Time m));
   ("Compact Position Reporting Format", coded (bds05.AirbornePosition_CPRFormat m));
   ("Encoded Latitude", number (bds05.AirbornePosition_EncodedLatitude m));
   ("Encoded Longitude", number (bds05.AirbornePosition_EncodedLongitude m))].

Definition surface_base_rows (ffmt : spec_float -> string) (m : bds06.SurfacePosition) : list row :=
  [("Message", exactly "BDS 0,6 - Extended squitter surface position");
   ("Format Type Code", number (bds06.SurfacePosition_FormatTypeCode m));
   ("Movement Status", coded (bds06.SurfacePosition_MovementStatus m));
   ("Movement Speed (knots)", exactly (ffmt (bds06.SurfacePosition_MovementSpeed m)));
   ("Ground Track Status", yesno (bds06.SurfacePosition_GroundTrackStatus m));
   ("Ground Track (degrees)", exactly (ffmt (bds06.SurfacePosition_GroundTrack m)));
   ("Time", coded (bds06.SurfacePosition_Time m));
   ("Compact Position Reporting Format", coded (bds06.SurfacePosition_CPRFormat m));
   ("Encoded Latitude", number (bds06.SurfacePosition_EncodedLatitude m));
   ("Encoded Longitude", number (bds06.SurfacePosition_EncodedLongitude m))].

Definition surface_capability_class_v1_rows (m : bds65_fields.SurfaceCapabilityClassV1) : list row :=
  [("Position Offset Applied", coded (bds65_fields.SurfaceCapabilityClassV1_PositionOffsetApplied m));
   ("Cockpit Display Of Traffic Information Status", coded (bds65_fields.SurfaceCapabilityClassV1_CockpitDisplayOfTrafficInformationStatus m));
   ("B2Low", coded (bds65_fields.SurfaceCapabilityClassV1_B2Low m))].

Definition airborne_capability_class_v1_rows (m : bds65_fields.AirborneCapabilityClassV1) : list row :=
  [("Not ACAS Status", coded (bds65_fields.AirborneCapabilityClassV1_NotACASStatus m));
   ("Cockpit Display Of Traffic Information Status", coded (bds65_fields.AirborneCapabilityClassV1_CockpitDisplayOfTrafficInformationStatus m));
   ("Air Referenced Velocity Report Capability", coded (bds65_fields.AirborneCapabilityClassV1_AirReferencedVelocityReportCapability m));
   ("Target State Report Capability", coded (bds65_fields.AirborneCapabilityClassV1_TargetStateReportCapability m));
   ("Target Change Report Capability", coded (bds65_fields.AirborneCapabilityClassV1_TargetChangeReportCapability m))].

Definition airborne_capability_class_v2_rows (m : bds65_fields.AirborneCapabilityClassV2) : list row :=
  [("ACAS Operational", coded (bds65_fields.AirborneCapabilityClassV2_ACASOperational m));
   ("1090ES IN (1090 MHz Extended Squitter)", coded (bds65_fields.AirborneCapabilityClassV2_ExtendedSquitterIn m));
   ("ARV (Air-Referenced Velocity Report Capability)", coded (bds65_fields.AirborneCapabilityClassV2_AirReferencedVelocityReportCapability m));
   ("Target State Report Capability", coded (bds65_fields.AirborneCapabilityClassV2_TargetStateReportCapability m));
   ("Target Change Report Capability", coded (bds65_fields.AirborneCapabilityClassV2_TargetChangeReportCapability m));
   ("UAT IN (Universal Access Transceiver)", coded (bds65_fields.AirborneCapabilityClassV2_UniversalAccessTransceiverCapability m))].

Definition airborne_operational_mode_rows (m : bds65_fields.AirborneOperationalMode) : list row :=
  [("ACAS Resolution Advisory Active", coded (bds65_fields.AirborneOperationalMode_ACASResolutionAdvisoryActive m));
   ("Ident Switch Active", coded (bds65_fields.AirborneOperationalMode_IdentSwitchActive m));
   ("Single Antenna Flag", coded (bds65_fields.AirborneOperationalMode_SingleAntennaFlag m));
   ("System Design Assurance", coded (bds65_fields.AirborneOperationalMode_SystemDesignAssurance m))].

Definition gps_antenna_rows (m : bds65_fields.GPSAntenna) : list row :=
  [("Lateral Axis GPS Antenna", coded (bds65_fields.GPSAntenna_GPSAntennaLateral m));
   ("Longitudinal Axis GPS Antenna", coded (bds65_fields.GPSAntenna_GPSAntennaLongitudinal m))].

Definition operational_mode_rows (m : bds65_fields.OperationalMode) : list row :=
  [("ACAS Resolution Advisory Active", coded (bds65_fields.OperationalMode_ACASResolutionAdvisoryActive m));
   ("Ident Switch Active", coded (bds65_fields.OperationalMode_IdentSwitchActive m));
   ("Receiving ATC Services", coded (bds65_fields.OperationalMode_ReceivingATCServices m))].

Definition surface_capability_class_v2_rows (m : bds65_fields.SurfaceCapabilityClassV2) : list row :=
  [("1090ES IN (1090 MHz Extended Squitter)", coded (bds65_fields.SurfaceCapabilityClassV2_ExtendedSquitterIn m));
   ("B2 Low (Class B2 Transmit Power Less Than 70 Watts)", coded (bds65_fields.SurfaceCapabilityClassV2_B2Low m));
   ("UAT IN (Universal Access Transceiver)", coded (bds65_fields.SurfaceCapabilityClassV2_UniversalAccessTransceiverCapability m));
   ("NACV (Navigation Accuracy Category for Velocity)", number (bds65_fields.SurfaceCapabilityClassV2_NavigationAccuracyCategoryVelocity m));
   ("NIC Supplement-C (NIC Supplement for use on the Surface)", said ["0"; "1"] (bds65_fields.SurfaceCapabilityClassV2_NICSupplementC m))].

Definition surface_operational_mode_rows (m : bds65_fields.SurfaceOperationalMode) : list row :=
  [("ACAS Resolution Advisory Active", coded (bds65_fields.SurfaceOperationalMode_ACASResolutionAdvisoryActive m));
   ("Ident Switch Active", coded (bds65_fields.SurfaceOperationalMode_IdentSwitchActive m));
   ("Single Antenna Flag", coded (bds65_fields.SurfaceOperationalMode_SingleAntennaFlag m));
   ("System Design Assurance", coded (bds65_fields.SurfaceOperationalMode_SystemDesignAssurance m));
   ("GPS Antenna", titled "Lateral Axis GPS Antenna" (coded (bds65_fields.GPSAntenna_GPSAntennaLateral (bds65_fields.SurfaceOperationalMode_GPSAntenna m))));
   ("    Longitudinal Axis GPS Antenna", coded (bds65_fields.GPSAntenna_GPSAntennaLongitudinal (bds65_fields.SurfaceOperationalMode_GPSAntenna m)))].

Definition airborne_position_type0_rows (m : adsb_airborne_position.AirbornePositionType0) : list row :=
  airborne_base_rows (adsb_airborne_position.AirbornePositionType0_AirbornePosition m) ++
  [("Navigation Integrity Category", number (adsb_airborne_position.AirbornePositionType0_NavigationIntegrityCategory m))].

Definition airborne_position_v0_rows (m : adsb_airborne_position.AirbornePositionV0) : list row :=
  airborne_base_rows (adsb_airborne_position.AirbornePositionV0_AirbornePosition m) ++
  [("Horizontal Protection Limit", worded adsb_airborne_position_fields.HorizontalProtectionLimit_ToString (adsb_airborne_position.AirbornePositionV0_HorizontalProtectionLimit m));
   ("Containment Radius", worded adsb_airborne_position_fields.ContainmentRadius_ToString (adsb_airborne_position.AirbornePositionV0_ContainmentRadius m))].

Definition airborne_position_v1_rows (m : adsb_airborne_position.AirbornePositionV1) : list row :=
  airborne_base_rows (adsb_airborne_position.AirbornePositionV1_AirbornePosition m) ++
  [("Navigation Integrity Code A", yesno (adsb_airborne_position.AirbornePositionV1_NavigationIntegrityCodeSupplementA m));
   ("Horizontal Containment Radius", worded adsb_airborne_position_fields.HorizontalContainmentRadiusV1_ToString (adsb_airborne_position.AirbornePositionV1_HorizontalContainmentRadius m));
   ("Navigation Integrity Category", number (adsb_airborne_position.AirbornePositionV1_NavigationIntegrityCategory m))].

Definition airborne_position_v2_rows (m : adsb_airborne_position.AirbornePositionV2) : list row :=
  airborne_base_rows (adsb_airborne_position.AirbornePositionV2_AirbornePosition m) ++
  [("Navigation Integrity Code A", yesno (adsb_airborne_position.AirbornePositionV2_NavigationIntegrityCodeSupplementA m));
   ("Navigation Integrity Code B", said ["0"; "1"] (adsb_airborne_position.AirbornePositionV2_NavigationIntegrityCodeSupplementB m));
   ("Horizontal Containment Radius", worded adsb_airborne_position_fields.HorizontalContainmentRadiusV2_ToString (adsb_airborne_position.AirbornePositionV2_HorizontalContainmentRadius m));
   ("Navigation Integrity Category", number (adsb_airborne_position.AirbornePositionV2_NavigationIntegrityCategory m))].

Definition no_position_information_rows (m : adsb_no_position_information.NoPositionInformation) : list row :=
  [("Message", exactly "No Position Information");
   ("Format Type Code", number (adsb_no_position_information.NoPositionInformation_FormatTypeCode m));
   ("Altitude Baro (feet)", number (adsb_no_position_information.NoPositionInformation_AltitudeBarometric m));
   ("Navigation Integrity Category", number (adsb_no_position_information.NoPositionInformation_NavigationIntegrityCategory m))].

Definition surface_position_v0_rows (ffmt : spec_float -> string) (m : adsb_surface_position.SurfacePositionV0) : list row :=
  surface_base_rows ffmt (adsb_surface_position.SurfacePositionV0_SurfacePosition m) ++
  [("Horizontal Protection Limit", worded adsb_surface_position_fields.HorizontalProtectionLimit_ToString (adsb_surface_position.SurfacePositionV0_HorizontalProtectionLimit m));
   ("Containment Radius", worded adsb_surface_position_fields.ContainmentRadius_ToString (adsb_surface_position.SurfacePositionV0_ContainmentRadius m))].

Definition surface_position_v1_rows (ffmt : spec_float -> string) (m : adsb_surface_position.SurfacePositionV1) : list row :=
  surface_base_rows ffmt (adsb_surface_position.SurfacePositionV1_SurfacePosition m) ++
  [("Navigation Integrity Code A", yesno (adsb_surface_position.SurfacePositionV1_nicSupplementA m));
   ("Horizontal Containment Limit", worded adsb_surface_position_fields.HorizontalContainmentRadiusV1_ToString (adsb_surface_position.SurfacePositionV1_HorizontalContainmentRadius m));
   ("Navigation Integrity Category", number (adsb_surface_position.SurfacePositionV1_NavigationIntegrityCategory m))].

Definition surface_position_v2_rows (ffmt : spec_float -> string) (m : adsb_surface_position.SurfacePositionV2) : list row :=
  surface_base_rows ffmt (adsb_surface_position.SurfacePositionV2_SurfacePosition m) ++
  [("Navigation Integrity Code A", yesno (adsb_surface_position.SurfacePositionV2_nicSupplementA m));
   ("Navigation Integrity Code C", yesno (adsb_surface_position.SurfacePositionV2_nicSupplementC m));
   ("Horizontal Containment Limit", worded adsb_surface_position_fields.HorizontalContainmentRadiusV2_ToString (adsb_surface_position.SurfacePositionV2_HorizontalContainmentRadius m));
   ("Navigation Integrity Category", number (adsb_surface_position.SurfacePositionV2_NavigationIntegrityCategory m))].

Definition squitter_status_rows (m : bds07.Status) : list row :=
  [("Message", exactly "BDS 0,7 -  Extended squitter status");
   ("Transmission Rate Subfield", coded (bds07.Status_TransmissionRateSubfield m));
   ("Altitude Type Subfield", coded (bds07.Status_AltitudeTypeSubfield m));
   ("", heading)].

Definition aircraft_identification_and_category_rows (m : bds08.AircraftIdentificationAndCategory) : list row :=
  [("Message", exactly "BDS 0,8 - Extended squitter aircraft identification and category");
   ("Format Type Code", number (bds08.AircraftIdentificationAndCategory_FormatTypeCode m));
   ("Category", worded bds08_fields.IAircraftCategory_ToString (bds08.AircraftIdentificationAndCategory_Category m));
   ("Identification", exactly (bds08.AircraftIdentificationAndCategory_Identification m))].

Definition airborne_velocity_air_speed_normal_rows (ffmt : spec_float -> string) (m : bds09.AirborneVelocityAirSpeedNormal) : list row :=
  [("Message", exactly "BDS 0,9 - Extended squitter airborne velocity");
   ("Subtype", coded (bds09.AirborneVelocityAirSpeedNormal_Subtype m));
   ("Intent Change", coded (bds09.AirborneVelocityAirSpeedNormal_IntentChange m));
   ("IFR Capability", coded (bds09.AirborneVelocityAirSpeedNormal_IFRCapability m));
   ("Navigation Uncertainty Category", worded bds09_fields.NavigationUncertaintyCategory_ToString (bds09.AirborneVelocityAirSpeedNormal_NavigationUncertaintyCategory m));
   ("Magnetic Heading Status", coded (bds09.AirborneVelocityAirSpeedNormal_MagneticHeadingStatus m));
   ("Magnetic Heading (degrees)", exactly (ffmt (bds09.AirborneVelocityAirSpeedNormal_MagneticHeading m)));
   ("Air Speed Status", said ["No information"; "Regular value"; "Maximum"] (bds09.AirborneVelocityAirSpeedNormal_AirspeedStatus m));
   ("Air Speed (knots)", number (bds09.AirborneVelocityAirSpeedNormal_Airspeed m));
   ("Vertical Rate Source", coded (bds09.AirborneVelocityAirSpeedNormal_VerticalRateSource m));
   ("Vertical Rate Status", said ["No information"; "Regular value"; "Maximum"] (bds09.AirborneVelocityAirSpeedNormal_VerticalRateStatus m));
   ("Vertical Rate (ft/min)", number (bds09.AirborneVelocityAirSpeedNormal_VerticalRate m));
   (("Geom. Height Diff." ++ " From Baro Status")%string, said ["No information"; "Regular value"; "Maximum"] (bds09.AirborneVelocityAirSpeedNormal_HeightDifferenceFromBaroStatus m));
   (("Geom. Height Diff." ++ " From Baro (ft)")%string, number (bds09.AirborneVelocityAirSpeedNormal_HeightDifferenceFromBaro m))].

Definition airborne_velocity_air_speed_supersonic_rows (ffmt : spec_float -> string) (m : bds09.AirborneVelocityAirSpeedSupersonic) : list row :=
  [("Message", exactly "BDS 0,9 - Extended squitter airborne velocity");
   ("Subtype", coded (bds09.AirborneVelocityAirSpeedSupersonic_Subtype m));
   ("Intent Change", coded (bds09.AirborneVelocityAirSpeedSupersonic_IntentChange m));
   ("IFR Capability", coded (bds09.AirborneVelocityAirSpeedSupersonic_IFRCapability m));
   ("Navigation Uncertainty Category", worded bds09_fields.NavigationUncertaintyCategory_ToString (bds09.AirborneVelocityAirSpeedSupersonic_NavigationUncertaintyCategory m));
   ("Magnetic Heading Status", coded (bds09.AirborneVelocityAirSpeedSupersonic_MagneticHeadingStatus m));
   ("Magnetic Heading (degrees)", exactly (ffmt (bds09.AirborneVelocityAirSpeedSupersonic_MagneticHeading m)));
   ("Air Speed Status", said ["No information"; "Regular value"; "Maximum"] (bds09.AirborneVelocityAirSpeedSupersonic_AirspeedStatus m));
   ("Air Speed (knots)", number (bds09.AirborneVelocityAirSpeedSupersonic_Airspeed m));
   ("Vertical Rate Source", coded (bds09.AirborneVelocityAirSpeedSupersonic_VerticalRateSource m));
   ("Vertical Rate Status", said ["No information"; "Regular value"; "Maximum"] (bds09.AirborneVelocityAirSpeedSupersonic_VerticalRateStatus m));
   ("Vertical Rate (ft/min)", number (bds09.AirborneVelocityAirSpeedSupersonic_VerticalRate m));
   (("Geom. Height Diff." ++ " From Baro Status")%string, said ["No information"; "Regular value"; "Maximum"] (bds09.AirborneVelocityAirSpeedSupersonic_HeightDifferenceFromBaroStatus m));
   (("Geom. Height Diff." ++ " From Baro (ft)")%string, number (bds09.AirborneVelocityAirSpeedSupersonic_HeightDifferenceFromBaro m))].

Definition airborne_velocity_ground_speed_normal_rows (ffmt : spec_float -> string) (matan2 : f64 -> f64 -> f64) (m : bds09.AirborneVelocityGroundSpeedNormal) : list row :=
  [("Message", exactly "BDS 0,9 - Extended squitter airborne velocity");
   ("Subtype", coded (bds09.AirborneVelocityGroundSpeedNormal_Subtype m));
   ("Intent Change", coded (bds09.AirborneVelocityGroundSpeedNormal_IntentChange m));
   ("IFR Capability", coded (bds09.AirborneVelocityGroundSpeedNormal_IFRCapability m));
   ("Navigation Uncertainty Category", worded bds09_fields.NavigationUncertaintyCategory_ToString (bds09.AirborneVelocityGroundSpeedNormal_NavigationUncertaintyCategory m));
   ("Direction EW", coded (bds09.AirborneVelocityGroundSpeedNormal_DirectionEastWest m));
   ("Velocity EW Status", said ["No information"; "Regular value"; "Maximum"] (bds09.AirborneVelocityGroundSpeedNormal_VelocityEWStatus m));
   ("Velocity EW (knots)", number (bds09.AirborneVelocityGroundSpeedNormal_VelocityEW m));
   ("Direction NS", coded (bds09.AirborneVelocityGroundSpeedNormal_DirectionNorthSouth m));
   ("Velocity NS Status", said ["No information"; "Regular value"; "Maximum"] (bds09.AirborneVelocityGroundSpeedNormal_VelocityNSStatus m));
   ("Velocity NS (knots)", number (bds09.AirborneVelocityGroundSpeedNormal_VelocityNS m));
   ("Vertical Rate Source", coded (bds09.AirborneVelocityGroundSpeedNormal_VerticalRateSource m));
   ("Vertical Rate Status", said ["No information"; "Regular value"; "Maximum"] (bds09.AirborneVelocityGroundSpeedNormal_VerticalRateStatus m));
   ("Vertical Rate (ft/min)", number (bds09.AirborneVelocityGroundSpeedNormal_VerticalRate m));
   ("Difference Alt. GNSS Baro Status", said ["No information"; "Regular value"; "Maximum"] (bds09.AirborneVelocityGroundSpeedNormal_DifferenceAltitudeGNSSBaroStatus m));
   ("Difference Alt. GNSS Baro (ft)", number (bds09.AirborneVelocityGroundSpeedNormal_DifferenceAltitudeGNSSBaro m));
   ("Computed Speed", speed_value (bds09.AirborneVelocityGroundSpeedNormal_GetSpeed m));
   ("Computed Track", track_value ffmt (bds09.AirborneVelocityGroundSpeedNormal_GetTrack matan2 m))].

Definition airborne_velocity_ground_speed_supersonic_rows (ffmt : spec_float -> string) (matan2 : f64 -> f64 -> f64) (m : bds09.AirborneVelocityGroundSpeedSupersonic) : list row :=
  [("Message", exactly "BDS 0,9 - Extended squitter airborne velocity");
   ("Subtype", coded (bds09.AirborneVelocityGroundSpeedSupersonic_Subtype m));
   ("Intent Change", coded (bds09.AirborneVelocityGroundSpeedSupersonic_IntentChange m));
   ("IFR Capability", coded (bds09.AirborneVelocityGroundSpeedSupersonic_IFRCapability m));
   ("Navigation Uncertainty Category", worded bds09_fields.NavigationUncertaintyCategory_ToString (bds09.AirborneVelocityGroundSpeedSupersonic_NavigationUncertaintyCategory m));
   ("Direction EW", coded (bds09.AirborneVelocityGroundSpeedSupersonic_DirectionEastWest m));
   ("Velocity EW Status", said ["No information"; "Regular value"; "Maximum"] (bds09.AirborneVelocityGroundSpeedSupersonic_VelocityEWStatus m));
   ("Velocity EW (knots)", number (bds09.AirborneVelocityGroundSpeedSupersonic_VelocityEW m));
   ("Direction NS", coded (bds09.AirborneVelocityGroundSpeedSupersonic_DirectionNorthSouth m));
   ("Velocity NS Status", said ["No information"; "Regular value"; "Maximum"] (bds09.AirborneVelocityGroundSpeedSupersonic_VelocityNSStatus m));
   ("Velocity NS (knots)", number (bds09.AirborneVelocityGroundSpeedSupersonic_VelocityNS m));
   ("Vertical Rate Source", coded (bds09.AirborneVelocityGroundSpeedSupersonic_VerticalRateSource m));
   ("Vertical Rate Status", said ["No information"; "Regular value"; "Maximum"] (bds09.AirborneVelocityGroundSpeedSupersonic_VerticalRateStatus m));
   ("Vertical Rate (ft/min)", number (bds09.AirborneVelocityGroundSpeedSupersonic_VerticalRate m));
   ("Difference Alt. GNSS Baro Status", said ["No information"; "Regular value"; "Maximum"] (bds09.AirborneVelocityGroundSpeedSupersonic_DifferenceAltitudeGNSSBaroStatus m));
   ("Difference Alt. GNSS Baro (ft)", number (bds09.AirborneVelocityGroundSpeedSupersonic_DifferenceAltitudeGNSSBaro m));
   ("Computed Speed", speed_value (bds09.AirborneVelocityGroundSpeedSupersonic_GetSpeed m));
   ("Computed Track", track_value ffmt (bds09.AirborneVelocityGroundSpeedSupersonic_GetTrack matan2 m))].

Definition data_link_capability_report_rows (m : bds10.DataLinkCapabilityReport) : list row :=
  [("Message", exactly "BDS 1,0 - Data link capability report");
   ("Continuation Flag", coded (bds10.DataLinkCapabilityReport_ContinuationFlag m));
   ("ACAS Status", coded (bds10.DataLinkCapabilityReport_ACASStatus m));
   ("ModeS Subnetwork Version", worded bds10_fields.ModeSSubnetworkVersion_ToString (bds10.DataLinkCapabilityReport_ModeSSubnetworkVersion m));
   ("Transponder Enhanced Protocol Indicator", coded (bds10.DataLinkCapabilityReport_TransponderEnhancedProtocolIndicator m));
   ("ModeS Specific Services Capability", coded (bds10.DataLinkCapabilityReport_ModeSSpecificServicesCapability m));
   ("Uplink ELM Throughput Capability", coded (bds10.DataLinkCapabilityReport_UplinkELMThroughputCapability m));
   ("Downlink ELM Throughput Capability", coded (bds10.DataLinkCapabilityReport_DownlinkELMThroughputCapability m));
   ("Aircraft Identification Capability", coded (bds10.DataLinkCapabilityReport_AircraftIdentificationCapability m));
   ("Squitter Capability Subfield", coded (bds10.DataLinkCapabilityReport_SquitterCapabilitySubfield m));
   ("Surveillance Identifier Code", coded (bds10.DataLinkCapabilityReport_SurveillanceIdentifierCode m));
   ("Common Usage GICB Capability", coded (bds10.DataLinkCapabilityReport_CommonUsageGICBCapability m));
   ("ACAS Hybrid Surveillance Capability", coded (bds10.DataLinkCapabilityReport_ACASHybridSurveillanceCapability m));
   ("ACAS Generation Capability", coded (bds10.DataLinkCapabilityReport_ACASGenerationCapability m));
   ("ACAS Applicable Document", said ["RTCA DO-185"; "RTCA DO-185B"; "RTCA DO-185A"] (bds10.DataLinkCapabilityReport_ACASApplicableDocument m));
   ("DTE SubAddress Statuses", sixteen_bits (bds10.DataLinkCapabilityReport_DTESubAddressStatuses m));
   ("", heading)].

Definition gicb_capability_report_rows (m : bds17.CommonUsageGICBCapabilityReport) : list row :=
  [("Message", exactly "BDS 1,7 - Common usage GICB capability report");
   ("0,5 Extended squitter airborne position", yesno (bds17.CommonUsageGICBCapabilityReport_ExtendedSquitterAirbornePosition m));
   ("0,6 Extended squitter surface position", yesno (bds17.CommonUsageGICBCapabilityReport_ExtendedSquitterSurfacePosition m));
   ("0,7 Extended squitter status", yesno (bds17.CommonUsageGICBCapabilityReport_ExtendedSquitterStatus m));
   ("0,8 Extended squitter identification and category", yesno (bds17.CommonUsageGICBCapabilityReport_ExtendedSquitterIdentificationAndCategory m));
   ("0,9 Extended squitter airborne velocity information", yesno (bds17.CommonUsageGICBCapabilityReport_ExtendedSquitterAirborneVelocityInformation m));
   ("0,A Extended squitter event-driven information", yesno (bds17.CommonUsageGICBCapabilityReport_ExtendedSquitterEventDrivenInformation m));
   ("2,0 Aircraft identification", yesno (bds17.CommonUsageGICBCapabilityReport_AircraftIdentification m));
   ("2,l Aircraft registration number", yesno (bds17.CommonUsageGICBCapabilityReport_AircraftRegistrationNumber m));
   ("4,0 Selected vertical intention", yesno (bds17.CommonUsageGICBCapabilityReport_SelectedVerticalIntention m));
   ("4,l Next waypoint identifier", yesno (bds17.CommonUsageGICBCapabilityReport_NextWaypointIdentifier m));
   ("4,2 Next waypoint position", yesno (bds17.CommonUsageGICBCapabilityReport_NextWaypointPosition m));
   ("4,3 Next waypoint information", yesno (bds17.CommonUsageGICBCapabilityReport_NextWaypointInformation m));
   ("4,4 Meteorological routine report", yesno (bds17.CommonUsageGICBCapabilityReport_MeteorologicalRoutineReport m));
   ("4,5 Meteorological hazard report", yesno (bds17.CommonUsageGICBCapabilityReport_MeteorologicalHazardReport m));
   ("4.8 VHF channel report", yesno (bds17.CommonUsageGICBCapabilityReport_VHFChannelReport m));
   ("5,0 Track and turn report", yesno (bds17.CommonUsageGICBCapabilityReport_TrackAndTurnReport m));
   ("5,1 Position coarse", yesno (bds17.CommonUsageGICBCapabilityReport_PositionCoarse m));
   ("5,2 Position fine", yesno (bds17.CommonUsageGICBCapabilityReport_PositionFine m));
   ("5,3 Air-referenced state vector", yesno (bds17.CommonUsageGICBCapabilityReport_AirReferencedStateVector m));
   ("5,4 Waypoint 1", yesno (bds17.CommonUsageGICBCapabilityReport_Waypoint1 m));
   ("5,5 Waypoint 2", yesno (bds17.CommonUsageGICBCapabilityReport_Waypoint2 m));
   ("5,6 Waypoint 3", yesno (bds17.CommonUsageGICBCapabilityReport_Waypoint3 m));
   ("5,F Quasi-static parameter monitoring", yesno (bds17.CommonUsageGICBCapabilityReport_QuasiStaticParameterMonitoring m));
   ("6,0 Heading and speed report", yesno (bds17.CommonUsageGICBCapabilityReport_HeadingAndSpeedReport m));
   ("F,1 Military applications", yesno (bds17.CommonUsageGICBCapabilityReport_MilitaryApplications m));
   ("", heading)].

Definition aircraft_identification_rows (m : bds20.AircraftIdentification) : list row :=
  [("Message", exactly "BDS 2,0 - Aircraft identification");
   ("Identification", exactly (bds20.AircraftIdentification_Identification m));
   ("", heading)].

Definition acas_report_rows (ffmt : spec_float -> string) (m : bds30.ACASResolutionAdvisory) : list row :=
  [("Message", exactly "BDS 3,0 - ACAS active resolution advisory");
   ("ACAS Data", heading)] ++
  resolution_advisory_rows ffmt (bds30.ACASResolutionAdvisory_ResolutionAdvisory m).

Definition selected_vertical_intention_rows (ffmt : spec_float -> string) (m : bds40.SelectedVerticalIntention) : list row :=
  [("Message", exactly "BDS 4,0 - Selected vertical intention");
   ("MCP/FCU Selected Altitude Available", yesno (bds40.SelectedVerticalIntention_MCPFCUSelectedAltitudeAvailable m));
   ("MCP/FCU Selected Altitude", number (bds40.SelectedVerticalIntention_MCPFCUSelectedAltitude m));
   ("FMS Selected Altitude Available", yesno (bds40.SelectedVerticalIntention_FMSSelectedAltitudeAvailable m));
   ("FMS Selected Altitude", number (bds40.SelectedVerticalIntention_FMSSelectedAltitude m));
   ("Barometric Pressure Setting Available", yesno (bds40.SelectedVerticalIntention_BarometricPressureSettingAvailable m));
   ("Barometric Pressure Setting", exactly (ffmt (bds40.SelectedVerticalIntention_BarometricPressureSetting m)));
   ("Status Of Mode Bits", coded (bds40.SelectedVerticalIntention_StatusOfModeBits m));
   ("VNAV Mode", yesno (bds40.SelectedVerticalIntention_VNAVMode m));
   ("Altitude Hold Mode", yesno (bds40.SelectedVerticalIntention_AltitudeHoldMode m));
   ("Approach Mode", yesno (bds40.SelectedVerticalIntention_ApproachMode m));
   ("Status Of Target Altitude Source", coded (bds40.SelectedVerticalIntention_StatusOfTargetAltitudeSource m));
   ("Target Altitude Source", coded (bds40.SelectedVerticalIntention_TargetAltitudeSource m))].

Definition meteorological_routine_air_report_v0_rows (ffmt : spec_float -> string) (m : bds44.MeteorologicalRoutineAirReportV0) : list row :=
  [("Message", exactly "BDS 4,4 - Meteorological routine air report");
   ("Source", coded (bds44.MeteorologicalRoutineAirReportV0_Source m));
   ("Wind Speed Status", yesno (bds44.MeteorologicalRoutineAirReportV0_WindSpeedStatus m));
   ("Wind Speed (knot)", number (bds44.MeteorologicalRoutineAirReportV0_WindSpeed m));
   ("Wind Direction Status", yesno (bds44.MeteorologicalRoutineAirReportV0_WindDirectionStatus m));
   ("Wind Direction (degrees)", exactly (ffmt (bds44.MeteorologicalRoutineAirReportV0_WindDirection m)));
   ("Static Air Temperature (degrees C)", exactly (ffmt (bds44.MeteorologicalRoutineAirReportV0_StaticAirTemperature m)));
   ("Average Static Pressure Status", yesno (bds44.MeteorologicalRoutineAirReportV0_AverageStaticPressureStatus m));
   ("Average Static Pressure (hPa)", number (bds44.MeteorologicalRoutineAirReportV0_AverageStaticPressure m));
   ("Turbulence Status", yesno (bds44.MeteorologicalRoutineAirReportV0_TurbulenceStatus m));
   ("Turbulence", coded (bds44.MeteorologicalRoutineAirReportV0_Turbulence m));
   ("Humidity Status", yesno (bds44.MeteorologicalRoutineAirReportV0_HumidityStatus m));
   ("Humidity (%)", exactly (ffmt (bds44.MeteorologicalRoutineAirReportV0_Humidity m)))].

Definition meteorological_routine_air_report_v1_rows (ffmt : spec_float -> string) (m : bds44.MeteorologicalRoutineAirReportV1) : list row :=
  [("Message", exactly "BDS 4,4 - Meteorological routine air report");
   ("Wind Speed Status", yesno (bds44.MeteorologicalRoutineAirReportV1_WindSpeedStatus m));
   ("Wind Speed (knot)", number (bds44.MeteorologicalRoutineAirReportV1_WindSpeed m));
   ("Wind Direction Status", yesno (bds44.MeteorologicalRoutineAirReportV1_WindDirectionStatus m));
   ("Wind Direction (degrees)", exactly (ffmt (bds44.MeteorologicalRoutineAirReportV1_WindDirection m)));
   ("Static Air Temperature Status", yesno (bds44.MeteorologicalRoutineAirReportV1_StaticAirTemperatureStatus m));
   ("Static Air Temperature (degrees C)", exactly (ffmt (bds44.MeteorologicalRoutineAirReportV1_StaticAirTemperature m)));
   ("Average Static Pressure Status", yesno (bds44.MeteorologicalRoutineAirReportV1_AverageStaticPressureStatus m));
   ("Average Static Pressure (hPa)", number (bds44.MeteorologicalRoutineAirReportV1_AverageStaticPressure m));
   ("Turbulence Flag", coded (bds44.MeteorologicalRoutineAirReportV1_TurbulenceFlag m));
   ("Humidity Status", yesno (bds44.MeteorologicalRoutineAirReportV1_HumidityStatus m));
   ("Humidity (%)", exactly (ffmt (bds44.MeteorologicalRoutineAirReportV1_Humidity m)))].

Definition meteorological_routine_air_report_v2_rows (ffmt : spec_float -> string) (m : bds44.MeteorologicalRoutineAirReportV2) : list row :=
  [("Message", exactly "BDS 4,4 - Meteorological routine air report");
   ("Source", coded (bds44.MeteorologicalRoutineAirReportV2_Source m));
   ("Wind Speed Status", yesno (bds44.MeteorologicalRoutineAirReportV2_WindSpeedStatus m));
   ("Wind Speed (knot)", number (bds44.MeteorologicalRoutineAirReportV2_WindSpeed m));
   ("Wind Direction Status", yesno (bds44.MeteorologicalRoutineAirReportV2_WindDirectionStatus m));
   ("Wind Direction (degrees)", exactly (ffmt (bds44.MeteorologicalRoutineAirReportV2_WindDirection m)));
   ("Static Air Temperature Status", yesno (bds44.MeteorologicalRoutineAirReportV2_StaticAirTemperatureStatus m));
   ("Static Air Temperature (degrees C)", exactly (ffmt (bds44.MeteorologicalRoutineAirReportV2_StaticAirTemperature m)));
   ("Average Static Pressure Status", yesno (bds44.MeteorologicalRoutineAirReportV2_AverageStaticPressureStatus m));
   ("Average Static Pressure (hPa)", number (bds44.MeteorologicalRoutineAirReportV2_AverageStaticPressure m));
   ("Turbulence Flag", coded (bds44.MeteorologicalRoutineAirReportV2_TurbulenceFlag m));
   ("Humidity Status", yesno (bds44.MeteorologicalRoutineAirReportV2_HumidityStatus m));
   ("Humidity (%)", exactly (ffmt (bds44.MeteorologicalRoutineAirReportV2_Humidity m)))].

Definition meteorological_hazard_report_v0_rows (ffmt : spec_float -> string) (m : bds45.MeteorologicalHazardReportV0) : list row :=
  [("Message", exactly "BDS 4,5 - Meteorological hazard report");
   ("Turbulence Status", yesno (bds45.MeteorologicalHazardReportV0_TurbulenceStatus m));
   ("Turbulence", coded (bds45.MeteorologicalHazardReportV0_Turbulence m));
   ("Wind Shear Status", yesno (bds45.MeteorologicalHazardReportV0_WindShearStatus m));
   ("Wind Shear", coded (bds45.MeteorologicalHazardReportV0_WindShear m));
   ("Micro Burst Status", yesno (bds45.MeteorologicalHazardReportV0_MicroBurstStatus m));
   ("Micro Burst", coded (bds45.MeteorologicalHazardReportV0_MicroBurst m));
   ("Icing Status", yesno (bds45.MeteorologicalHazardReportV0_IcingStatus m));
   ("Icing", coded (bds45.MeteorologicalHazardReportV0_Icing m));
   ("Wake Vortex Status", yesno (bds45.MeteorologicalHazardReportV0_WakeVortexStatus m));
   ("Wake Vortex", coded (bds45.MeteorologicalHazardReportV0_WakeVortex m));
   ("Static Air Temperature Status", yesno (bds45.MeteorologicalHazardReportV0_StaticAirTemperatureStatus m));
   ("Static Air Temperature (degrees C)", exactly (ffmt (bds45.MeteorologicalHazardReportV0_StaticAirTemperature m)));
   ("Average Static Pressure Status", yesno (bds45.MeteorologicalHazardReportV0_AverageStaticPressureStatus m));
   ("Average Static Pressure (hPa)", number (bds45.MeteorologicalHazardReportV0_AverageStaticPressure m));
   ("Radio Height Status", yesno (bds45.MeteorologicalHazardReportV0_RadioHeightStatus m));
   ("Radio Height (feet)", number (bds45.MeteorologicalHazardReportV0_RadioHeight m))].

Definition meteorological_hazard_report_v1_rows (ffmt : spec_float -> string) (m : bds45.MeteorologicalHazardReportV1) : list row :=
  [("Message", exactly "BDS 4,5 - Meteorological hazard report");
   ("Wind Shear Status", yesno (bds45.MeteorologicalHazardReportV1_WindShearStatus m));
   ("Wind Shear", coded (bds45.MeteorologicalHazardReportV1_WindShear m));
   ("Micro Burst Status", yesno (bds45.MeteorologicalHazardReportV1_MicroBurstStatus m));
   ("Micro Burst", coded (bds45.MeteorologicalHazardReportV1_MicroBurst m));
   ("Icing Status", yesno (bds45.MeteorologicalHazardReportV1_IcingStatus m));
   ("Icing", coded (bds45.MeteorologicalHazardReportV1_Icing m));
   ("Wake Vortex Status", yesno (bds45.MeteorologicalHazardReportV1_WakeVortexStatus m));
   ("Wake Vortex", coded (bds45.MeteorologicalHazardReportV1_WakeVortex m));
   ("Static Air Temperature Status", yesno (bds45.MeteorologicalHazardReportV1_StaticAirTemperatureStatus m));
   ("Static Air Temperature (degrees C)", exactly (ffmt (bds45.MeteorologicalHazardReportV1_StaticAirTemperature m)));
   ("Average Static Pressure Status", yesno (bds45.MeteorologicalHazardReportV1_AverageStaticPressureStatus m));
   ("Average Static Pressure (hPa)", number (bds45.MeteorologicalHazardReportV1_AverageStaticPressure m));
   ("Radio Height Status", yesno (bds45.MeteorologicalHazardReportV1_RadioHeightStatus m));
   ("Radio Height (feet)", number (bds45.MeteorologicalHazardReportV1_RadioHeight m));
   ("Turbulence Status", yesno (bds45.MeteorologicalHazardReportV1_TurbulenceStatus m));
   ("Average Turbulence EDR Metric", exactly (ffmt (bds45.MeteorologicalHazardReportV1_TurbulenceAverageEDR m)));
   ("Peak Turbulence EDR Metric", exactly (ffmt (bds45.MeteorologicalHazardReportV1_TurbulencePeakEDR m)));
   ("Turbulence Peak Delay Interval (min)", number (bds45.MeteorologicalHazardReportV1_TurbulencePeakDelayInterval m))].

Definition track_and_turn_report_rows (ffmt : spec_float -> string) (m : bds50.TrackAndTurnReport) : list row :=
  [("Message", exactly "BDS 5,0 - Track and turn report");
   ("Roll Angle Status", yesno (bds50.TrackAndTurnReport_RollAngleStatus m));
   ("Roll Angle (degrees)", exactly (ffmt (bds50.TrackAndTurnReport_RollAngle m)));
   ("True Track Angle Status", yesno (bds50.TrackAndTurnReport_TrueTrackAngleStatus m));
   ("True Track (degrees)", exactly (ffmt (bds50.TrackAndTurnReport_TrueTrackAngle m)));
   ("Ground Speed Status", yesno (bds50.TrackAndTurnReport_GroundSpeedStatus m));
   ("Ground Speed (knots)", number (bds50.TrackAndTurnReport_GroundSpeed m));
   ("Track Angle Rate Status", yesno (bds50.TrackAndTurnReport_TrackAngleRateStatus m));
   ("Track Angle Rate (degrees/second)", exactly (ffmt (bds50.TrackAndTurnReport_TrackAngleRate m)));
   ("True Air Speed Status", yesno (bds50.TrackAndTurnReport_TrueAirSpeedStatus m));
   ("True Air Speed (knots)", number (bds50.TrackAndTurnReport_TrueAirSpeed m))].

Definition heading_and_track_report_rows (ffmt : spec_float -> string) (m : bds60.HeadingAndTrackReport) : list row :=
  [("Message", exactly "BDS 6,0 - Heading and speed report");
   ("Magnetic Heading Status", yesno (bds60.HeadingAndTrackReport_MagneticHeadingStatus m));
   ("Magnetic Heading (degrees)", exactly (ffmt (bds60.HeadingAndTrackReport_MagneticHeading m)));
   ("Indicated Air Speed Status", yesno (bds60.HeadingAndTrackReport_IndicatedAirSpeedStatus m));
   ("Indicated Air Speed (knots)", number (bds60.HeadingAndTrackReport_IndicatedAirSpeed m));
   ("Mach Status", yesno (bds60.HeadingAndTrackReport_MachStatus m));
   ("Mach", exactly (ffmt (bds60.HeadingAndTrackReport_Mach m)));
   ("Barometric Altitude Rate Status", yesno (bds60.HeadingAndTrackReport_BarometricAltitudeRateStatus m));
   ("Barometric Altitude Rate (feet/minute)", number (bds60.HeadingAndTrackReport_BarometricAltitudeRate m));
   ("Inertial Vertical Velocity Status", yesno (bds60.HeadingAndTrackReport_InitialVerticalVelocityStatus m));
   ("Inertial Vertical Velocity (feet/minute)", number (bds60.HeadingAndTrackReport_InitialVerticalVelocity m))].

Definition aircraft_status_acas_rows (ffmt : spec_float -> string) (m : bds61.AircraftStatusACAS) : list row :=
  [("Message", exactly "BDS 6,1 - Extended squitter emergency/priority status");
   ("Subtype", coded (bds61.AircraftStatusACAS_Subtype m));
   ("ACAS Data", heading)] ++
  resolution_advisory_rows ffmt (bds61.AircraftStatusACAS_ResolutionAdvisory m).

Definition aircraft_status_emergency_rows (m : bds61.AircraftStatusEmergency) : list row :=
  [("Message", exactly "BDS 6,1 - Extended squitter emergency/priority status");
   ("Subtype", coded (bds61.AircraftStatusEmergency_Subtype m));
   ("Emergeny State", coded (bds61.AircraftStatusEmergency_EmergencyPriorityStatus m))].

Definition aircraft_status_no_information_rows (m : bds61.AircraftStatusNoInformation) : list row :=
  [("Message", exactly "BDS 6,1 - Extended squitter emergency/priority status");
   ("Subtype", coded (bds61.AircraftStatusNoInformation_Subtype m));
   ("Emergency State", coded (bds61.AircraftStatusNoInformation_EmergencyPriorityStatus m))].

Definition target_state_and_status0_rows (m : bds62.TargetStateAndStatus0) : list row :=
  [("Message", exactly "BDS 6,2 - Target state and status information");
   ("Subtype", coded (bds62.TargetStateAndStatus0_GetSubtype m));
   ("Vertical Data Available / Source Indicator", coded (bds62.TargetStateAndStatus0_VerticalDataAvailableSourceIndicator m));
   ("Target Altitude Type", coded (bds62.TargetStateAndStatus0_TargetAltitudeType m));
   ("Target Altitude Capability", coded (bds62.TargetStateAndStatus0_TargetAltitudeCapability m));
   ("Vertical Mode Indicator", coded (bds62.TargetStateAndStatus0_VerticalModeIndicator m));
   ("Target Altitude Status", said ["No information"; "Regular value"; "Maximum"] (bds62.TargetStateAndStatus0_TargetAltitudeStatus m));
   ("Target Altitude", number (bds62.TargetStateAndStatus0_TargetAltitude m));
   ("Horizontal Data Available / Source Indicator", coded (bds62.TargetStateAndStatus0_HorizontalDataAvailableSourceIndicator m));
   ("Target Heading / Track Angle Status", said ["No information"; "Regular value"; "Maximum"] (bds62.TargetStateAndStatus0_TargetHeadingTrackAngleStatus m));
   ("Target Heading / Track Angle", number (bds62.TargetStateAndStatus0_TargetHeadingTrackAngle m));
   ("Target Heading / Track Indicator", coded (bds62.TargetStateAndStatus0_TargetHeadingTrackIndicator m));
   ("Horizontal Mode Indicator", coded (bds62.TargetStateAndStatus0_HorizontalModeIndicator m));
   ("Navigation Accuracy Category - Position", coded (bds62.TargetStateAndStatus0_NavigationalAccuracyCategoryPosition m));
   ("Navigation Integrity Category - Baro", coded (bds62.TargetStateAndStatus0_NICBaro m))] ++
  sil_inline_rows "Surveillance Integrity ReaderLevel" (bds62.TargetStateAndStatus0_SurveillanceIntegrityLevel m) ++
  [("Capability / Mode Codes", coded (bds62.TargetStateAndStatus0_CapabilityModeCode m));
   ("Emergency / Priority Status", coded (bds62.TargetStateAndStatus0_EmergencyPriorityStatus m))].

Definition target_state_and_status1_rows (ffmt : spec_float -> string) (m : bds62.TargetStateAndStatus1) : list row :=
  [("Message", exactly "BDS 6,2 - Target state and status information");
   ("Subtype", coded (bds62.TargetStateAndStatus1_GetSubtype m));
   ("Selected Altitude Type", coded (bds62.TargetStateAndStatus1_SelectedAltitudeType m));
   ("Selected Altitude Status", said ["No information"; "Regular value"; "Maximum"] (bds62.TargetStateAndStatus1_SelectedAltitudeStatus m));
   ("Selected Altitude", number (bds62.TargetStateAndStatus1_SelectedAltitude m));
   ("Barometric Pressure Setting Status", said ["No information"; "Regular value"; "Maximum"] (bds62.TargetStateAndStatus1_BarometricPressureSettingStatus m));
   ("Barometric Pressure Setting", exactly (ffmt (bds62.TargetStateAndStatus1_BarometricPressureSetting m)));
   ("Selected Heading Status", coded (bds62.TargetStateAndStatus1_SelectedHeadingStatus m));
   ("Selected Heading ", exactly (ffmt (bds62.TargetStateAndStatus1_SelectedHeading m)));
   ("Navigation Accuracy Category - Position", coded (bds62.TargetStateAndStatus1_NavigationalAccuracyCategoryPosition m));
   ("Navigation Integrity Category - Baro", coded (bds62.TargetStateAndStatus1_NICBaro m));
   ("Source Integrity ReaderLevel", worded bds62_fields.SourceIntegrityLevel_ToString (bds62.TargetStateAndStatus1_SourceIntegrityLevel m));
   ("Source Integrity ReaderLevel Supplement", coded (bds62.TargetStateAndStatus1_SourceIntegrityLevelSupplement m));
   ("Status of MCP/FPU Mode Bits", coded (bds62.TargetStateAndStatus1_StatusMCPFCUBits m));
   ("Autopilot Engaged", yesno (bds62.TargetStateAndStatus1_AutopilotEngaged m));
   ("VNAV Mode Engaged", yesno (bds62.TargetStateAndStatus1_VNAVModeEngaged m));
   ("Altitude Hold Mode Engaged", yesno (bds62.TargetStateAndStatus1_AltitudeHoldModeEngaged m));
   ("Approach Mode Engaged", yesno (bds62.TargetStateAndStatus1_ApproachModeEngaged m));
   ("LNAV Mode Engaged", yesno (bds62.TargetStateAndStatus1_LNAVModeEngaged m));
   ("TCAS / ACAS Operational ", yesno (bds62.TargetStateAndStatus1_TCASACASOperational m))].

Definition aircraft_operational_status_adsb0_rows (m : bds65.AircraftOperationalStatusADSB0) : list row :=
  [("Message", exactly "BDS 6,5 - Extended squitter aircraft operational status");
   ("En Route Operational Capabilities", coded (bds65.AircraftOperationalStatusADSB0_EnRouteOperationalCapabilities m));
   ("En Route Operational Capability Status", coded (bds65.AircraftOperationalStatusADSB0_EnRouteOperationalCapabilityStatus m));
   ("Terminal Area Operational Capabilities", coded (bds65.AircraftOperationalStatusADSB0_TerminalAreaOperationalCapabilities m));
   ("Terminal Area Operational Capability Status", coded (bds65.AircraftOperationalStatusADSB0_TerminalAreaOperationalCapabilityStatus m));
   ("Approach/Landing Operational Capabilities", coded (bds65.AircraftOperationalStatusADSB0_ApproachLandingOperationalCapabilities m));
   ("Approach/Landing Operational Capability Status", coded (bds65.AircraftOperationalStatusADSB0_ApproachLandingOperationalCapabilityStatus m));
   ("SubtypeSurface Operational Capabilities", coded (bds65.AircraftOperationalStatusADSB0_SurfaceOperationalCapabilities m));
   ("SubtypeSurface Operational Capability Status", coded (bds65.AircraftOperationalStatusADSB0_SurfaceOperationalCapabilityStatus m))].

Definition aircraft_operational_status_airborne_adsb1_rows (m : bds65.AircraftOperationalStatusAirborneADSB1) : list row :=
  [("Message", exactly "BDS 6,5 - Extended squitter aircraft operational status");
   ("Subtype", coded (bds65.AircraftOperationalStatusAirborneADSB1_Subtype m));
   ("Airborne Capability Class", heading)] ++
  indented 4 (airborne_capability_class_v1_rows (bds65.AircraftOperationalStatusAirborneADSB1_AirborneCapabilityClass m)) ++
  [("Operational Mode", heading)] ++
  indented 4 (operational_mode_rows (bds65.AircraftOperationalStatusAirborneADSB1_OperationalMode m)) ++
  [("ADSB Version Number", version_value (bds65.AircraftOperationalStatusAirborneADSB1_VersionNumber m));
   ("NIC Supplement", said ["0"; "1"] (bds65.AircraftOperationalStatusAirborneADSB1_NICSupplement m));
   ("Navigational Accuracy Category Position", coded (bds65.AircraftOperationalStatusAirborneADSB1_NavigationalAccuracyCategoryPosition m));
   ("Surveillance Integrity ReaderLevel", heading)] ++
  indented 4 (sil_rows (bds65.AircraftOperationalStatusAirborneADSB1_SurveillanceIntegrityLevel m)) ++
  [("NIC Baro", coded (bds65.AircraftOperationalStatusAirborneADSB1_NICBaro m));
   ("Horizontal Reference Direction", coded (bds65.AircraftOperationalStatusAirborneADSB1_HorizontalReferenceDirection m))].

Definition aircraft_operational_status_airborne_adsb2_rows (m : bds65.AircraftOperationalStatusAirborneADSB2) : list row :=
  [("Message", exactly "BDS 6,5 - Extended squitter aircraft operational status");
   ("Subtype", coded (bds65.AircraftOperationalStatusAirborneADSB2_Subtype m));
   ("SubtypeAirborne Capability Class", heading)] ++
  indented 4 (airborne_capability_class_v2_rows (bds65.AircraftOperationalStatusAirborneADSB2_AirborneCapabilityClass m)) ++
  [("Operational Mode", heading)] ++
  indented 4 (airborne_operational_mode_rows (bds65.AircraftOperationalStatusAirborneADSB2_OperationalMode m)) ++
  [("ADSB Version Number", version_value (bds65.AircraftOperationalStatusAirborneADSB2_VersionNumber m));
   ("NIC Supplement", said ["0"; "1"] (bds65.AircraftOperationalStatusAirborneADSB2_NICSupplementA m));
   ("Navigational Accuracy Category Position", coded (bds65.AircraftOperationalStatusAirborneADSB2_NavigationalAccuracyCategoryPosition m));
   ("Geometric Vertical Accuracy", worded bds65_fields.GeometricVerticalAccuracy_ToString (bds65.AircraftOperationalStatusAirborneADSB2_GeometricVerticalAccuracy m));
   ("Source Integrity ReaderLevel", coded (bds65.AircraftOperationalStatusAirborneADSB2_SourceIntegrityLevel m));
   ("Source Integrity ReaderLevel Supplement", coded (bds65.AircraftOperationalStatusAirborneADSB2_SourceIntegrityLevelSupplement m));
   ("NIC Baro", coded (bds65.AircraftOperationalStatusAirborneADSB2_NICBaro m));
   ("Horizontal Reference Direction", coded (bds65.AircraftOperationalStatusAirborneADSB2_HorizontalReferenceDirection m))].

Definition aircraft_operational_status_surface_adsb1_rows (m : bds65.AircraftOperationalStatusSurfaceADSB1) : list row :=
  [("Message", exactly "BDS 6,5 - Extended squitter aircraft operational status");
   ("Subtype", coded (bds65.AircraftOperationalStatusSurfaceADSB1_Subtype m));
   ("SubtypeAirborne Capability Class", heading)] ++
  indented 4 (surface_capability_class_v1_rows (bds65.AircraftOperationalStatusSurfaceADSB1_SurfaceCapabilityClass m)) ++
  [("Aircraft Length And Width", coded (bds65.AircraftOperationalStatusSurfaceADSB1_LengthAndWidth m));
   ("Operational Mode", heading)] ++
  indented 4 (operational_mode_rows (bds65.AircraftOperationalStatusSurfaceADSB1_OperationalMode m)) ++
  [("ADSB Version Number", version_value (bds65.AircraftOperationalStatusSurfaceADSB1_VersionNumber m));
   ("NIC Supplement", said ["0"; "1"] (bds65.AircraftOperationalStatusSurfaceADSB1_NICSupplement m));
   ("Navigational Accuracy Category Position", coded (bds65.AircraftOperationalStatusSurfaceADSB1_NavigationalAccuracyCategoryPosition m));
   ("Surveillance Integrity ReaderLevel", heading)] ++
  indented 4 (sil_rows (bds65.AircraftOperationalStatusSurfaceADSB1_SurveillanceIntegrityLevel m)) ++
  [("NIC Baro", coded (bds65.AircraftOperationalStatusSurfaceADSB1_TrackAngleHeading m));
   ("Horizontal Reference Direction", coded (bds65.AircraftOperationalStatusSurfaceADSB1_HorizontalReferenceDirection m))].

Definition aircraft_operational_status_surface_adsb2_rows (m : bds65.AircraftOperationalStatusSurfaceADSB2) : list row :=
  [("Message", exactly "BDS 6,5 - Extended squitter aircraft operational status");
   ("Subtype", coded (bds65.AircraftOperationalStatusSurfaceADSB2_Subtype m));
   ("SubtypeAirborne Capability Class", heading)] ++
  indented 4 (surface_capability_class_v2_rows (bds65.AircraftOperationalStatusSurfaceADSB2_SurfaceCapabilityClass m)) ++
  [("Aircraft Length And Width", coded (bds65.AircraftOperationalStatusSurfaceADSB2_LengthAndWidth m));
   ("Operational Mode", heading)] ++
  indented 4 (surface_operational_mode_rows (bds65.AircraftOperationalStatusSurfaceADSB2_OperationalMode m)) ++
  [("ADSB Version Number", version_value (bds65.AircraftOperationalStatusSurfaceADSB2_VersionNumber m));
   ("NIC Supplement", said ["0"; "1"] (bds65.AircraftOperationalStatusSurfaceADSB2_NICSupplementA m));
   ("Navigational Accuracy Category Position", coded (bds65.AircraftOperationalStatusSurfaceADSB2_NavigationalAccuracyCategoryPosition m));
   ("Source Integrity ReaderLevel", coded (bds65.AircraftOperationalStatusSurfaceADSB2_SourceIntegrityLevel m));
   ("Source Integrity ReaderLevel Supplement", coded (bds65.AircraftOperationalStatusSurfaceADSB2_SourceIntegrityLevelSupplement m));
   ("NIC Baro", coded (bds65.AircraftOperationalStatusSurfaceADSB2_TrackAngleHeading m));
   ("Horizontal Reference Direction", coded (bds65.AircraftOperationalStatusSurfaceADSB2_HorizontalReferenceDirection m))].

Definition no_message_available_rows : list row :=
  [("Message", exactly "BDS 0,0 - No message waiting for transmission")].

Definition velocity_rows (ffmt : spec_float -> string) (matan2 : f64 -> f64 -> f64) (m : bds09.AirborneVelocity) : list row :=
  match m with
  | bds09.IAirborneVelocity_AirborneVelocityGroundSpeedNormal x => airborne_velocity_ground_speed_normal_rows ffmt matan2 x
  | bds09.IAirborneVelocity_AirborneVelocityGroundSpeedSupersonic x => airborne_velocity_ground_speed_supersonic_rows ffmt matan2 x
  | bds09.IAirborneVelocity_AirborneVelocityAirSpeedNormal x => airborne_velocity_air_speed_normal_rows ffmt x
  | bds09.IAirborneVelocity_AirborneVelocityAirSpeedSupersonic x => airborne_velocity_air_speed_supersonic_rows ffmt x
  end.

(* ---- ADS-B ---- *)
Definition adsb_rows (ffmt : spec_float -> string) (matan2 : f64 -> f64 -> f64) (m : AdsbReader.Message) : list row :=
  match m with
  | AdsbReader.ANoPosition x => no_position_information_rows x
  | AdsbReader.AAirborneType0 x => airborne_position_type0_rows x
  | AdsbReader.AIdentification x =>
      aircraft_identification_and_category_rows
        (adsb_aircraft_identification_and_category.AircraftIdentificationAndCategory_AircraftIdentificationAndCategory x)
  | AdsbReader.ASurface (adsb_surface_position.IMessage_SurfacePositionV0 x) => surface_position_v0_rows ffmt x
  | AdsbReader.ASurface (adsb_surface_position.IMessage_SurfacePositionV1 x) => surface_position_v1_rows ffmt x
  | AdsbReader.ASurface (adsb_surface_position.IMessage_SurfacePositionV2 x) => surface_position_v2_rows ffmt x
  | AdsbReader.AAirborne (adsb_airborne_position.IMessage_AirbornePositionType0 x) => airborne_position_type0_rows x
  | AdsbReader.AAirborne (adsb_airborne_position.IMessage_AirbornePositionV0 x) => airborne_position_v0_rows x
  | AdsbReader.AAirborne (adsb_airborne_position.IMessage_AirbornePositionV1 x) => airborne_position_v1_rows x
  | AdsbReader.AAirborne (adsb_airborne_position.IMessage_AirbornePositionV2 x) => airborne_position_v2_rows x
  | AdsbReader.AVelocity x => velocity_rows ffmt matan2 (adsb_airborne_velocity.AirborneVelocity_AirborneVelocity x)
  | AdsbReader.AStatus x =>
      match adsb_aircraft_status.AircraftStatus_AircraftStatus x with
      | bds61.IAircraftStatus_AircraftStatusNoInformation y => aircraft_status_no_information_rows y
      | bds61.IAircraftStatus_AircraftStatusEmergency y => aircraft_status_emergency_rows y
      | bds61.IAircraftStatus_AircraftStatusACAS y => aircraft_status_acas_rows ffmt y
      end
  | AdsbReader.ATarget x =>
      match adsb_target_state_and_status.TargetStateAndStatus_TargetStateAndStatus x with
      | bds62.ITargetStateAndStatus_TargetStateAndStatus0 y => target_state_and_status0_rows y
      | bds62.ITargetStateAndStatus_TargetStateAndStatus1 y => target_state_and_status1_rows ffmt y
      end
  | AdsbReader.AOperational x =>
      match adsb_aircraft_operational_status.AircraftOperationalStatus_AircraftOperationalStatus x with
      | bds65.IAircraftOperationalStatus_AircraftOperationalStatusADSB0 y => aircraft_operational_status_adsb0_rows y
      | bds65.IAircraftOperationalStatus_AircraftOperationalStatusAirborneADSB1 y => aircraft_operational_status_airborne_adsb1_rows y
      | bds65.IAircraftOperationalStatus_AircraftOperationalStatusAirborneADSB2 y => aircraft_operational_status_airborne_adsb2_rows y
      | bds65.IAircraftOperationalStatus_AircraftOperationalStatusSurfaceADSB1 y => aircraft_operational_status_surface_adsb1_rows y
      | bds65.IAircraftOperationalStatus_AircraftOperationalStatusSurfaceADSB2 y => aircraft_operational_status_surface_adsb2_rows y
      end
  end.

(* ---- Comm-B ---- *)
Definition commb_rows (ffmt : spec_float -> string) (m : CommbReader.Message) : list row :=
  match m with
  | CommbReader.B00 _ => no_message_available_rows
  | CommbReader.B07 x => squitter_status_rows x
  | CommbReader.B10 x => data_link_capability_report_rows x
  | CommbReader.B17 x => gicb_capability_report_rows x
  | CommbReader.B20 x => aircraft_identification_rows x
  | CommbReader.B30 x => acas_report_rows ffmt x
  | CommbReader.B40 x => selected_vertical_intention_rows ffmt x
  | CommbReader.B44 (bds44.IMeteorologicalRoutineAirReport_MeteorologicalRoutineAirReportV0 x) => meteorological_routine_air_report_v0_rows ffmt x
  | CommbReader.B44 (bds44.IMeteorologicalRoutineAirReport_MeteorologicalRoutineAirReportV1 x) => meteorological_routine_air_report_v1_rows ffmt x
  | CommbReader.B44 (bds44.IMeteorologicalRoutineAirReport_MeteorologicalRoutineAirReportV2 x) => meteorological_routine_air_report_v2_rows ffmt x
  | CommbReader.B45 (bds45.IMeteorologicalHazardReport_MeteorologicalHazardReportV0 x) => meteorological_hazard_report_v0_rows ffmt x
  | CommbReader.B45 (bds45.IMeteorologicalHazardReport_MeteorologicalHazardReportV1 x) => meteorological_hazard_report_v1_rows ffmt x
  | CommbReader.B50 x => track_and_turn_report_rows ffmt x
  | CommbReader.B60 x => heading_and_track_report_rows ffmt x
  end.

(* ---- Mode S ---- *)

(* "interrogator, designator" *)
Definition utility_value (u : modes_fields.UtilityMessage) : string -> Prop := fun v =>
  exists designator, numbered (modes_fields.UtilityMessage_IdentifierDesignator u) designator /\
    v = ("InterrogatorIdentifier: " ++ numeral (modes_fields.UtilityMessage_InterrogatorIdentifier u) ++
         ", Reservation: " ++ designator)%string.

(* a mode A code, with the meaning of the four conspicuous ones *)
Definition identity_value (code : string) : string -> Prop :=
  exactly (code ++ (if String.eqb code "7700" then " [Emergency]"
                    else if String.eqb code "7600" then " [Radiocommunication Failure]"
                    else if String.eqb code "7500" then " [Unlawful Interference]"
                    else if String.eqb code "2000" then " [Instruction Not Received]"
                    else ""))%string.

(* octets in decimal, between brackets *)
Definition decimal_octets (l : list Z) : string -> Prop :=
  exactly ("[" ++ String.concat " " (map numeral l) ++ "]")%string.

Definition format_row (df : Z) (name : string) : row :=
  ("Downlink format", exactly (numeral df ++ " - " ++ name)%string).

Definition modes_rows (m : ModeSMessage) : list row :=
  match m with
  | MDF0 x =>
      [format_row 0 "Short air-air surveillance (ACAS)";
       ("VerticalStatus", coded (modes_messages.MessageDF0_VerticalStatus x));
       ("CrossLinkCapability", coded (modes_messages.MessageDF0_CrossLinkCapability x));
       ("SensitivityLevel", coded (modes_messages.MessageDF0_SensitivityLevel x));
       ("ReplyInformation", coded (modes_messages.MessageDF0_ReplyInformation x));
       ("AltitudeReportMethod", coded (modes_messages.MessageDF0_AltitudeReportMethod x));
       ("Altitude", number (modes_messages.MessageDF0_Altitude x))]
  | MDF4 x =>
      [format_row 4 "Surveillance, altitude reply";
       ("FlightStatus", coded (modes_messages.MessageDF4_FlightStatus x));
       ("DownlinkRequest", coded (modes_messages.MessageDF4_DownlinkRequest x));
       ("UtilityMessage", utility_value (modes_messages.MessageDF4_UtilityMessage x));
       ("AltitudeReportMethod", coded (modes_messages.MessageDF4_AltitudeReportMethod x));
       ("Altitude", number (modes_messages.MessageDF4_Altitude x))]
  | MDF5 x =>
      [format_row 5 "Surveillance, identify reply";
       ("FlightStatus", coded (modes_messages.MessageDF5_FlightStatus x));
       ("DownlinkRequest", coded (modes_messages.MessageDF5_DownlinkRequest x));
       ("UtilityMessage", utility_value (modes_messages.MessageDF5_UtilityMessage x));
       ("Identity", identity_value (modes_fields.Identity_Identity (modes_messages.MessageDF5_Identity x)))]
  | MDF11 x =>
      [format_row 11 "All-call reply";
       ("Capability", coded (modes_messages.MessageDF11_Capability x));
       ("AddressAnnounced", address_text (modes_fields.AddressAnnounced_Address (modes_messages.MessageDF11_AddressAnnounced x)))]
  | MDF16 x =>
      [format_row 16 "Long air-air surveillance (ACAS)";
       ("VerticalStatus", coded (modes_messages.MessageDF16_VerticalStatus x));
       ("SensitivityLevel", coded (modes_messages.MessageDF16_SensitivityLevel x));
       ("ReplyInformation", coded (modes_messages.MessageDF16_ReplyInformation x));
       ("AltitudeReportMethod", coded (modes_messages.MessageDF16_AltitudeReportMethod x));
       ("Altitude", number (modes_messages.MessageDF16_Altitude x));
       ("Message ACAS", decimal_octets (modes_messages.MessageDF16_MessageACAS x))]
  | MDF17 x =>
      [format_row 17 "Extended squitter";
       ("Capability", coded (modes_messages.MessageDF17_Capability x));
       ("AddressAnnounced", address_text (modes_fields.AddressAnnounced_Address (modes_messages.MessageDF17_AddressAnnounced x)));
       ("MessageExtendedSquitter", hex_octets (modes_messages.MessageDF17_MessageExtendedSquitter x))]
  | MDF18 x =>
      [format_row 18 "Extended squitter/non transponder";
       ("ControlField", coded (modes_messages.MessageDF18_ControlField x));
       ("AddressAnnounced", address_text (modes_fields.AddressAnnounced_Address (modes_messages.MessageDF18_AddressAnnounced x)));
       ("MessageExtendedSquitter", hex_octets (modes_messages.MessageDF18_MessageExtendedSquitter x))]
  | MDF19 x =>
      [format_row 19 "Military extended squitter";
       ("ApplicationField", coded (modes_messages.MessageDF19_ApplicationField x))]
  | MDF20 x =>
      [format_row 20 "Comm-B altitude reply";
       ("FlightStatus", coded (modes_messages.MessageDF20_FlightStatus x));
       ("DownlinkRequest", coded (modes_messages.MessageDF20_DownlinkRequest x));
       ("UtilityMessage", utility_value (modes_messages.MessageDF20_UtilityMessage x));
       ("AltitudeReportMethod", coded (modes_messages.MessageDF20_AltitudeReportMethod x));
       ("Altitude", number (modes_messages.MessageDF20_Altitude x));
       ("MessageCommB", hex_octets (modes_messages.MessageDF20_MessageCommB x))]
  | MDF21 x =>
      [format_row 21 "Comm-B identify reply";
       ("FlightStatus", coded (modes_messages.MessageDF21_FlightStatus x));
       ("DownlinkRequest", coded (modes_messages.MessageDF21_DownlinkRequest x));
       ("UtilityMessage", utility_value (modes_messages.MessageDF21_UtilityMessage x));
       ("Identity", identity_value (modes_fields.Identity_Identity (modes_messages.MessageDF21_Identity x)));
       ("MessageCommB", hex_octets (modes_messages.MessageDF21_MessageCommB x))]
  | MDF24 x =>
      [format_row 24 "Comm-D (ELM)";
       ("ControlELM", coded (modes_messages.MessageDF24_ControlELM x));
       ("NumberOfDSegment", number (modes_messages.MessageDF24_NumberOfDSegment x));
       ("MessageCommD", hex_octets (modes_messages.MessageDF24_MessageCommD x))]
  end.

(* What can be printed of an advisory.  The bearing of the threat is printed with its
   sector, but not for the codes 43 to 60 (see ThreatIdentityBearing.ToString); the sense
   is always printed "Upward" (see ActiveRASense.ToString) *)
Definition upward (a : acas_ra_fields.ActiveResolutionAdvisory) : Prop :=
  forall x, a = acas_ra_fields.IActiveResolutionAdvisory_ActiveRAOneThreatOrSameSeparation x ->
    acas_ra_fields.ActiveRAOneThreatOrSameSeparation_Sense x = 0%Z.
Definition printable_advisory (m : acas_ra.ResolutionAdvisory) : Prop :=
  (forall b, acas_ra.ResolutionAdvisory_ThreatIdentityBearing m = Some b -> (b <= 42 \/ 60 < b)%Z) /\
  upward (acas_ra.ResolutionAdvisory_ActiveRA m).

(* the advisory inside a message, if any *)
Definition adsb_advisory (m : AdsbReader.Message) : option acas_ra.ResolutionAdvisory :=
  match m with
  | AdsbReader.AStatus x =>
      match adsb_aircraft_status.AircraftStatus_AircraftStatus x with
      | bds61.IAircraftStatus_AircraftStatusACAS y => Some (bds61.AircraftStatusACAS_ResolutionAdvisory y)
      | _ => None
      end
  | _ => None
  end.
Definition commb_advisory (m : CommbReader.Message) : option acas_ra.ResolutionAdvisory :=
  match m with
  | CommbReader.B30 x => Some (bds30.ACASResolutionAdvisory_ResolutionAdvisory x)
  | _ => None
  end.
