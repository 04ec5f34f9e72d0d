(* GENERATED by tools/go2coq.py from /repo/pkg/bds/bds62/fields -- do not edit by hand.
   One Gallina definition per Go declaration; each is preceded by the file and lines it models.
   Error values are represented by their text, see DESIGN.md.
*)
From Verif Require Import GoBase.
From Verif.Gen Require bitutils.
Local Open Scope Z_scope.

(* pkg/bds/bds62/fields/capability_mode_code.go:8 *)
Definition CapabilityModeCode := Z.

(* pkg/bds/bds62/fields/emergency_priority_status.go:8 *)
Definition EmergencyPriorityStatus := Z.

(* pkg/bds/bds62/fields/horizontal_data_source_indicator.go:8 *)
Definition HorizontalDataAvailableSourceIndicator := Z.

(* pkg/bds/bds62/fields/horizontal_mode_indicator.go:8 *)
Definition HorizontalModeIndicator := Z.

(* pkg/bds/bds62/fields/navigational_accuracy_category_position_v1.go:8 *)
Definition NavigationalAccuracyCategoryPositionV1 := Z.

(* pkg/bds/bds62/fields/navigational_accuracy_category_position_v2.go:8 *)
Definition NavigationalAccuracyCategoryPositionV2 := Z.

(* pkg/bds/bds62/fields/nic_baro.go:8 *)
Definition NICBaro := Z.

(* pkg/bds/bds62/fields/numeric_value_status.go:6 *)
Definition NumericValueStatus := Z.

(* pkg/bds/bds62/fields/selected_altitude_type.go:8 *)
Definition SelectedAltitudeType := Z.

(* pkg/bds/bds62/fields/selected_heading.go:11 *)
Definition SelectedHeadingStatus := Z.

(* pkg/bds/bds62/fields/source_integrity_level.go:8 *)
Definition SourceIntegrityLevel := Z.

(* pkg/bds/bds62/fields/source_integrity_level_supplement.go:8 *)
Definition SourceIntegrityLevelSupplement := Z.

(* pkg/bds/bds62/fields/status_mcp_fcu_bits.go:8 *)
Definition StatusMCPFCUBits := Z.

(* pkg/bds/bds62/fields/subtype.go:10 *)
Definition Subtype := Z.

(* pkg/bds/bds62/fields/surveillance_integrity_level.go:8 *)
Definition SurveillanceIntegrityLevel := Z.

(* pkg/bds/bds62/fields/target_altitude_capability.go:8 *)
Definition TargetAltitudeCapability := Z.

(* pkg/bds/bds62/fields/target_altitude_type.go:8 *)
Definition TargetAltitudeType := Z.

(* pkg/bds/bds62/fields/target_heading_track_angle.go:11 *)
Definition TargetHeadingTrackIndicator := Z.

(* pkg/bds/bds62/fields/vertical_data_source_indicator.go:8 *)
Definition VerticalDataAvailableSourceIndicator := Z.

(* pkg/bds/bds62/fields/vertical_mode_indicator.go:8 *)
Definition VerticalModeIndicator := Z.

Definition CMCOperationalNoRAActive : CapabilityModeCode := 0. (* pkg/bds/bds62/fields/capability_mode_code.go:12 *)

Definition CMCOperationalRAActive : CapabilityModeCode := 1. (* pkg/bds/bds62/fields/capability_mode_code.go:14 *)

Definition CMCNotOperationalNoRAActive : CapabilityModeCode := 2. (* pkg/bds/bds62/fields/capability_mode_code.go:16 *)

Definition CMCNotOperationalRAActive : CapabilityModeCode := 3. (* pkg/bds/bds62/fields/capability_mode_code.go:18 *)

Definition EPSNoEmergency : EmergencyPriorityStatus := 0. (* pkg/bds/bds62/fields/emergency_priority_status.go:12 *)

Definition EPSGeneralEmergency : EmergencyPriorityStatus := 1. (* pkg/bds/bds62/fields/emergency_priority_status.go:14 *)

Definition EPSLifeguardMedical : EmergencyPriorityStatus := 2. (* pkg/bds/bds62/fields/emergency_priority_status.go:16 *)

Definition EPSMinimumFuel : EmergencyPriorityStatus := 3. (* pkg/bds/bds62/fields/emergency_priority_status.go:18 *)

Definition EPSNoCommunication : EmergencyPriorityStatus := 4. (* pkg/bds/bds62/fields/emergency_priority_status.go:20 *)

Definition EPSUnlawfulInterference : EmergencyPriorityStatus := 5. (* pkg/bds/bds62/fields/emergency_priority_status.go:22 *)

Definition EPSDownedAircraft : EmergencyPriorityStatus := 6. (* pkg/bds/bds62/fields/emergency_priority_status.go:24 *)

Definition EPSReserved7 : EmergencyPriorityStatus := 7. (* pkg/bds/bds62/fields/emergency_priority_status.go:26 *)

Definition HDANoValidDataAvailable : HorizontalDataAvailableSourceIndicator := 0. (* pkg/bds/bds62/fields/horizontal_data_source_indicator.go:12 *)

Definition HDAAutopilot : HorizontalDataAvailableSourceIndicator := 1. (* pkg/bds/bds62/fields/horizontal_data_source_indicator.go:14 *)

Definition HDAHoldingAltitude : HorizontalDataAvailableSourceIndicator := 2. (* pkg/bds/bds62/fields/horizontal_data_source_indicator.go:16 *)

Definition HDAFMS : HorizontalDataAvailableSourceIndicator := 3. (* pkg/bds/bds62/fields/horizontal_data_source_indicator.go:18 *)

Definition HMIUnknown : HorizontalModeIndicator := 0. (* pkg/bds/bds62/fields/horizontal_mode_indicator.go:12 *)

Definition HMIAcquiringMode : HorizontalModeIndicator := 1. (* pkg/bds/bds62/fields/horizontal_mode_indicator.go:14 *)

Definition HMICapturingMode : HorizontalModeIndicator := 2. (* pkg/bds/bds62/fields/horizontal_mode_indicator.go:16 *)

Definition HMIReserved3 : HorizontalModeIndicator := 3. (* pkg/bds/bds62/fields/horizontal_mode_indicator.go:18 *)

Definition NACPV1EPUGreaterThan18Point52Km : NavigationalAccuracyCategoryPositionV1 := 0. (* pkg/bds/bds62/fields/navigational_accuracy_category_position_v1.go:12 *)

Definition NACPV1EPULowerThan18Point52Km : NavigationalAccuracyCategoryPositionV1 := 1. (* pkg/bds/bds62/fields/navigational_accuracy_category_position_v1.go:14 *)

Definition NACPV1EPULowerThan7Point408Km : NavigationalAccuracyCategoryPositionV1 := 2. (* pkg/bds/bds62/fields/navigational_accuracy_category_position_v1.go:16 *)

Definition NACPV1EPULowerThan3Point704Km : NavigationalAccuracyCategoryPositionV1 := 3. (* pkg/bds/bds62/fields/navigational_accuracy_category_position_v1.go:18 *)

Definition NACPV1EPUGreaterThan1852M : NavigationalAccuracyCategoryPositionV1 := 4. (* pkg/bds/bds62/fields/navigational_accuracy_category_position_v1.go:20 *)

Definition NACPV1EPULowerThan926M : NavigationalAccuracyCategoryPositionV1 := 5. (* pkg/bds/bds62/fields/navigational_accuracy_category_position_v1.go:22 *)

Definition NACPV1EPUGreaterThan555Point6M : NavigationalAccuracyCategoryPositionV1 := 6. (* pkg/bds/bds62/fields/navigational_accuracy_category_position_v1.go:24 *)

Definition NACPV1EPULowerThan185Point2M : NavigationalAccuracyCategoryPositionV1 := 7. (* pkg/bds/bds62/fields/navigational_accuracy_category_position_v1.go:26 *)

Definition NACPV1EPUGreaterThan92Point6M : NavigationalAccuracyCategoryPositionV1 := 8. (* pkg/bds/bds62/fields/navigational_accuracy_category_position_v1.go:28 *)

Definition NACPV1EPULowerThan30MAndVEPULowerThan45M : NavigationalAccuracyCategoryPositionV1 := 9. (* pkg/bds/bds62/fields/navigational_accuracy_category_position_v1.go:30 *)

Definition NACPV1EPULowerThan10MAndVEPULowerThan15M : NavigationalAccuracyCategoryPositionV1 := 10. (* pkg/bds/bds62/fields/navigational_accuracy_category_position_v1.go:32 *)

Definition NACPV1EPULowerThan4MAndVEPULowerThan3M : NavigationalAccuracyCategoryPositionV1 := 11. (* pkg/bds/bds62/fields/navigational_accuracy_category_position_v1.go:34 *)

Definition NACPV1Reserved12 : NavigationalAccuracyCategoryPositionV1 := 12. (* pkg/bds/bds62/fields/navigational_accuracy_category_position_v1.go:36 *)

Definition NACPV1Reserved13 : NavigationalAccuracyCategoryPositionV1 := 13. (* pkg/bds/bds62/fields/navigational_accuracy_category_position_v1.go:38 *)

Definition NACPV1Reserved14 : NavigationalAccuracyCategoryPositionV1 := 14. (* pkg/bds/bds62/fields/navigational_accuracy_category_position_v1.go:40 *)

Definition NACPV1Reserved15 : NavigationalAccuracyCategoryPositionV1 := 15. (* pkg/bds/bds62/fields/navigational_accuracy_category_position_v1.go:42 *)

Definition NACV2PEPUGreaterThan18Point52Km : NavigationalAccuracyCategoryPositionV2 := 0. (* pkg/bds/bds62/fields/navigational_accuracy_category_position_v2.go:12 *)

Definition NACV2PEPULowerThan18Point52Km : NavigationalAccuracyCategoryPositionV2 := 1. (* pkg/bds/bds62/fields/navigational_accuracy_category_position_v2.go:14 *)

Definition NACV2PEPULowerThan7Point408Km : NavigationalAccuracyCategoryPositionV2 := 2. (* pkg/bds/bds62/fields/navigational_accuracy_category_position_v2.go:16 *)

Definition NACV2PEPULowerThan3Point704Km : NavigationalAccuracyCategoryPositionV2 := 3. (* pkg/bds/bds62/fields/navigational_accuracy_category_position_v2.go:18 *)

Definition NACV2PEPUGreaterThan1852M : NavigationalAccuracyCategoryPositionV2 := 4. (* pkg/bds/bds62/fields/navigational_accuracy_category_position_v2.go:20 *)

Definition NACV2PEPULowerThan926M : NavigationalAccuracyCategoryPositionV2 := 5. (* pkg/bds/bds62/fields/navigational_accuracy_category_position_v2.go:22 *)

Definition NACV2PEPUGreaterThan555Point6M : NavigationalAccuracyCategoryPositionV2 := 6. (* pkg/bds/bds62/fields/navigational_accuracy_category_position_v2.go:24 *)

Definition NACV2PEPULowerThan185Point2M : NavigationalAccuracyCategoryPositionV2 := 7. (* pkg/bds/bds62/fields/navigational_accuracy_category_position_v2.go:26 *)

Definition NACV2PEPUGreaterThan92Point6M : NavigationalAccuracyCategoryPositionV2 := 8. (* pkg/bds/bds62/fields/navigational_accuracy_category_position_v2.go:28 *)

Definition NACV2PEPULowerThan30M : NavigationalAccuracyCategoryPositionV2 := 9. (* pkg/bds/bds62/fields/navigational_accuracy_category_position_v2.go:30 *)

Definition NACV2PEPULowerThan10M : NavigationalAccuracyCategoryPositionV2 := 10. (* pkg/bds/bds62/fields/navigational_accuracy_category_position_v2.go:32 *)

Definition NACV2PEPULowerThan3M : NavigationalAccuracyCategoryPositionV2 := 11. (* pkg/bds/bds62/fields/navigational_accuracy_category_position_v2.go:34 *)

Definition NACV2PReserved12 : NavigationalAccuracyCategoryPositionV2 := 12. (* pkg/bds/bds62/fields/navigational_accuracy_category_position_v2.go:36 *)

Definition NACV2PReserved13 : NavigationalAccuracyCategoryPositionV2 := 13. (* pkg/bds/bds62/fields/navigational_accuracy_category_position_v2.go:38 *)

Definition NACV2PReserved14 : NavigationalAccuracyCategoryPositionV2 := 14. (* pkg/bds/bds62/fields/navigational_accuracy_category_position_v2.go:40 *)

Definition NACV2PReserved15 : NavigationalAccuracyCategoryPositionV2 := 15. (* pkg/bds/bds62/fields/navigational_accuracy_category_position_v2.go:42 *)

Definition NICBGilhamNotCrossChecked : NICBaro := 0. (* pkg/bds/bds62/fields/nic_baro.go:14 *)

Definition NICBGilhamCrossCheckedOrNonGilham : NICBaro := 1. (* pkg/bds/bds62/fields/nic_baro.go:18 *)

Definition NVSNoInformation : NumericValueStatus := 0. (* pkg/bds/bds62/fields/numeric_value_status.go:10 *)

Definition NVSRegular : NumericValueStatus := 1. (* pkg/bds/bds62/fields/numeric_value_status.go:12 *)

Definition NVSMaximum : NumericValueStatus := 2. (* pkg/bds/bds62/fields/numeric_value_status.go:14 *)

Definition SATByMCPFCU : SelectedAltitudeType := 0. (* pkg/bds/bds62/fields/selected_altitude_type.go:12 *)

Definition SATByFMS : SelectedAltitudeType := 1. (* pkg/bds/bds62/fields/selected_altitude_type.go:14 *)

Definition SHSInvalid : Z := 0. (* pkg/bds/bds62/fields/selected_heading.go:15 *)

Definition SHSValid : SelectedHeadingStatus := 1. (* pkg/bds/bds62/fields/selected_heading.go:17 *)

Definition SILLevel0 : SourceIntegrityLevel := 0. (* pkg/bds/bds62/fields/source_integrity_level.go:12 *)

Definition SILLevel1 : SourceIntegrityLevel := 1. (* pkg/bds/bds62/fields/source_integrity_level.go:14 *)

Definition SILLevel2 : SourceIntegrityLevel := 2. (* pkg/bds/bds62/fields/source_integrity_level.go:16 *)

Definition SILLevel3 : SourceIntegrityLevel := 3. (* pkg/bds/bds62/fields/source_integrity_level.go:18 *)

Definition SILSByHour : SourceIntegrityLevelSupplement := 0. (* pkg/bds/bds62/fields/source_integrity_level_supplement.go:12 *)

Definition SILSBySample : SourceIntegrityLevelSupplement := 1. (* pkg/bds/bds62/fields/source_integrity_level_supplement.go:14 *)

Definition SMFBNoInformationProvided : StatusMCPFCUBits := 0. (* pkg/bds/bds62/fields/status_mcp_fcu_bits.go:13 *)

Definition SMFBInformationProvided : StatusMCPFCUBits := 1. (* pkg/bds/bds62/fields/status_mcp_fcu_bits.go:16 *)

Definition Subtype0 : Subtype := 0. (* pkg/bds/bds62/fields/subtype.go:14 *)

Definition Subtype1 : Subtype := 1. (* pkg/bds/bds62/fields/subtype.go:16 *)

Definition SubtypeReserved2 : Subtype := 2. (* pkg/bds/bds62/fields/subtype.go:18 *)

Definition SubtypeReserved3 : Subtype := 3. (* pkg/bds/bds62/fields/subtype.go:20 *)

Definition SUILLevel0 : SurveillanceIntegrityLevel := 0. (* pkg/bds/bds62/fields/surveillance_integrity_level.go:14 *)

Definition SUILLevel1 : SurveillanceIntegrityLevel := 1. (* pkg/bds/bds62/fields/surveillance_integrity_level.go:18 *)

Definition SUILLevel2 : SurveillanceIntegrityLevel := 2. (* pkg/bds/bds62/fields/surveillance_integrity_level.go:22 *)

Definition SUILLevel3 : SurveillanceIntegrityLevel := 3. (* pkg/bds/bds62/fields/surveillance_integrity_level.go:26 *)

(* pkg/bds/bds62/fields/surveillance_integrity_level.go:29-29 *)
Definition silLabelHorizontal : string := "Probability of exceeding the Horizontal Containment Radius reported in the NIC Subfield without an indication: "%string.

(* pkg/bds/bds62/fields/surveillance_integrity_level.go:30-30 *)
Definition silLabelVertical : string := "Probability of exceeding the Vertical Integrity Containment Region (VPL) without an indication:                "%string.

Definition TACAltitudeOnly : TargetAltitudeCapability := 0. (* pkg/bds/bds62/fields/target_altitude_capability.go:12 *)

Definition TACAltitudeOrAutopilot : TargetAltitudeCapability := 1. (* pkg/bds/bds62/fields/target_altitude_capability.go:15 *)

Definition TACAltitudeOrAutopilotOrFMS : TargetAltitudeCapability := 2. (* pkg/bds/bds62/fields/target_altitude_capability.go:18 *)

Definition TACReserved3 : TargetAltitudeCapability := 3. (* pkg/bds/bds62/fields/target_altitude_capability.go:20 *)

Definition TATReferencedToPressureAltitude : TargetAltitudeType := 0. (* pkg/bds/bds62/fields/target_altitude_type.go:12 *)

Definition TATReferencedToBarometricAltitude : TargetAltitudeType := 1. (* pkg/bds/bds62/fields/target_altitude_type.go:14 *)

Definition THTIHeading : TargetHeadingTrackIndicator := 0. (* pkg/bds/bds62/fields/target_heading_track_angle.go:15 *)

Definition THTITrack : TargetHeadingTrackIndicator := 1. (* pkg/bds/bds62/fields/target_heading_track_angle.go:17 *)

Definition VDANoValidDataAvailable : VerticalDataAvailableSourceIndicator := 0. (* pkg/bds/bds62/fields/vertical_data_source_indicator.go:12 *)

Definition VDAAutopilot : VerticalDataAvailableSourceIndicator := 1. (* pkg/bds/bds62/fields/vertical_data_source_indicator.go:14 *)

Definition VDAHoldingAltitude : VerticalDataAvailableSourceIndicator := 2. (* pkg/bds/bds62/fields/vertical_data_source_indicator.go:16 *)

Definition VDAFMS : VerticalDataAvailableSourceIndicator := 3. (* pkg/bds/bds62/fields/vertical_data_source_indicator.go:18 *)

Definition VMIUnknown : VerticalModeIndicator := 0. (* pkg/bds/bds62/fields/vertical_mode_indicator.go:12 *)

Definition VMIAcquiringMode : VerticalModeIndicator := 1. (* pkg/bds/bds62/fields/vertical_mode_indicator.go:14 *)

Definition VMICapturingMode : VerticalModeIndicator := 2. (* pkg/bds/bds62/fields/vertical_mode_indicator.go:16 *)

Definition VMIReserved3 : VerticalModeIndicator := 3. (* pkg/bds/bds62/fields/vertical_mode_indicator.go:18 *)

(* pkg/bds/bds62/fields/barometric_pressure_setting.go:8-18 *)
Definition ReadBarometricPressureSetting (data : list Z) : res (f32 * NumericValueStatus) :=
  let* data2 := idx data 2 in
  let byte1 := (Z.land data2 0xf) in
  let* data3 := idx data 3 in
  let byte2 := (Z.land data3 0xf8) in
  let allByte := (Z.shiftr (bitutils.Pack2Bytes byte1 byte2) 3) in
  if (allByte =? 0) then
    Ok ((f32_lit 0 1), NVSNoInformation)
  else 
    Ok ((f32_add (f32_mul (f32_of_Z (u16 (allByte - 1))) (f32_lit 4 5)) (f32_lit 800 1)), NVSRegular).

(* pkg/bds/bds62/fields/capability_mode_code.go:22-36 *)
Definition CapabilityModeCode_ToString (capability : CapabilityModeCode) : string :=
  if (capability =? CMCOperationalNoRAActive) then
    "0 - TCAS/ACAS operational or unknown + No TCAS/ACAS Resolution Advisory active"%string
  else if (capability =? CMCOperationalRAActive) then
    "1 - TCAS/ACAS operational or unknown + TCAS/ACAS Resolution Advisory active"%string
  else if (capability =? CMCNotOperationalNoRAActive) then
    "2 - TCAS/ACAS not operational + No TCAS/ACAS Resolution Advisory active"%string
  else if (capability =? CMCNotOperationalRAActive) then
    "3 - TCAS/ACAS not operational + TCAS/ACAS Resolution Advisory active"%string
  else 
    (dec capability ++ " - Unknown code"%string)%string.

(* pkg/bds/bds62/fields/capability_mode_code.go:39-42 *)
Definition ReadCapabilityModeCode (data : list Z) : res CapabilityModeCode :=
  let* data6 := idx data 6 in
  let bits := (Z.shiftr (Z.land data6 0x18) 3) in
  Ok bits.

(* pkg/bds/bds62/fields/emergency_priority_status.go:30-52 *)
Definition EmergencyPriorityStatus_ToString (capability : EmergencyPriorityStatus) : string :=
  if (capability =? EPSNoEmergency) then
    "0 - no emergency"%string
  else if (capability =? EPSGeneralEmergency) then
    "1 - general emergency"%string
  else if (capability =? EPSLifeguardMedical) then
    "2 - lifeguard/medical emergency"%string
  else if (capability =? EPSMinimumFuel) then
    "3 - minimum fuel"%string
  else if (capability =? EPSNoCommunication) then
    "4 - no communications"%string
  else if (capability =? EPSUnlawfulInterference) then
    "5 - unlawful interference"%string
  else if (capability =? EPSDownedAircraft) then
    "6 - downed aircraft"%string
  else if (capability =? EPSReserved7) then
    "7 - reserved"%string
  else 
    (dec capability ++ " - Unknown code"%string)%string.

(* pkg/bds/bds62/fields/emergency_priority_status.go:55-58 *)
Definition ReadEmergencyPriorityStatus (data : list Z) : res EmergencyPriorityStatus :=
  let* data6 := idx data 6 in
  let bits := (Z.land data6 7) in
  Ok bits.

(* pkg/bds/bds62/fields/horizontal_data_source_indicator.go:22-36 *)
Definition HorizontalDataAvailableSourceIndicator_ToString (data : HorizontalDataAvailableSourceIndicator) : string :=
  if (data =? HDANoValidDataAvailable) then
    "0 - no valid horizontal target state data is available"%string
  else if (data =? HDAAutopilot) then
    "1 - autopilot control panel selected value, such as Mode Control Panel (MCP) or Flight Control Unit (FCU)"%string
  else if (data =? HDAHoldingAltitude) then
    "2 - maintaining current heading or track angle (e.g. autopilot mode select)"%string
  else if (data =? HDAFMS) then
    "3 - FMS/RNAV system (indicates track angle specified by leg type)"%string
  else 
    (dec data ++ " - Unknown code"%string)%string.

(* pkg/bds/bds62/fields/horizontal_data_source_indicator.go:39-42 *)
Definition ReadHorizontalDataAvailableSourceIndicator (data : list Z) : res HorizontalDataAvailableSourceIndicator :=
  let* data3 := idx data 3 in
  let bits := (Z.shiftr (Z.land data3 0x60) 5) in
  Ok bits.

(* pkg/bds/bds62/fields/horizontal_mode_indicator.go:22-36 *)
Definition HorizontalModeIndicator_ToString (indicator : HorizontalModeIndicator) : string :=
  if (indicator =? HMIUnknown) then
    "0 - unknown mode or information unavailable"%string
  else if (indicator =? HMIAcquiringMode) then
    "1 - ""Acquiring"" Mode"%string
  else if (indicator =? HMICapturingMode) then
    "2 - ""Capturing"" or ""Maintaining"" Mode"%string
  else if (indicator =? HMIReserved3) then
    "3 - Reserved"%string
  else 
    (dec indicator ++ " - Unknown code"%string)%string.

(* pkg/bds/bds62/fields/horizontal_mode_indicator.go:39-42 *)
Definition ReadHorizontalModeIndicator (data : list Z) : res HorizontalModeIndicator :=
  let* data4 := idx data 4 in
  let bits := (Z.shiftr (Z.land data4 6) 1) in
  Ok bits.

(* pkg/bds/bds62/fields/navigational_accuracy_category_position_v1.go:46-85 *)
Definition NavigationalAccuracyCategoryPositionV1_ToString (category : NavigationalAccuracyCategoryPositionV1) : string :=
  if (category =? NACPV1EPUGreaterThan18Point52Km) then
    "0 - EPU >= 18.52 km (10 NM) - Unknown accuracy"%string
  else if (category =? NACPV1EPULowerThan18Point52Km) then
    "1 - EPU < 18.52 km (10 NM) - RNP-10 accuracy"%string
  else if (category =? NACPV1EPULowerThan7Point408Km) then
    "2 - EPU < 7.408 km (4 NM) - RNP-4 accuracy"%string
  else if (category =? NACPV1EPULowerThan3Point704Km) then
    "3 - EPU < 3.704 km (2 NM) - RNP-2 accuracy"%string
  else if (category =? NACPV1EPUGreaterThan1852M) then
    "4 - EPU < 1 852 m (1 NM) - RNP-1 accuracy"%string
  else if (category =? NACPV1EPULowerThan926M) then
    "5 - EPU < 926 m (0.5 NM) - RNP-0.5 accuracy"%string
  else if (category =? NACPV1EPUGreaterThan555Point6M) then
    "6 - EPU < 555.6 m ( 0.3 NM) - RNP-0.3 accuracy"%string
  else if (category =? NACPV1EPULowerThan185Point2M) then
    "7 - EPU < 185.2 m (0.1 NM) - RNP-0.1 accuracy"%string
  else if (category =? NACPV1EPUGreaterThan92Point6M) then
    "8 - EPU < 92.6 m (0.05 NM) - e.g. GPS (with SA)"%string
  else if (category =? NACPV1EPULowerThan30MAndVEPULowerThan45M) then
    "9 - EPU < 30 m and VEPU < 45 m - e.g. GPS (SA off)"%string
  else if (category =? NACPV1EPULowerThan10MAndVEPULowerThan15M) then
    "10 - EPU < 10 m and VEPU < 15 m - e.g. WAAS"%string
  else if (category =? NACPV1EPULowerThan4MAndVEPULowerThan3M) then
    "11 - EPU < 3 m and VEPU < 4 m - e.g. LAAS"%string
  else if (category =? NACPV1Reserved12) then
    "12 - Reserved"%string
  else if (category =? NACPV1Reserved13) then
    "13 - Reserved"%string
  else if (category =? NACPV1Reserved14) then
    "14 - Reserved"%string
  else if (category =? NACPV1Reserved15) then
    "15 - Reserved"%string
  else 
    (dec category ++ " - Unknown code"%string)%string.

(* pkg/bds/bds62/fields/navigational_accuracy_category_position_v1.go:88-91 *)
Definition ReadNavigationalAccuracyCategoryPositionV1 (data : list Z) : res NavigationalAccuracyCategoryPositionV1 :=
  let* data4 := idx data 4 in
  let* data5 := idx data 5 in
  let bits := (u8 ((u8 (Z.shiftl (Z.land data4 1) 3)) + (Z.shiftr (Z.land data5 0xe0) 5))) in
  Ok bits.

(* pkg/bds/bds62/fields/navigational_accuracy_category_position_v2.go:46-85 *)
Definition NavigationalAccuracyCategoryPositionV2_ToString (category : NavigationalAccuracyCategoryPositionV2) : string :=
  if (category =? NACV2PEPUGreaterThan18Point52Km) then
    "0 - EPU >= 18.52 km (10 NM) - Unknown accuracy"%string
  else if (category =? NACV2PEPULowerThan18Point52Km) then
    "1 - EPU < 18.52 km (10 NM) - RNP-10 accuracy"%string
  else if (category =? NACV2PEPULowerThan7Point408Km) then
    "2 - EPU < 7.408 km (4 NM) - RNP-4 accuracy"%string
  else if (category =? NACV2PEPULowerThan3Point704Km) then
    "3 - EPU < 3.704 km (2 NM) - RNP-2 accuracy"%string
  else if (category =? NACV2PEPUGreaterThan1852M) then
    "4 - EPU < 1 852 m (1 NM) - RNP-1 accuracy"%string
  else if (category =? NACV2PEPULowerThan926M) then
    "5 - EPU < 926 m (0.5 NM) - RNP-0.5 accuracy"%string
  else if (category =? NACV2PEPUGreaterThan555Point6M) then
    "6 - EPU < 555.6 m ( 0.3 NM) - RNP-0.3 accuracy"%string
  else if (category =? NACV2PEPULowerThan185Point2M) then
    "7 - EPU < 185.2 m (0.1 NM) - RNP-0.1 accuracy"%string
  else if (category =? NACV2PEPUGreaterThan92Point6M) then
    "8 - EPU < 92.6 m (0.05 NM) - e.g. GPS (with SA)"%string
  else if (category =? NACV2PEPULowerThan30M) then
    "9 - EPU < 30 m - e.g. GPS (SA off)"%string
  else if (category =? NACV2PEPULowerThan10M) then
    "10 - EPU < 10 m - e.g. WAAS"%string
  else if (category =? NACV2PEPULowerThan3M) then
    "11 - EPU < 3 m - e.g. LAAS"%string
  else if (category =? NACV2PReserved12) then
    "12 - Reserved"%string
  else if (category =? NACV2PReserved13) then
    "13 - Reserved"%string
  else if (category =? NACV2PReserved14) then
    "14 - Reserved"%string
  else if (category =? NACV2PReserved15) then
    "15 - Reserved"%string
  else 
    (dec category ++ " - Unknown code"%string)%string.

(* pkg/bds/bds62/fields/navigational_accuracy_category_position_v2.go:88-91 *)
Definition ReadNavigationalAccuracyCategoryPositionV2 (data : list Z) : res NavigationalAccuracyCategoryPositionV2 :=
  let* data4 := idx data 4 in
  let* data5 := idx data 5 in
  let bits := (u8 ((u8 (Z.shiftl (Z.land data4 1) 3)) + (Z.shiftr (Z.land data5 0xe0) 5))) in
  Ok bits.

(* pkg/bds/bds62/fields/nic_baro.go:22-32 *)
Definition NICBaro_ToString (baro : NICBaro) : string :=
  if (baro =? NICBGilhamNotCrossChecked) then
    "0 - barometric altitude based on a Gilham input that has not been cross-checked"%string
  else if (baro =? NICBGilhamCrossCheckedOrNonGilham) then
    "1 - barometric altitude based on a Gilham input that has been cross-checked or on a non Gilham input"%string
  else 
    (dec baro ++ " - Unknown code"%string)%string.

(* pkg/bds/bds62/fields/nic_baro.go:35-38 *)
Definition ReadNICBaro (data : list Z) : res NICBaro :=
  let* data5 := idx data 5 in
  let bits := (Z.shiftr (Z.land data5 0x10) 4) in
  Ok bits.

(* pkg/bds/bds62/fields/numeric_value_status.go:18-30 *)
Definition NumericValueStatus_ToString (vs : NumericValueStatus) : string :=
  if (vs =? NVSNoInformation) then
    "No information"%string
  else if (vs =? NVSRegular) then
    "Regular value"%string
  else if (vs =? NVSMaximum) then
    "Maximum"%string
  else 
    (dec vs ++ " - Unknown code"%string)%string.

(* pkg/bds/bds62/fields/selected_altitude.go:8-18 *)
Definition ReadSelectedAltitude (data : list Z) : res (Z * NumericValueStatus) :=
  let* data1 := idx data 1 in
  let byte1 := (Z.land data1 0x7f) in
  let* data2 := idx data 2 in
  let byte2 := (Z.land data2 0xf0) in
  let allByte := (Z.shiftr (bitutils.Pack2Bytes byte1 byte2) 4) in
  if (allByte =? 0) then
    Ok (0, NVSNoInformation)
  else 
    Ok ((u16 ((u16 (allByte - 1)) * 32)), NVSRegular).

(* pkg/bds/bds62/fields/selected_altitude_type.go:18-28 *)
Definition SelectedAltitudeType_ToString (status : SelectedAltitudeType) : string :=
  if (status =? SATByMCPFCU) then
    "0 - MCP/FCU (Mode Control Panel / Flight Control Unit)"%string
  else if (status =? SATByFMS) then
    "1 - FMS (Flight Management System)"%string
  else 
    (dec status ++ " - Unknown code"%string)%string.

(* pkg/bds/bds62/fields/selected_altitude_type.go:31-34 *)
Definition ReadSelectedAltitudeType (data : list Z) : res SelectedAltitudeType :=
  let* data0 := idx data 0 in
  let bits := (Z.land data0 1) in
  Ok bits.

(* pkg/bds/bds62/fields/selected_heading.go:21-31 *)
Definition SelectedHeadingStatus_ToString (status : SelectedHeadingStatus) : string :=
  if (status =? 0) then
    "0 - selected heading data is either not available or is invalid"%string
  else if (status =? SHSValid) then
    "1 - selected heading data is valid"%string
  else 
    (dec status ++ " - Unknown code"%string)%string.

(* pkg/bds/bds62/fields/selected_heading.go:34-47 *)
Definition ReadSelectedHeading (data : list Z) : res (f32 * SelectedHeadingStatus) :=
  let* data3 := idx data 3 in
  let status := (Z.shiftr (Z.land data3 4) 2) in
  let negative := (negb ((Z.land data3 2) =? 0)) in
  let byte1 := (Z.land data3 1) in
  let* data4 := idx data 4 in
  let byte2 := (Z.land data4 0xfe) in
  let heading := (f32_of_Z (Z.shiftr (bitutils.Pack2Bytes byte1 byte2) 1)) in
  let heading := if negative then
    let heading := (SFopp heading) in
    heading
  else 
    heading in
  Ok ((f32_div (f32_mul heading (f32_lit 180 1)) (f32_lit 256 1)), status).

(* pkg/bds/bds62/fields/source_integrity_level.go:22-36 *)
Definition SourceIntegrityLevel_ToString (level : SourceIntegrityLevel) : string :=
  if (level =? SILLevel0) then
    "0 - Unknown or SIL > 1 * 10^-3 per flight hour or per sample"%string
  else if (level =? SILLevel1) then
    "1 - SIL <= 1 * 10^-3 per flight hour or per sample"%string
  else if (level =? SILLevel2) then
    "1 - SIL <= 1 * 10^-5 per flight hour or per sample"%string
  else if (level =? SILLevel3) then
    "1 - SIL <= 1 * 10^-7 per flight hour or per sample"%string
  else 
    (dec level ++ " - Unknown code"%string)%string.

(* pkg/bds/bds62/fields/source_integrity_level.go:39-42 *)
Definition ReadSourceIntegrityLevel (data : list Z) : res SourceIntegrityLevel :=
  let* data5 := idx data 5 in
  let bits := (Z.shiftr (Z.land data5 0xc) 2) in
  Ok bits.

(* pkg/bds/bds62/fields/source_integrity_level_supplement.go:18-28 *)
Definition SourceIntegrityLevelSupplement_ToString (status : SourceIntegrityLevelSupplement) : string :=
  if (status =? SILSByHour) then
    "0 - Probability of exceeding NIC radius of containment is based on ""per hour"""%string
  else if (status =? SILSBySample) then
    "1 - Probability of exceeding NIC radius of containment is based on ""per sample"""%string
  else 
    (dec status ++ " - Unknown code"%string)%string.

(* pkg/bds/bds62/fields/source_integrity_level_supplement.go:31-34 *)
Definition ReadSourceIntegrityLevelSupplement (data : list Z) : res SourceIntegrityLevelSupplement :=
  let* data0 := idx data 0 in
  let bits := (Z.land data0 1) in
  Ok bits.

(* pkg/bds/bds62/fields/status_mcp_fcu_bits.go:20-30 *)
Definition StatusMCPFCUBits_ToString (status : StatusMCPFCUBits) : string :=
  if (status =? SMFBNoInformationProvided) then
    "0 - no information provided for MCP/FCU mode bits"%string
  else if (status =? SMFBInformationProvided) then
    "1 - information provided for MCP/FCU mode bits"%string
  else 
    (dec status ++ " - Unknown code"%string)%string.

(* pkg/bds/bds62/fields/status_mcp_fcu_bits.go:33-36 *)
Definition ReadStatusMCPFCUBits (data : list Z) : res StatusMCPFCUBits :=
  let* data5 := idx data 5 in
  let bits := (Z.shiftr (Z.land data5 2) 1) in
  Ok bits.

(* pkg/bds/bds62/fields/subtype.go:24-36 *)
Definition Subtype_ToString (subtype : Subtype) : string :=
  if (subtype =? Subtype0) then
    "0 - Subtype 0"%string
  else if (subtype =? Subtype1) then
    "1 - Subtype 1"%string
  else if (subtype =? SubtypeReserved2) || (subtype =? SubtypeReserved3) then
    (dec subtype ++ " - reserved"%string)%string
  else 
    (dec subtype ++ " - Unknown code"%string)%string.

(* pkg/bds/bds62/fields/subtype.go:39-42 *)
Definition ReadSubtype (data : list Z) : res Subtype :=
  let* data0 := idx data 0 in
  let bits := (Z.shiftr (Z.land data0 6) 1) in
  Ok bits.

(* pkg/bds/bds62/fields/surveillance_integrity_level.go:33-55 *)
Definition SurveillanceIntegrityLevel_ToString (level : SurveillanceIntegrityLevel) : string :=
  if (level =? SUILLevel0) then
    (silLabelHorizontal ++ "Unknown"%string ++ nl%string ++ silLabelVertical ++ "Unknown"%string)%string
  else if (level =? SUILLevel1) then
    (silLabelHorizontal ++ "<= 1 * 10^-3 per flight hour or per sample"%string ++ nl%string ++ silLabelVertical ++ "<= 1 * 10^-3 per flight hour or per sample"%string)%string
  else if (level =? SUILLevel2) then
    (silLabelHorizontal ++ "<= 1 * 10^-5 per flight hour or per sample"%string ++ nl%string ++ silLabelVertical ++ "<= 1 * 10^-5 per flight hour or per sample"%string)%string
  else if (level =? SUILLevel3) then
    (silLabelHorizontal ++ "<= 1 * 10^-7 per flight hour or per sample"%string ++ nl%string ++ silLabelVertical ++ "<= 2 * 10^-7 per 150 seconds or per sample"%string)%string
  else 
    (dec level ++ " - Unknown code"%string)%string.

(* pkg/bds/bds62/fields/surveillance_integrity_level.go:58-61 *)
Definition ReadSurveillanceIntegrityLevel (data : list Z) : res SurveillanceIntegrityLevel :=
  let* data5 := idx data 5 in
  let bits := (Z.shiftr (Z.land data5 0xc) 2) in
  Ok bits.

(* pkg/bds/bds62/fields/target_altitude.go:12-23 *)
Definition ReadTargetAltitude (data : list Z) : res (Z * NumericValueStatus) :=
  let* data1 := idx data 1 in
  let byte1 := (Z.land data1 1) in
  let* data2 := idx data 2 in
  let byte2 := (Z.land data2 0xff) in
  let* data3 := idx data 3 in
  let byte3 := (Z.land data3 0x80) in
  let targetAltitude := (i32 (Z.shiftr (bitutils.Pack3Bytes byte1 byte2 byte3) 7)) in
  if (targetAltitude >? 1010) then
    Ok (0, NVSMaximum)
  else 
    Ok ((i32 ((i32 (targetAltitude * 100)) - 1000)), NVSRegular).

(* pkg/bds/bds62/fields/target_altitude_capability.go:24-38 *)
Definition TargetAltitudeCapability_ToString (capability : TargetAltitudeCapability) : string :=
  if (capability =? TACAltitudeOnly) then
    "0 - capability for reporting holding altitude only"%string
  else if (capability =? TACAltitudeOrAutopilot) then
    "1 - capability for reporting either holding altitude or autopilot control panel	selected altitude"%string
  else if (capability =? TACAltitudeOrAutopilotOrFMS) then
    "2 - capability for reporting either holding altitude, autopilot control panel selected altitude, or any FMS/RNAV level-off altitude"%string
  else if (capability =? TACReserved3) then
    "3 - Reserved"%string
  else 
    (dec capability ++ " - Unknown code"%string)%string.

(* pkg/bds/bds62/fields/target_altitude_capability.go:41-44 *)
Definition ReadTargetAltitudeCapability (data : list Z) : res TargetAltitudeCapability :=
  let* data1 := idx data 1 in
  let bits := (Z.shiftr (Z.land data1 0x18) 3) in
  Ok bits.

(* pkg/bds/bds62/fields/target_altitude_type.go:18-28 *)
Definition TargetAltitudeType_ToString (targetType : TargetAltitudeType) : string :=
  if (targetType =? TATReferencedToPressureAltitude) then
    "0 - referenced to pressure-altitude (flight level)"%string
  else if (targetType =? TATReferencedToBarometricAltitude) then
    "1 - referenced to barometric corrected altitude (mean sea level)"%string
  else 
    (dec targetType ++ " - Unknown code"%string)%string.

(* pkg/bds/bds62/fields/target_altitude_type.go:31-34 *)
Definition ReadTargetAltitudeType (data : list Z) : res TargetAltitudeType :=
  let* data1 := idx data 1 in
  let bits := (Z.shiftr (Z.land data1 0x40) 6) in
  Ok bits.

(* pkg/bds/bds62/fields/target_heading_track_angle.go:21-31 *)
Definition TargetHeadingTrackIndicator_ToString (targetType : TargetHeadingTrackIndicator) : string :=
  if (targetType =? THTIHeading) then
    "0 - target heading angle is being reported"%string
  else if (targetType =? THTITrack) then
    "1 - track angle is being reported"%string
  else 
    (dec targetType ++ " - Unknown code"%string)%string.

(* pkg/bds/bds62/fields/target_heading_track_angle.go:34-37 *)
Definition ReadTargetHeadingTrackIndicator (data : list Z) : res TargetHeadingTrackIndicator :=
  let* data4 := idx data 4 in
  let bits := (Z.shiftr (Z.land data4 8) 3) in
  Ok bits.

(* pkg/bds/bds62/fields/target_heading_track_angle.go:41-51 *)
Definition ReadTargetHeadingTrackAngle (data : list Z) : res (Z * NumericValueStatus) :=
  let* data3 := idx data 3 in
  let byte1 := (Z.land data3 0x1f) in
  let* data2 := idx data 2 in
  let byte2 := (Z.land data2 0xf0) in
  let targetHeading := (Z.shiftr (bitutils.Pack2Bytes byte1 byte2) 4) in
  if (targetHeading >? 359) then
    Ok (0, NVSMaximum)
  else 
    Ok (targetHeading, NVSRegular).

(* pkg/bds/bds62/fields/vertical_data_source_indicator.go:22-36 *)
Definition VerticalDataAvailableSourceIndicator_ToString (data : VerticalDataAvailableSourceIndicator) : string :=
  if (data =? VDANoValidDataAvailable) then
    "0 - no valid Vertical Target State data is available"%string
  else if (data =? VDAAutopilot) then
    "1 - autopilot control panel selected value, such as Mode Control Panel (MCP) or Flight Control Unit (FCU)"%string
  else if (data =? VDAHoldingAltitude) then
    "2 - holding altitude"%string
  else if (data =? VDAFMS) then
    "3 - FMS/RNAV system"%string
  else 
    (dec data ++ " - Unknown code"%string)%string.

(* pkg/bds/bds62/fields/vertical_data_source_indicator.go:39-42 *)
Definition ReadVerticalDataAvailableSourceIndicator (data : list Z) : res VerticalDataAvailableSourceIndicator :=
  let* data0 := idx data 0 in
  let* data1 := idx data 1 in
  let bits := (u8 ((u8 (Z.shiftl (Z.land data0 1) 1)) + (Z.shiftr (Z.land data1 0x80) 7))) in
  Ok bits.

(* pkg/bds/bds62/fields/vertical_mode_indicator.go:22-36 *)
Definition VerticalModeIndicator_ToString (indicator : VerticalModeIndicator) : string :=
  if (indicator =? VMIUnknown) then
    "0 - unknown mode or information unavailable"%string
  else if (indicator =? VMIAcquiringMode) then
    "1 - ""Acquiring"" Mode"%string
  else if (indicator =? VMICapturingMode) then
    "2 - ""Capturing"" or ""Maintaining"" Mode"%string
  else if (indicator =? VMIReserved3) then
    "3 - Reserved"%string
  else 
    (dec indicator ++ " - Unknown code"%string)%string.

(* pkg/bds/bds62/fields/vertical_mode_indicator.go:39-42 *)
Definition ReadVerticalModeIndicator (data : list Z) : res VerticalModeIndicator :=
  let* data1 := idx data 1 in
  let bits := (Z.shiftr (Z.land data1 6) 1) in
  Ok bits.
