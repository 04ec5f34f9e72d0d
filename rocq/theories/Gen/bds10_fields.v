(* GENERATED by tools/go2coq.py from /repo/pkg/bds/bds10/fields -- do not edit by hand.
   One Gallina definition per Go declaration; each is preceded by the file and lines it models.
   Error values are represented by their text, see DESIGN.md.
*)
From Verif Require Import GoBase.
From Verif.Gen Require bitutils.
Local Open Scope Z_scope.

(* pkg/bds/bds10/fields/acas_applicable_document.go:8 *)
Definition ACASApplicableDocument := Z.

(* pkg/bds/bds10/fields/acas_generation_capability.go:8 *)
Definition ACASGenerationCapability := Z.

(* pkg/bds/bds10/fields/acas_hybrid_surveillance_capability.go:8 *)
Definition ACASHybridSurveillanceCapability := Z.

(* pkg/bds/bds10/fields/acas_status.go:8 *)
Definition ACASStatus := Z.

(* pkg/bds/bds10/fields/aircraft_identification_capability.go:8 *)
Definition AircraftIdentificationCapability := Z.

(* pkg/bds/bds10/fields/common_gicb_capability.go:8 *)
Definition CommonUsageGICBCapability := Z.

(* pkg/bds/bds10/fields/continuation_flag.go:8 *)
Definition ContinuationFlag := Z.

(* pkg/bds/bds10/fields/downlink_elm_throughput.go:8 *)
Definition DownlinkELMThroughputCapability := Z.

(* pkg/bds/bds10/fields/dte_sub_address_statuses.go:12 *)
Definition DTESubAddressStatuses := Z.

(* pkg/bds/bds10/fields/modes_specific_services_capability.go:8 *)
Definition ModeSSpecificServicesCapability := Z.

(* pkg/bds/bds10/fields/modes_subnetwork_version.go:8 *)
Definition ModeSSubnetworkVersion := Z.

(* pkg/bds/bds10/fields/overlay_command_capability.go:8 *)
Definition OverlayCommandCapability := Z.

(* pkg/bds/bds10/fields/squitter_capability_subfield.go:8 *)
Definition SquitterCapabilitySubfield := Z.

(* pkg/bds/bds10/fields/surveillance_identifier_code.go:8 *)
Definition SurveillanceIdentifierCode := Z.

(* pkg/bds/bds10/fields/transponder_enhanced_protocol_indicator.go:8 *)
Definition TransponderEnhancedProtocolIndicator := Z.

(* pkg/bds/bds10/fields/uplink_elm_throughput.go:8 *)
Definition UplinkELMThroughputCapability := Z.

Definition ACASApplicableDocument185 : ACASApplicableDocument := 0. (* pkg/bds/bds10/fields/acas_applicable_document.go:14 *)

Definition ACASApplicableDocument185A : ACASApplicableDocument := 2. (* pkg/bds/bds10/fields/acas_applicable_document.go:16 *)

Definition ACASApplicableDocument185B : ACASApplicableDocument := 1. (* pkg/bds/bds10/fields/acas_applicable_document.go:18 *)

Definition ACASGenerationNotCapable : ACASGenerationCapability := 0. (* pkg/bds/bds10/fields/acas_generation_capability.go:12 *)

Definition ACASGenerationCapable : ACASGenerationCapability := 1. (* pkg/bds/bds10/fields/acas_generation_capability.go:14 *)

Definition ACASHybridSurveillanceNotCapable : ACASHybridSurveillanceCapability := 0. (* pkg/bds/bds10/fields/acas_hybrid_surveillance_capability.go:12 *)

Definition ACASHybridSurveillanceCapable : ACASHybridSurveillanceCapability := 1. (* pkg/bds/bds10/fields/acas_hybrid_surveillance_capability.go:14 *)

Definition ACASFailedOrStandBy : ACASStatus := 0. (* pkg/bds/bds10/fields/acas_status.go:12 *)

Definition ACASOperational : ACASStatus := 1. (* pkg/bds/bds10/fields/acas_status.go:14 *)

Definition IdentificationFromADLP : AircraftIdentificationCapability := 0. (* pkg/bds/bds10/fields/aircraft_identification_capability.go:12 *)

Definition IdentificationFromSeparateInterface : AircraftIdentificationCapability := 1. (* pkg/bds/bds10/fields/aircraft_identification_capability.go:14 *)

Definition CommonUsageGICBReportUnChanged : CommonUsageGICBCapability := 0. (* pkg/bds/bds10/fields/common_gicb_capability.go:12 *)

Definition CommonUsageGICBReportChanged : CommonUsageGICBCapability := 1. (* pkg/bds/bds10/fields/common_gicb_capability.go:14 *)

Definition NoNextRegister : ContinuationFlag := 0. (* pkg/bds/bds10/fields/continuation_flag.go:12 *)

Definition NextRegisterPresent : ContinuationFlag := 1. (* pkg/bds/bds10/fields/continuation_flag.go:14 *)

Definition DownlinkELMNoCapability : DownlinkELMThroughputCapability := 0. (* pkg/bds/bds10/fields/downlink_elm_throughput.go:12 *)

Definition DownlinkELM4SegmentsEverySecond : DownlinkELMThroughputCapability := 1. (* pkg/bds/bds10/fields/downlink_elm_throughput.go:14 *)

Definition DownlinkELM8SegmentsEverySecond : DownlinkELMThroughputCapability := 2. (* pkg/bds/bds10/fields/downlink_elm_throughput.go:16 *)

Definition DownlinkELM16SegmentsEverySecond : DownlinkELMThroughputCapability := 3. (* pkg/bds/bds10/fields/downlink_elm_throughput.go:18 *)

Definition DownlinkELM16SegmentsEvery500Milliseconds : DownlinkELMThroughputCapability := 4. (* pkg/bds/bds10/fields/downlink_elm_throughput.go:20 *)

Definition DownlinkELM16SegmentsEvery250Milliseconds : DownlinkELMThroughputCapability := 5. (* pkg/bds/bds10/fields/downlink_elm_throughput.go:22 *)

Definition DownlinkELM16SegmentsEvery125Milliseconds : DownlinkELMThroughputCapability := 6. (* pkg/bds/bds10/fields/downlink_elm_throughput.go:24 *)

Definition ModeSSpecificServicesNotPresent : ModeSSpecificServicesCapability := 0. (* pkg/bds/bds10/fields/modes_specific_services_capability.go:12 *)

Definition ModeSSpecificServicesAvailable : ModeSSpecificServicesCapability := 1. (* pkg/bds/bds10/fields/modes_specific_services_capability.go:14 *)

Definition ModeSSubnetworkNotAvailable : ModeSSubnetworkVersion := 0. (* pkg/bds/bds10/fields/modes_subnetwork_version.go:12 *)

Definition ModeSSubnetworkVersion1 : ModeSSubnetworkVersion := 1. (* pkg/bds/bds10/fields/modes_subnetwork_version.go:14 *)

Definition ModeSSubnetworkVersion2 : Z := 2. (* pkg/bds/bds10/fields/modes_subnetwork_version.go:16 *)

Definition ModeSSubnetworkVersion3 : Z := 3. (* pkg/bds/bds10/fields/modes_subnetwork_version.go:18 *)

Definition ModeSSubnetworkVersion4 : Z := 4. (* pkg/bds/bds10/fields/modes_subnetwork_version.go:20 *)

Definition ModeSSubnetworkVersion5 : Z := 5. (* pkg/bds/bds10/fields/modes_subnetwork_version.go:22 *)

Definition NoOverlayCommandCapability : OverlayCommandCapability := 0. (* pkg/bds/bds10/fields/overlay_command_capability.go:12 *)

Definition OverlayCommandCapabilityPresent : OverlayCommandCapability := 1. (* pkg/bds/bds10/fields/overlay_command_capability.go:14 *)

Definition Registers05And06NotUpdatedRecently : SquitterCapabilitySubfield := 0. (* pkg/bds/bds10/fields/squitter_capability_subfield.go:12 *)

Definition Registers05And06UpdatedRecently : SquitterCapabilitySubfield := 1. (* pkg/bds/bds10/fields/squitter_capability_subfield.go:15 *)

Definition SurveillanceIdentifierCodeAbsent : SurveillanceIdentifierCode := 0. (* pkg/bds/bds10/fields/surveillance_identifier_code.go:12 *)

Definition SurveillanceIdentifierCodeCapable : SurveillanceIdentifierCode := 1. (* pkg/bds/bds10/fields/surveillance_identifier_code.go:14 *)

Definition TransponderLevel2To4 : TransponderEnhancedProtocolIndicator := 0. (* pkg/bds/bds10/fields/transponder_enhanced_protocol_indicator.go:12 *)

Definition TransponderLevel5 : TransponderEnhancedProtocolIndicator := 1. (* pkg/bds/bds10/fields/transponder_enhanced_protocol_indicator.go:14 *)

Definition UplinkELMNoCapability : UplinkELMThroughputCapability := 0. (* pkg/bds/bds10/fields/uplink_elm_throughput.go:12 *)

Definition UplinkELM16SegmentsIn1Second : UplinkELMThroughputCapability := 1. (* pkg/bds/bds10/fields/uplink_elm_throughput.go:14 *)

Definition UplinkELM16SegmentsIn500Milliseconds : UplinkELMThroughputCapability := 2. (* pkg/bds/bds10/fields/uplink_elm_throughput.go:16 *)

Definition UplinkELM16SegmentsIn250Milliseconds : UplinkELMThroughputCapability := 3. (* pkg/bds/bds10/fields/uplink_elm_throughput.go:18 *)

Definition UplinkELM16SegmentsIn125Milliseconds : UplinkELMThroughputCapability := 4. (* pkg/bds/bds10/fields/uplink_elm_throughput.go:20 *)

Definition UplinkELM16SegmentsIn60Milliseconds : UplinkELMThroughputCapability := 5. (* pkg/bds/bds10/fields/uplink_elm_throughput.go:22 *)

Definition UplinkELM16SegmentsIn30Milliseconds : UplinkELMThroughputCapability := 6. (* pkg/bds/bds10/fields/uplink_elm_throughput.go:24 *)

(* pkg/bds/bds10/fields/acas_applicable_document.go:22-34 *)
Definition ACASApplicableDocument_ToString (aad : ACASApplicableDocument) : string :=
  if (aad =? ACASApplicableDocument185) then
    "RTCA DO-185"%string
  else if (aad =? ACASApplicableDocument185A) then
    "RTCA DO-185A"%string
  else if (aad =? ACASApplicableDocument185B) then
    "RTCA DO-185B"%string
  else 
    (dec aad ++ " - Unknown code"%string)%string.

(* pkg/bds/bds10/fields/acas_applicable_document.go:37-40 *)
Definition ReadACASApplicableDocument (data : list Z) : res ACASApplicableDocument :=
  let* data4 := idx data 4 in
  let bits := (Z.land data4 3) in
  Ok bits.

(* pkg/bds/bds10/fields/acas_generation_capability.go:18-28 *)
Definition ACASGenerationCapability_ToString (agc : ACASGenerationCapability) : string :=
  if (agc =? ACASGenerationNotCapable) then
    "0 - The ACAS is generating TAs only"%string
  else if (agc =? ACASGenerationCapable) then
    "1 - The ACAS is generating both TAs and RAs"%string
  else 
    (dec agc ++ " - Unknown code"%string)%string.

(* pkg/bds/bds10/fields/acas_generation_capability.go:31-34 *)
Definition ReadACASGenerationCapability (data : list Z) : res ACASGenerationCapability :=
  let* data4 := idx data 4 in
  let bits := (Z.shiftr (Z.land data4 4) 2) in
  Ok bits.

(* pkg/bds/bds10/fields/acas_hybrid_surveillance_capability.go:18-28 *)
Definition ACASHybridSurveillanceCapability_ToString (ahsc : ACASHybridSurveillanceCapability) : string :=
  if (ahsc =? ACASHybridSurveillanceNotCapable) then
    "0 - No capability of hybrid surveillance"%string
  else if (ahsc =? ACASHybridSurveillanceCapable) then
    "1 - Capability of hybrid surveillance"%string
  else 
    (dec ahsc ++ " - Unknown code"%string)%string.

(* pkg/bds/bds10/fields/acas_hybrid_surveillance_capability.go:31-34 *)
Definition ReadACASHybridSurveillanceCapability (data : list Z) : res ACASHybridSurveillanceCapability :=
  let* data4 := idx data 4 in
  let bits := (Z.shiftr (Z.land data4 8) 3) in
  Ok bits.

(* pkg/bds/bds10/fields/acas_status.go:18-28 *)
Definition ACASStatus_ToString (ac : ACASStatus) : string :=
  if (ac =? ACASFailedOrStandBy) then
    "0 - ACAS Failed or On Standby"%string
  else if (ac =? ACASOperational) then
    "1 - ACAS Operational"%string
  else 
    (dec ac ++ " - Unknown code"%string)%string.

(* pkg/bds/bds10/fields/acas_status.go:31-34 *)
Definition ReadACASStatus (data : list Z) : res ACASStatus :=
  let* data1 := idx data 1 in
  let bits := (Z.land data1 1) in
  Ok bits.

(* pkg/bds/bds10/fields/aircraft_identification_capability.go:18-28 *)
Definition AircraftIdentificationCapability_ToString (aic : AircraftIdentificationCapability) : string :=
  if (aic =? IdentificationFromADLP) then
    "0 - Aircraft Identification is coming through ADLP"%string
  else if (aic =? IdentificationFromSeparateInterface) then
    "1 - Aircraft Identification is coming through a separate interface"%string
  else 
    (dec aic ++ " - Unknown code"%string)%string.

(* pkg/bds/bds10/fields/aircraft_identification_capability.go:31-34 *)
Definition ReadAircraftIdentificationCapability (data : list Z) : res AircraftIdentificationCapability :=
  let* data4 := idx data 4 in
  let bits := (Z.shiftr (Z.land data4 0x80) 7) in
  Ok bits.

(* pkg/bds/bds10/fields/common_gicb_capability.go:18-28 *)
Definition CommonUsageGICBCapability_ToString (cugc : CommonUsageGICBCapability) : string :=
  if (cugc =? CommonUsageGICBReportUnChanged) then
    "0 - The common usage GICB capability report (register 17) is unchange"%string
  else if (cugc =? CommonUsageGICBReportChanged) then
    "1 - The common usage GICB capability report (register 17) changed"%string
  else 
    (dec cugc ++ " - Unknown code"%string)%string.

(* pkg/bds/bds10/fields/common_gicb_capability.go:31-34 *)
Definition ReadCommonUsageGICBCapability (data : list Z) : res CommonUsageGICBCapability :=
  let* data4 := idx data 4 in
  let bits := (Z.shiftr (Z.land data4 0x10) 4) in
  Ok bits.

(* pkg/bds/bds10/fields/continuation_flag.go:18-28 *)
Definition ContinuationFlag_ToString (cf : ContinuationFlag) : string :=
  if (cf =? NoNextRegister) then
    "0 - last register"%string
  else if (cf =? NextRegisterPresent) then
    "1 - subsequent register shall be extracted"%string
  else 
    (dec cf ++ " - Unknown code"%string)%string.

(* pkg/bds/bds10/fields/continuation_flag.go:31-34 *)
Definition ReadContinuationFlag (data : list Z) : res ContinuationFlag :=
  let* data1 := idx data 1 in
  let bits := (Z.shiftr (Z.land data1 0x80) 7) in
  Ok bits.

(* pkg/bds/bds10/fields/downlink_elm_throughput.go:28-48 *)
Definition DownlinkELMThroughputCapability_ToString (uetc : DownlinkELMThroughputCapability) : string :=
  if (uetc =? DownlinkELMNoCapability) then
    "0 - No DEML Capability"%string
  else if (uetc =? DownlinkELM4SegmentsEverySecond) then
    "1 - One 4 segments DELM every second"%string
  else if (uetc =? DownlinkELM8SegmentsEverySecond) then
    "2 - One 8 segments DELM every second"%string
  else if (uetc =? DownlinkELM16SegmentsEverySecond) then
    "3 - One 16 segments DELM every second"%string
  else if (uetc =? DownlinkELM16SegmentsEvery500Milliseconds) then
    "4 - One 16 segments DELM every 500 ms"%string
  else if (uetc =? DownlinkELM16SegmentsEvery250Milliseconds) then
    "5 - One 16 segments DELM every 250 ms"%string
  else if (uetc =? DownlinkELM16SegmentsEvery125Milliseconds) then
    "6 - One 16 segments DELM every 125 ms"%string
  else 
    (dec uetc ++ " - Unknown code"%string)%string.

(* pkg/bds/bds10/fields/downlink_elm_throughput.go:51-54 *)
Definition ReadDownlinkELMThroughputCapability (data : list Z) : res DownlinkELMThroughputCapability :=
  let* data3 := idx data 3 in
  let bits := (Z.land data3 0xf) in
  Ok bits.

(* pkg/bds/bds10/fields/dte_sub_address_statuses.go:15-25 *)
Definition DTESubAddressStatuses_ToString (dss : DTESubAddressStatuses) : string :=
  let bitShift := (u64 (15 - 0)) in
  let dteStatus := (Z.land (Z.shiftr dss bitShift) 1) in
  let statuses0 := (dec dteStatus) in
  let bitShift := (u64 (15 - 1)) in
  let dteStatus := (Z.land (Z.shiftr dss bitShift) 1) in
  let statuses1 := (dec dteStatus) in
  let bitShift := (u64 (15 - 2)) in
  let dteStatus := (Z.land (Z.shiftr dss bitShift) 1) in
  let statuses2 := (dec dteStatus) in
  let bitShift := (u64 (15 - 3)) in
  let dteStatus := (Z.land (Z.shiftr dss bitShift) 1) in
  let statuses3 := (dec dteStatus) in
  let bitShift := (u64 (15 - 4)) in
  let dteStatus := (Z.land (Z.shiftr dss bitShift) 1) in
  let statuses4 := (dec dteStatus) in
  let bitShift := (u64 (15 - 5)) in
  let dteStatus := (Z.land (Z.shiftr dss bitShift) 1) in
  let statuses5 := (dec dteStatus) in
  let bitShift := (u64 (15 - 6)) in
  let dteStatus := (Z.land (Z.shiftr dss bitShift) 1) in
  let statuses6 := (dec dteStatus) in
  let bitShift := (u64 (15 - 7)) in
  let dteStatus := (Z.land (Z.shiftr dss bitShift) 1) in
  let statuses7 := (dec dteStatus) in
  let bitShift := (u64 (15 - 8)) in
  let dteStatus := (Z.land (Z.shiftr dss bitShift) 1) in
  let statuses8 := (dec dteStatus) in
  let bitShift := (u64 (15 - 9)) in
  let dteStatus := (Z.land (Z.shiftr dss bitShift) 1) in
  let statuses9 := (dec dteStatus) in
  let bitShift := (u64 (15 - 10)) in
  let dteStatus := (Z.land (Z.shiftr dss bitShift) 1) in
  let statuses10 := (dec dteStatus) in
  let bitShift := (u64 (15 - 11)) in
  let dteStatus := (Z.land (Z.shiftr dss bitShift) 1) in
  let statuses11 := (dec dteStatus) in
  let bitShift := (u64 (15 - 12)) in
  let dteStatus := (Z.land (Z.shiftr dss bitShift) 1) in
  let statuses12 := (dec dteStatus) in
  let bitShift := (u64 (15 - 13)) in
  let dteStatus := (Z.land (Z.shiftr dss bitShift) 1) in
  let statuses13 := (dec dteStatus) in
  let bitShift := (u64 (15 - 14)) in
  let dteStatus := (Z.land (Z.shiftr dss bitShift) 1) in
  let statuses14 := (dec dteStatus) in
  let bitShift := (u64 (15 - 15)) in
  let dteStatus := (Z.land (Z.shiftr dss bitShift) 1) in
  let statuses15 := (dec dteStatus) in
  (String.concat ", "%string ([statuses0; statuses1; statuses2; statuses3; statuses4; statuses5; statuses6; statuses7; statuses8; statuses9; statuses10; statuses11; statuses12; statuses13; statuses14; statuses15])).

(* pkg/bds/bds10/fields/dte_sub_address_statuses.go:28-30 *)
Definition ReadDTESubAddressStatuses (data : list Z) : res DTESubAddressStatuses :=
  let* data5 := idx data 5 in
  let* data6 := idx data 6 in
  Ok (bitutils.Pack2Bytes data5 data6).

(* pkg/bds/bds10/fields/modes_specific_services_capability.go:18-28 *)
Definition ModeSSpecificServicesCapability_ToString (mssc : ModeSSpecificServicesCapability) : string :=
  if (mssc =? ModeSSpecificServicesNotPresent) then
    "0 - no Mode S specific service is present"%string
  else if (mssc =? ModeSSpecificServicesAvailable) then
    "1 - at least one Mode S specific service is present"%string
  else 
    (dec mssc ++ " - Unknown code"%string)%string.

(* pkg/bds/bds10/fields/modes_specific_services_capability.go:31-34 *)
Definition ReadModeSSpecificServicesCapability (data : list Z) : res ModeSSpecificServicesCapability :=
  let* data3 := idx data 3 in
  let bits := (Z.shiftr (Z.land data3 0x80) 7) in
  Ok bits.

(* pkg/bds/bds10/fields/modes_subnetwork_version.go:26-44 *)
Definition ModeSSubnetworkVersion_ToString (mssv : ModeSSubnetworkVersion) : string :=
  if (mssv =? ModeSSubnetworkNotAvailable) then
    "0 - Mode S subnetwork not available"%string
  else if (mssv =? ModeSSubnetworkVersion1) then
    "1 - Mode S subnetwork Version 1 - ICAO Doc 9688 (1996)"%string
  else if (mssv =? 2) then
    "1 - Mode S subnetwork Version 2 - ICAO Doc 9688 (1997)"%string
  else if (mssv =? 3) then
    "1 - Mode S subnetwork Version 3 - ICAO Annex 10, Vol III, Amdt 77"%string
  else if (mssv =? 4) then
    "1 - Mode S subnetwork Version 4 - ICAO Doc 9871, Edition 1"%string
  else if (mssv =? 5) then
    "1 - Mode S subnetwork Version 5 - ICAO Doc 9871, Edition 2"%string
  else 
    (dec mssv ++ " - Unknown code"%string)%string.

(* pkg/bds/bds10/fields/modes_subnetwork_version.go:47-50 *)
Definition ReadModeSSubnetworkVersion (data : list Z) : res ModeSSubnetworkVersion :=
  let* data2 := idx data 2 in
  let bits := (Z.shiftr (Z.land data2 0xfe) 1) in
  Ok bits.

(* pkg/bds/bds10/fields/overlay_command_capability.go:18-28 *)
Definition OverlayCommandCapability_ToString (occ : OverlayCommandCapability) : string :=
  if (occ =? NoOverlayCommandCapability) then
    "0 - No Overlay Command Capability"%string
  else if (occ =? OverlayCommandCapabilityPresent) then
    "1 - Overlay Command Capability"%string
  else 
    (dec occ ++ " - Unknown code"%string)%string.

(* pkg/bds/bds10/fields/overlay_command_capability.go:31-34 *)
Definition ReadOverlayCommandCapability (data : list Z) : res OverlayCommandCapability :=
  let* data1 := idx data 1 in
  let bits := (Z.shiftr (Z.land data1 2) 1) in
  Ok bits.

(* pkg/bds/bds10/fields/squitter_capability_subfield.go:19-29 *)
Definition SquitterCapabilitySubfield_ToString (scs : SquitterCapabilitySubfield) : string :=
  if (scs =? Registers05And06NotUpdatedRecently) then
    "0 - Both registers 05 and 06 have not been updated recently"%string
  else if (scs =? Registers05And06UpdatedRecently) then
    "1 - Both registers 05 and 06 have been updated within the last ten, plus or minus one, seconds"%string
  else 
    (dec scs ++ " - Unknown code"%string)%string.

(* pkg/bds/bds10/fields/squitter_capability_subfield.go:32-35 *)
Definition ReadSquitterCapabilitySubfield (data : list Z) : res SquitterCapabilitySubfield :=
  let* data4 := idx data 4 in
  let bits := (Z.shiftr (Z.land data4 0x40) 6) in
  Ok bits.

(* pkg/bds/bds10/fields/surveillance_identifier_code.go:18-28 *)
Definition SurveillanceIdentifierCode_ToString (sic : SurveillanceIdentifierCode) : string :=
  if (sic =? SurveillanceIdentifierCodeAbsent) then
    "0 - No surveillance identifier code capability"%string
  else if (sic =? SurveillanceIdentifierCodeCapable) then
    "1 - Surveillance identifier code capability"%string
  else 
    (dec sic ++ " - Unknown code"%string)%string.

(* pkg/bds/bds10/fields/surveillance_identifier_code.go:31-34 *)
Definition ReadSurveillanceIdentifierCode (data : list Z) : res SurveillanceIdentifierCode :=
  let* data2 := idx data 2 in
  let bits := (Z.shiftr (Z.land data2 0x40) 5) in
  Ok bits.

(* pkg/bds/bds10/fields/transponder_enhanced_protocol_indicator.go:18-28 *)
Definition TransponderEnhancedProtocolIndicator_ToString (tepi : TransponderEnhancedProtocolIndicator) : string :=
  if (tepi =? TransponderLevel2To4) then
    "0 - Transponder Level 2 to 4"%string
  else if (tepi =? TransponderLevel5) then
    "1 - Transponder Level 5"%string
  else 
    (dec tepi ++ " - Unknown code"%string)%string.

(* pkg/bds/bds10/fields/transponder_enhanced_protocol_indicator.go:31-34 *)
Definition ReadTransponderEnhancedProtocolIndicator (data : list Z) : res TransponderEnhancedProtocolIndicator :=
  let* data2 := idx data 2 in
  let bits := (Z.land data2 1) in
  Ok bits.

(* pkg/bds/bds10/fields/uplink_elm_throughput.go:28-48 *)
Definition UplinkELMThroughputCapability_ToString (uetc : UplinkELMThroughputCapability) : string :=
  if (uetc =? UplinkELMNoCapability) then
    "0 - No UELM Capability"%string
  else if (uetc =? UplinkELM16SegmentsIn1Second) then
    "1 - 16 UELM segments in 1 second"%string
  else if (uetc =? UplinkELM16SegmentsIn500Milliseconds) then
    "2 - 16 UELM segments in 500 milliseconds"%string
  else if (uetc =? UplinkELM16SegmentsIn250Milliseconds) then
    "3 - 16 UELM segments in 250 milliseconds"%string
  else if (uetc =? UplinkELM16SegmentsIn125Milliseconds) then
    "4 - 16 UELM segments in 125 milliseconds"%string
  else if (uetc =? UplinkELM16SegmentsIn60Milliseconds) then
    "5 - 16 UELM segments in 60 milliseconds"%string
  else if (uetc =? UplinkELM16SegmentsIn30Milliseconds) then
    "6 - 16 UELM segments in 30 milliseconds"%string
  else 
    (dec uetc ++ " - Unknown code"%string)%string.

(* pkg/bds/bds10/fields/uplink_elm_throughput.go:51-54 *)
Definition ReadUplinkELMThroughputCapability (data : list Z) : res UplinkELMThroughputCapability :=
  let* data3 := idx data 3 in
  let bits := (Z.shiftr (Z.land data3 0x70) 4) in
  Ok bits.
