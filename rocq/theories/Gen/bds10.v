(* GENERATED by tools/go2coq.py from /repo/pkg/bds/bds10 -- do not edit by hand.
   One Gallina definition per Go declaration; each is preceded by the file and lines it models.
   Error values are represented by their text, see DESIGN.md.
*)
From Verif Require Import GoBase.
From Verif.Gen Require bds10_fields bds_register.
Local Open Scope Z_scope.

(* pkg/bds/bds10/data_link_capability_report.go:14-31 *)
Record DataLinkCapabilityReport := mkDataLinkCapabilityReport {
  DataLinkCapabilityReport_ContinuationFlag : bds10_fields.ContinuationFlag;
  DataLinkCapabilityReport_OverlayCommandCapability : bds10_fields.OverlayCommandCapability;
  DataLinkCapabilityReport_ACASStatus : bds10_fields.ACASStatus;
  DataLinkCapabilityReport_ModeSSubnetworkVersion : bds10_fields.ModeSSubnetworkVersion;
  DataLinkCapabilityReport_TransponderEnhancedProtocolIndicator : bds10_fields.TransponderEnhancedProtocolIndicator;
  DataLinkCapabilityReport_ModeSSpecificServicesCapability : bds10_fields.ModeSSpecificServicesCapability;
  DataLinkCapabilityReport_UplinkELMThroughputCapability : bds10_fields.UplinkELMThroughputCapability;
  DataLinkCapabilityReport_DownlinkELMThroughputCapability : bds10_fields.DownlinkELMThroughputCapability;
  DataLinkCapabilityReport_AircraftIdentificationCapability : bds10_fields.AircraftIdentificationCapability;
  DataLinkCapabilityReport_SquitterCapabilitySubfield : bds10_fields.SquitterCapabilitySubfield;
  DataLinkCapabilityReport_SurveillanceIdentifierCode : bds10_fields.SurveillanceIdentifierCode;
  DataLinkCapabilityReport_CommonUsageGICBCapability : bds10_fields.CommonUsageGICBCapability;
  DataLinkCapabilityReport_ACASHybridSurveillanceCapability : bds10_fields.ACASHybridSurveillanceCapability;
  DataLinkCapabilityReport_ACASGenerationCapability : bds10_fields.ACASGenerationCapability;
  DataLinkCapabilityReport_ACASApplicableDocument : bds10_fields.ACASApplicableDocument;
  DataLinkCapabilityReport_DTESubAddressStatuses : bds10_fields.DTESubAddressStatuses }.

(* pkg/bds/bds10/data_link_capability_report.go:34-36 *)
Definition DataLinkCapabilityReport_GetRegister (message : DataLinkCapabilityReport) : bds_register.Register :=
  bds_register.BDS10.

(* pkg/bds/bds10/data_link_capability_report.go:39-70 *)
Definition DataLinkCapabilityReport_CheckCoherency (message : DataLinkCapabilityReport) : res unit :=
  if (message.(DataLinkCapabilityReport_ACASStatus) =? bds10_fields.ACASFailedOrStandBy) then
    if (negb (message.(DataLinkCapabilityReport_ACASHybridSurveillanceCapability) =? bds10_fields.ACASHybridSurveillanceNotCapable)) then
      Err ("field ACASStatus is FailedOrStandBy but ACASHybridSurveillanceCapability is not HybridSurveillanceNotCapable"%string)
    else if (negb (message.(DataLinkCapabilityReport_ACASGenerationCapability) =? bds10_fields.ACASGenerationNotCapable)) then
      Err ("field ACASStatus is FailedOrStandBy but ACASGenerationCapability is not ACASGenerationNotCapable"%string)
    else if (negb (message.(DataLinkCapabilityReport_ACASApplicableDocument) =? bds10_fields.ACASApplicableDocument185)) then
      Err ("field ACASStatus is FailedOrStandBy but ACASApplicableDocument is not ACASApplicableDocument185"%string)
    else if (message.(DataLinkCapabilityReport_ModeSSubnetworkVersion) >? 5) then
      Err ("field ModeSSubnetworkVersion is a Reserved value"%string)
    else if (message.(DataLinkCapabilityReport_UplinkELMThroughputCapability) >? 6) then
      Err ("field UplinkELMThroughputCapability is a Reserved value"%string)
    else if (message.(DataLinkCapabilityReport_DownlinkELMThroughputCapability) >? 6) then
      Err ("field DownlinkELMThroughputCapability is a Reserved value"%string)
    else 
      Ok tt
  else if (message.(DataLinkCapabilityReport_ACASApplicableDocument) >? 2) then
    Err ("field ACASApplicableDocument is a Reserved value"%string)
  else if (message.(DataLinkCapabilityReport_ModeSSubnetworkVersion) >? 5) then
    Err ("field ModeSSubnetworkVersion is a Reserved value"%string)
  else if (message.(DataLinkCapabilityReport_UplinkELMThroughputCapability) >? 6) then
    Err ("field UplinkELMThroughputCapability is a Reserved value"%string)
  else if (message.(DataLinkCapabilityReport_DownlinkELMThroughputCapability) >? 6) then
    Err ("field DownlinkELMThroughputCapability is a Reserved value"%string)
  else 
    Ok tt.

(* pkg/bds/bds10/data_link_capability_report.go:73-107 *)
Definition DataLinkCapabilityReport_ToString (message : DataLinkCapabilityReport) : string :=
  ("Message:                                 "%string ++ (bds_register.Register_ToString (DataLinkCapabilityReport_GetRegister message)) ++
      (nl ++ "Continuation Flag:                       ")%string ++ (bds10_fields.OverlayCommandCapability_ToString message.(DataLinkCapabilityReport_OverlayCommandCapability)) ++
      (nl ++ "ACAS Status                              ")%string ++ (bds10_fields.ACASStatus_ToString message.(DataLinkCapabilityReport_ACASStatus)) ++
      (nl ++ "ModeS Subnetwork Version                 ")%string ++ (bds10_fields.ModeSSubnetworkVersion_ToString message.(DataLinkCapabilityReport_ModeSSubnetworkVersion)) ++
      (nl ++ "Transponder Enhanced Protocol Indicator  ")%string ++ (bds10_fields.TransponderEnhancedProtocolIndicator_ToString message.(DataLinkCapabilityReport_TransponderEnhancedProtocolIndicator)) ++
      (nl ++ "ModeS Specific Services Capability       ")%string ++ (bds10_fields.ModeSSpecificServicesCapability_ToString message.(DataLinkCapabilityReport_ModeSSpecificServicesCapability)) ++
      (nl ++ "Uplink ELM Throughput Capability         ")%string ++ (bds10_fields.UplinkELMThroughputCapability_ToString message.(DataLinkCapabilityReport_UplinkELMThroughputCapability)) ++
      (nl ++ "Downlink ELM Throughput Capability       ")%string ++ (bds10_fields.DownlinkELMThroughputCapability_ToString message.(DataLinkCapabilityReport_DownlinkELMThroughputCapability)) ++
      (nl ++ "Aircraft Identification Capability       ")%string ++ (bds10_fields.AircraftIdentificationCapability_ToString message.(DataLinkCapabilityReport_AircraftIdentificationCapability)) ++
      (nl ++ "Squitter Capability Subfield             ")%string ++ (bds10_fields.SquitterCapabilitySubfield_ToString message.(DataLinkCapabilityReport_SquitterCapabilitySubfield)) ++
      (nl ++ "Surveillance Identifier Code             ")%string ++ (bds10_fields.SurveillanceIdentifierCode_ToString message.(DataLinkCapabilityReport_SurveillanceIdentifierCode)) ++
      (nl ++ "Common Usage GICB Capability             ")%string ++ (bds10_fields.CommonUsageGICBCapability_ToString message.(DataLinkCapabilityReport_CommonUsageGICBCapability)) ++
      (nl ++ "ACAS Hybrid Surveillance Capability      ")%string ++ (bds10_fields.ACASHybridSurveillanceCapability_ToString message.(DataLinkCapabilityReport_ACASHybridSurveillanceCapability)) ++
      (nl ++ "ACAS Generation Capability               ")%string ++ (bds10_fields.ACASGenerationCapability_ToString message.(DataLinkCapabilityReport_ACASGenerationCapability)) ++
      (nl ++ "ACAS Applicable Document                 ")%string ++ (bds10_fields.ACASApplicableDocument_ToString message.(DataLinkCapabilityReport_ACASApplicableDocument)) ++
      (nl ++ "DTE SubAddress Statuses                  ")%string ++ (bds10_fields.DTESubAddressStatuses_ToString message.(DataLinkCapabilityReport_DTESubAddressStatuses)) ++ nl%string)%string.

(* pkg/bds/bds10/data_link_capability_report.go:110-144 *)
Definition ReadDataLinkCapabilityReport (data : list Z) : res DataLinkCapabilityReport :=
  if (negb ((len data) =? 7)) then
    Err ("the data for Comm-B DataLinkCapabilityReport message must be 7 bytes long"%string)
  else 
    let* data0 := idx data 0 in
    if (negb (data0 =? 16)) then
      Err ("the first byte of data is not 0x10"%string)
    else 
      let* data1 := idx data 1 in
      if (negb ((Z.land data1 0x7c) =? 0)) then
        Err ("the bits 10 to 14 are reserved and must be 0"%string)
      else 
        let* r := bds10_fields.ReadContinuationFlag data in
        let* r_1 := bds10_fields.ReadOverlayCommandCapability data in
        let* r_2 := bds10_fields.ReadACASStatus data in
        let* r_3 := bds10_fields.ReadModeSSubnetworkVersion data in
        let* r_4 := bds10_fields.ReadTransponderEnhancedProtocolIndicator data in
        let* r_5 := bds10_fields.ReadModeSSpecificServicesCapability data in
        let* r_6 := bds10_fields.ReadUplinkELMThroughputCapability data in
        let* r_7 := bds10_fields.ReadDownlinkELMThroughputCapability data in
        let* r_8 := bds10_fields.ReadAircraftIdentificationCapability data in
        let* r_9 := bds10_fields.ReadSquitterCapabilitySubfield data in
        let* r_10 := bds10_fields.ReadSurveillanceIdentifierCode data in
        let* r_11 := bds10_fields.ReadCommonUsageGICBCapability data in
        let* r_12 := bds10_fields.ReadACASHybridSurveillanceCapability data in
        let* r_13 := bds10_fields.ReadACASGenerationCapability data in
        let* r_14 := bds10_fields.ReadACASApplicableDocument data in
        let* r_15 := bds10_fields.ReadDTESubAddressStatuses data in
        Ok ({| DataLinkCapabilityReport_ContinuationFlag := r;
      DataLinkCapabilityReport_OverlayCommandCapability := r_1;
      DataLinkCapabilityReport_ACASStatus := r_2;
      DataLinkCapabilityReport_ModeSSubnetworkVersion := r_3;
      DataLinkCapabilityReport_TransponderEnhancedProtocolIndicator := r_4;
      DataLinkCapabilityReport_ModeSSpecificServicesCapability := r_5;
      DataLinkCapabilityReport_UplinkELMThroughputCapability := r_6;
      DataLinkCapabilityReport_DownlinkELMThroughputCapability := r_7;
      DataLinkCapabilityReport_AircraftIdentificationCapability := r_8;
      DataLinkCapabilityReport_SquitterCapabilitySubfield := r_9;
      DataLinkCapabilityReport_SurveillanceIdentifierCode := r_10;
      DataLinkCapabilityReport_CommonUsageGICBCapability := r_11;
      DataLinkCapabilityReport_ACASHybridSurveillanceCapability := r_12;
      DataLinkCapabilityReport_ACASGenerationCapability := r_13;
      DataLinkCapabilityReport_ACASApplicableDocument := r_14;
      DataLinkCapabilityReport_DTESubAddressStatuses := r_15 |}).
