(* What the library does where it departs from the standards: not the specification of
   the registers (Acas.v, Status.v, CommB.v, AdsbMessages.v), but that of the readers as
   they are. Bits are counted from 1. *)
From Verif Require Import GoBase Bits.
From Verif.Spec Require Import Floats Altitude Acas Status CommB Adsb AdsbMessages.
From Verif.Gen Require acas_ra acas_ra_fields bds10 bds30 bds61 bds62 bds40 bds44 adsb_surface_position adsb_surface_position_fields.
Require Import String.
Local Open Scope Z_scope.

(* ---- the altitude of a threat: bits 23-35, C1 A1 C2 A2 C4 A4 0 B1 D1 B2 D2 B4 D4. The
   pulses C1 and A1 are added at the place of B2 and D2, instead of being put before C2;
   the sum is then read as C1 A1 C2 A2 C4 A4 B1 D1 B2 D2 B4 D4. *)
Definition threat_code (data : list Z) : Z :=
  64 * bits 25 28 data + bits 30 35 data + 4 * bits 23 24 data.

Inductive ThreatAltitudeRead (data : list Z) : acas_ra_fields.ThreatIdentityAltitude -> Prop :=
| no_altitude_read : threat_code data = 0 ->
    ThreatAltitudeRead data
      {| acas_ra_fields.ThreatIdentityAltitude_AltitudeStatus := acas_ra_fields.AltitudeInvalid;
         acas_ra_fields.ThreatIdentityAltitude_AltitudeInFeet := 0 |}
| altitude_read feet : threat_code data <> 0 ->
    (let pulse := Z.testbit (threat_code data) in
     Gillham (pulse 4) (pulse 2) (pulse 0) (pulse 10) (pulse 8) (pulse 6)
             (pulse 5) (pulse 3) (pulse 1) (pulse 11) (pulse 9) (pulse 7) feet) ->
    ThreatAltitudeRead data
      {| acas_ra_fields.ThreatIdentityAltitude_AltitudeStatus := acas_ra_fields.AltitudeValid;
         acas_ra_fields.ThreatIdentityAltitude_AltitudeInFeet := feet |}.

(* the advisory: the last bit (42) of the range (36-42) is always read as zero *)
Inductive AdvisoryRead (data : list Z) : acas_ra.ResolutionAdvisory -> Prop :=
| advisory_no_identity : bits 21 22 data = 0 \/ bits 21 22 data = 3 ->
    AdvisoryRead data (report data None None None None)
| advisory_mode_s : bits 21 22 data = 1 ->
    AdvisoryRead data (report data (Some (bits 23 46 data)) None None None)
| advisory_arb alt : bits 21 22 data = 2 -> ThreatAltitudeRead data alt ->
    AdvisoryRead data (report data None (Some alt) (Some (2 * bits 36 41 data)) (Some (bits 43 48 data))).

(* ---- BDS 6,1: the reserved bits 17-56 of the subtype 0 are not checked *)
Inductive StatusRead (data : list Z) : bds61.AircraftStatus -> Prop :=
| read_status_none : bits 6 8 data = 0 -> bits 12 16 data = 0 ->
    StatusRead data (bds61.IAircraftStatus_AircraftStatusNoInformation
      {| bds61.AircraftStatusNoInformation_FormatTypeCode := bits 1 5 data;
         bds61.AircraftStatusNoInformation_Subtype := bits 6 8 data;
         bds61.AircraftStatusNoInformation_EmergencyPriorityStatus := bits 9 11 data |})
| read_status_emergency : bits 6 8 data = 1 -> bits 25 56 data = 0 ->
    StatusRead data (bds61.IAircraftStatus_AircraftStatusEmergency
      {| bds61.AircraftStatusEmergency_FormatTypeCode := bits 1 5 data;
         bds61.AircraftStatusEmergency_Subtype := bits 6 8 data;
         bds61.AircraftStatusEmergency_EmergencyPriorityStatus := bits 9 11 data;
         bds61.AircraftStatusEmergency_ModeACode := bits 12 24 data |})
| read_status_acas ra : bits 6 8 data = 2 -> AdvisoryRead (octets 2 7 data) ra ->
    StatusRead data (bds61.IAircraftStatus_AircraftStatusACAS
      {| bds61.AircraftStatusACAS_FormatTypeCode := bits 1 5 data;
         bds61.AircraftStatusACAS_Subtype := bits 6 8 data;
         bds61.AircraftStatusACAS_ResolutionAdvisory := ra |}).

(* ---- BDS 6,2. Subtype 0: the last four bits of the heading (28-36) are those of the bits
   17-20. Subtype 1: the type of the altitude (bit 9) is that of bit 8, the heading (31-39)
   is read as a sign and a magnitude *)
Definition magnitude_degrees (negative : bool) (n : Z) : Q :=
  if negative then (- (inject_Z n * (180 # 256)))%Q else (inject_Z n * (180 # 256))%Q.

Inductive TargetRead (data : list Z) : bds62.TargetStateAndStatus -> Prop :=
| read_target_0 heading status : bits 6 7 data = 0 -> bits 47 51 data = 0 ->
    target_heading (16 * bits 28 32 data + bits 17 20 data) = (heading, status) ->
    TargetRead data (bds62.ITargetStateAndStatus_TargetStateAndStatus0 (target_state_0 data heading status))
| read_target_1 pressure heading : bits 6 7 data = 1 ->
    is_close pressure (pressure_hpa (bits 21 29 data)) (1 # 10000) ->
    is_value heading (magnitude_degrees (bit 31 data) (bits 32 39 data)) ->
    TargetRead data (bds62.ITargetStateAndStatus_TargetStateAndStatus1
      (target_state_1 data (bits 8 8 data) pressure heading)).

(* ---- BDS 4,0: each altitude is read at the place of the other, and the status of the
   pressure is that of the first altitude *)
Inductive IntentionRead (data : list Z) : bds40.SelectedVerticalIntention -> Prop :=
| intention_read pressure : recognised_40 data ->
    is_close pressure (setting_hpa (bits 28 39 data)) (1 # 10000) ->
    IntentionRead data (intention data (16 * bits 15 26 data) (16 * bits 2 13 data) (bit 1 data) pressure).

(* ---- BDS 4,4: the first bit (6) of the wind speed (6-14) is not read *)
Inductive RoutineRead (data : list Z) : bds44.MeteorologicalRoutineAirReport -> Prop :=
| routine_read_v1 direction temperature humidity : bits 1 4 data = 0 ->
    is_value direction (inject_Z (bits 16 23 data) * (180 # 128)) ->
    is_value temperature (inject_Z (signed 25 35 data) * (1 # 8)) ->
    is_value humidity (inject_Z (bits 50 56 data)) ->
    RoutineRead data (bds44.IMeteorologicalRoutineAirReport_MeteorologicalRoutineAirReportV1
      (routine_v1 data (bits 7 14 data) direction temperature humidity))
| routine_read_v2 direction temperature humidity : 1 <= bits 1 4 data <= 4 ->
    is_value direction (inject_Z (bits 16 23 data) * (180 # 128)) ->
    is_value temperature (inject_Z (signed 25 35 data) * (1 # 8)) ->
    is_value humidity (inject_Z (bits 50 56 data)) ->
    RoutineRead data (bds44.IMeteorologicalRoutineAirReport_MeteorologicalRoutineAirReportV2
      (routine_v2 data (bits 7 14 data) direction temperature humidity)).

(* the older format: the sign (24) of the temperature (24-34) is taken from bit 32, one of
   its bits *)
Definition temperature_v0 (negative : bool) (n : Z) : Q :=
  if negative then (inject_Z n * (1 # 4) - 128)%Q else (inject_Z n * (1 # 4))%Q.

Inductive RoutineReadV0 (data : list Z) : bds44.MeteorologicalRoutineAirReportV0 -> Prop :=
| routine_read_v0 direction temperature humidity :
    is_value direction (inject_Z (bits 15 23 data) * (180 # 256)) ->
    is_value temperature (temperature_v0 (bit 32 data) (bits 25 34 data)) ->
    is_value humidity (inject_Z (bits 51 56 data) * (100 # 64)) ->
    RoutineReadV0 data (routine_v0 data (bits 7 14 data) direction temperature humidity).

(* ---- surface position of type 7, for version 1 without the supplement: the category
   of a radius below 0.1 NM, with the text of a greater one *)
Inductive SurfaceRead7 (data : list Z) : adsb_surface_position.Message -> Prop :=
| surface_read_7 p hcr : surface_position data p ->
    adsb_surface_position_fields.HorizontalContainmentRadiusV1_ToString hcr = "Rc >= 0.1 NM (185.2 m) or unknown"%string ->
    SurfaceRead7 data (adsb_surface_position.IMessage_SurfacePositionV1
      {| adsb_surface_position.SurfacePositionV1_SurfacePosition := p;
         adsb_surface_position.SurfacePositionV1_nicSupplementA := false;
         adsb_surface_position.SurfacePositionV1_HorizontalContainmentRadius := hcr;
         adsb_surface_position.SurfacePositionV1_NavigationIntegrityCategory := 8 |}).

(* ---- texts: the sense of an advisory and the continuation flag of the register 1,0 are
   not printed *)
Definition with_sense (s : Z) (a : acas_ra.ResolutionAdvisory) : acas_ra.ResolutionAdvisory :=
  {| acas_ra.ResolutionAdvisory_ActiveRA :=
       match acas_ra.ResolutionAdvisory_ActiveRA a with
       | acas_ra_fields.IActiveResolutionAdvisory_ActiveRAOneThreatOrSameSeparation x =>
           acas_ra_fields.IActiveResolutionAdvisory_ActiveRAOneThreatOrSameSeparation
             {| acas_ra_fields.ActiveRAOneThreatOrSameSeparation_PreventiveCorrective :=
                  acas_ra_fields.ActiveRAOneThreatOrSameSeparation_PreventiveCorrective x;
                acas_ra_fields.ActiveRAOneThreatOrSameSeparation_Sense := s;
                acas_ra_fields.ActiveRAOneThreatOrSameSeparation_IsIncreasedRate :=
                  acas_ra_fields.ActiveRAOneThreatOrSameSeparation_IsIncreasedRate x;
                acas_ra_fields.ActiveRAOneThreatOrSameSeparation_IsSenseReversal :=
                  acas_ra_fields.ActiveRAOneThreatOrSameSeparation_IsSenseReversal x;
                acas_ra_fields.ActiveRAOneThreatOrSameSeparation_IsAltitudeCrossing :=
                  acas_ra_fields.ActiveRAOneThreatOrSameSeparation_IsAltitudeCrossing x;
                acas_ra_fields.ActiveRAOneThreatOrSameSeparation_VerticalSpeedLimitOrPositive :=
                  acas_ra_fields.ActiveRAOneThreatOrSameSeparation_VerticalSpeedLimitOrPositive x |}
       | other => other
       end;
     acas_ra.ResolutionAdvisory_RAComplement := acas_ra.ResolutionAdvisory_RAComplement a;
     acas_ra.ResolutionAdvisory_RATerminatedIndicator := acas_ra.ResolutionAdvisory_RATerminatedIndicator a;
     acas_ra.ResolutionAdvisory_MultipleThreatEncounter := acas_ra.ResolutionAdvisory_MultipleThreatEncounter a;
     acas_ra.ResolutionAdvisory_ThreatTypeIndicator := acas_ra.ResolutionAdvisory_ThreatTypeIndicator a;
     acas_ra.ResolutionAdvisory_ThreatIdentityAddress := acas_ra.ResolutionAdvisory_ThreatIdentityAddress a;
     acas_ra.ResolutionAdvisory_ThreatIdentityAltitude := acas_ra.ResolutionAdvisory_ThreatIdentityAltitude a;
     acas_ra.ResolutionAdvisory_ThreatIdentityRange := acas_ra.ResolutionAdvisory_ThreatIdentityRange a;
     acas_ra.ResolutionAdvisory_ThreatIdentityBearing := acas_ra.ResolutionAdvisory_ThreatIdentityBearing a |}.

Definition with_continuation (c : Z) (m : bds10.DataLinkCapabilityReport) : bds10.DataLinkCapabilityReport :=
  {| bds10.DataLinkCapabilityReport_ContinuationFlag := c;
     bds10.DataLinkCapabilityReport_OverlayCommandCapability := bds10.DataLinkCapabilityReport_OverlayCommandCapability m;
     bds10.DataLinkCapabilityReport_ACASStatus := bds10.DataLinkCapabilityReport_ACASStatus m;
     bds10.DataLinkCapabilityReport_ModeSSubnetworkVersion := bds10.DataLinkCapabilityReport_ModeSSubnetworkVersion m;
     bds10.DataLinkCapabilityReport_TransponderEnhancedProtocolIndicator := bds10.DataLinkCapabilityReport_TransponderEnhancedProtocolIndicator m;
     bds10.DataLinkCapabilityReport_ModeSSpecificServicesCapability := bds10.DataLinkCapabilityReport_ModeSSpecificServicesCapability m;
     bds10.DataLinkCapabilityReport_UplinkELMThroughputCapability := bds10.DataLinkCapabilityReport_UplinkELMThroughputCapability m;
     bds10.DataLinkCapabilityReport_DownlinkELMThroughputCapability := bds10.DataLinkCapabilityReport_DownlinkELMThroughputCapability m;
     bds10.DataLinkCapabilityReport_AircraftIdentificationCapability := bds10.DataLinkCapabilityReport_AircraftIdentificationCapability m;
     bds10.DataLinkCapabilityReport_SquitterCapabilitySubfield := bds10.DataLinkCapabilityReport_SquitterCapabilitySubfield m;
     bds10.DataLinkCapabilityReport_SurveillanceIdentifierCode := bds10.DataLinkCapabilityReport_SurveillanceIdentifierCode m;
     bds10.DataLinkCapabilityReport_CommonUsageGICBCapability := bds10.DataLinkCapabilityReport_CommonUsageGICBCapability m;
     bds10.DataLinkCapabilityReport_ACASHybridSurveillanceCapability := bds10.DataLinkCapabilityReport_ACASHybridSurveillanceCapability m;
     bds10.DataLinkCapabilityReport_ACASGenerationCapability := bds10.DataLinkCapabilityReport_ACASGenerationCapability m;
     bds10.DataLinkCapabilityReport_ACASApplicableDocument := bds10.DataLinkCapabilityReport_ACASApplicableDocument m;
     bds10.DataLinkCapabilityReport_DTESubAddressStatuses := bds10.DataLinkCapabilityReport_DTESubAddressStatuses m |}.
