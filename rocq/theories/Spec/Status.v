(* Specification of the ADS-B status messages: aircraft status (BDS 6,1, type 28), target
   state and status (BDS 6,2, type 29), operational status (BDS 6,5, type 31).
   Sources: Doc 9871 Tables B-2-97, B-2-98, C-2-98, A/B/C-2-101 and the sections B.2.3.8 to
   B.2.3.10, C.2.3.8 to C.2.3.10. Bits are counted from 1 in the 56-bit register. *)
From Verif Require Import GoBase Bits.
From Verif.Spec Require Import Floats Acas.
From Verif.Gen Require bds61 bds62 bds65 bds65_fields.
Local Open Scope Z_scope.

(* ---- BDS 6,1 ---- *)

(* bits 6-8 subtype; 9-11 emergency / priority status; 12-24 Mode A code; the rest is zero.
   Subtype 2: bits 9-56 (octets 2 to 7) are an ACAS resolution advisory report. *)
Inductive StatusOf (data : list Z) : bds61.AircraftStatus -> Prop :=
| status_none : bits 6 8 data = 0 -> bits 12 56 data = 0 ->
    StatusOf data (bds61.IAircraftStatus_AircraftStatusNoInformation
      {| bds61.AircraftStatusNoInformation_FormatTypeCode := bits 1 5 data;
         bds61.AircraftStatusNoInformation_Subtype := bits 6 8 data;
         bds61.AircraftStatusNoInformation_EmergencyPriorityStatus := bits 9 11 data |})
| status_emergency : bits 6 8 data = 1 -> bits 25 56 data = 0 ->
    StatusOf data (bds61.IAircraftStatus_AircraftStatusEmergency
      {| bds61.AircraftStatusEmergency_FormatTypeCode := bits 1 5 data;
         bds61.AircraftStatusEmergency_Subtype := bits 6 8 data;
         bds61.AircraftStatusEmergency_EmergencyPriorityStatus := bits 9 11 data;
         bds61.AircraftStatusEmergency_ModeACode := bits 12 24 data |})
| status_acas ra : bits 6 8 data = 2 -> Reports (octets 2 7 data) ra ->
    StatusOf data (bds61.IAircraftStatus_AircraftStatusACAS
      {| bds61.AircraftStatusACAS_FormatTypeCode := bits 1 5 data;
         bds61.AircraftStatusACAS_Subtype := bits 6 8 data;
         bds61.AircraftStatusACAS_ResolutionAdvisory := ra |}).

(* ---- BDS 6,2 ---- *)

(* subtype 0 (version 1). Target altitude: bits 16-25, 100 ft from -1000 to +100 000, codes
   above 1010 are invalid (status 2); target heading or track: bits 28-36, degrees, codes
   above 359 are invalid (status 2). The heading is a parameter, see TargetOf. *)
Definition target_state_0 (data : list Z) (heading heading_status : Z) : bds62.TargetStateAndStatus0 :=
  {| bds62.TargetStateAndStatus0_FormatTypeCode := bits 1 5 data;
     bds62.TargetStateAndStatus0_Subtype := bits 6 7 data;
     bds62.TargetStateAndStatus0_VerticalDataAvailableSourceIndicator := bits 8 9 data;
     bds62.TargetStateAndStatus0_TargetAltitudeType := bits 10 10 data;
     bds62.TargetStateAndStatus0_TargetAltitudeCapability := bits 12 13 data;
     bds62.TargetStateAndStatus0_VerticalModeIndicator := bits 14 15 data;
     bds62.TargetStateAndStatus0_TargetAltitudeStatus := if bits 16 25 data <=? 1010 then 1 else 2;
     bds62.TargetStateAndStatus0_TargetAltitude :=
       if bits 16 25 data <=? 1010 then 100 * bits 16 25 data - 1000 else 0;
     bds62.TargetStateAndStatus0_HorizontalDataAvailableSourceIndicator := bits 26 27 data;
     bds62.TargetStateAndStatus0_TargetHeadingTrackAngleStatus := heading_status;
     bds62.TargetStateAndStatus0_TargetHeadingTrackAngle := heading;
     bds62.TargetStateAndStatus0_TargetHeadingTrackIndicator := bits 37 37 data;
     bds62.TargetStateAndStatus0_HorizontalModeIndicator := bits 38 39 data;
     bds62.TargetStateAndStatus0_NavigationalAccuracyCategoryPosition := bits 40 43 data;
     bds62.TargetStateAndStatus0_NICBaro := bits 44 44 data;
     bds62.TargetStateAndStatus0_SurveillanceIntegrityLevel := bits 45 46 data;
     bds62.TargetStateAndStatus0_CapabilityModeCode := bits 52 53 data;
     bds62.TargetStateAndStatus0_EmergencyPriorityStatus := bits 54 56 data |}.

(* the heading or track coded by n *)
Definition target_heading (n : Z) : Z * Z := if n <=? 359 then (n, 1) else (0, 2).

(* subtype 1 (version 2), given the type of the altitude, the pressure and the heading *)
Definition target_state_1 (data : list Z) (altitude_type : Z) (pressure heading : f32) : bds62.TargetStateAndStatus1 :=
  {| bds62.TargetStateAndStatus1_FormatTypeCode := bits 1 5 data;
     bds62.TargetStateAndStatus1_Subtype := bits 6 7 data;
     bds62.TargetStateAndStatus1_SourceIntegrityLevelSupplement := bits 8 8 data;
     bds62.TargetStateAndStatus1_SelectedAltitudeType := altitude_type;
     (* status 0: no information, 1: regular value *)
     bds62.TargetStateAndStatus1_SelectedAltitudeStatus := if bits 10 20 data =? 0 then 0 else 1;
     bds62.TargetStateAndStatus1_SelectedAltitude :=
       if bits 10 20 data =? 0 then 0 else 32 * (bits 10 20 data - 1);
     bds62.TargetStateAndStatus1_BarometricPressureSettingStatus := if bits 21 29 data =? 0 then 0 else 1;
     bds62.TargetStateAndStatus1_BarometricPressureSetting := pressure;
     bds62.TargetStateAndStatus1_SelectedHeadingStatus := bits 30 30 data;
     bds62.TargetStateAndStatus1_SelectedHeading := heading;
     bds62.TargetStateAndStatus1_NavigationalAccuracyCategoryPosition := bits 40 43 data;
     bds62.TargetStateAndStatus1_NICBaro := bits 44 44 data;
     bds62.TargetStateAndStatus1_SourceIntegrityLevel := bits 45 46 data;
     bds62.TargetStateAndStatus1_StatusMCPFCUBits := bits 47 47 data;
     bds62.TargetStateAndStatus1_AutopilotEngaged := bit 48 data;
     bds62.TargetStateAndStatus1_VNAVModeEngaged := bit 49 data;
     bds62.TargetStateAndStatus1_AltitudeHoldModeEngaged := bit 50 data;
     bds62.TargetStateAndStatus1_ApproachModeEngaged := bit 52 data;
     bds62.TargetStateAndStatus1_TCASACASOperational := bit 53 data;
     bds62.TargetStateAndStatus1_LNAVModeEngaged := bit 54 data |}.

(* barometric pressure setting: 0 is no information, n is 800 + 0.8 (n-1) hPa *)
Definition pressure_hpa (n : Z) : Q := if n =? 0 then 0%Q else ((800 # 1) + (4 # 5) * inject_Z (n - 1))%Q.

(* selected heading: two's complement, LSB 180/256 degree; sign bit 31, bits 32-39 *)
Definition heading_degrees (negative : bool) (n : Z) : Q :=
  (inject_Z (if negative then n - 256 else n) * (180 # 256))%Q.

Inductive TargetOf (data : list Z) : bds62.TargetStateAndStatus -> Prop :=
| target_0 : bits 6 7 data = 0 -> bits 47 51 data = 0 ->
    TargetOf data (bds62.ITargetStateAndStatus_TargetStateAndStatus0
      (target_state_0 data (fst (target_heading (bits 28 36 data))) (snd (target_heading (bits 28 36 data)))))
| target_1 pressure heading : bits 6 7 data = 1 ->
    is_close pressure (pressure_hpa (bits 21 29 data)) (1 # 10000) ->
    is_value heading (heading_degrees (bit 31 data) (bits 32 39 data)) ->
    TargetOf data (bds62.ITargetStateAndStatus_TargetStateAndStatus1
      (target_state_1 data (bits 9 9 data) pressure heading)).

(* ---- BDS 6,5 ---- *)

Definition status_v0 (data : list Z) : bds65.AircraftOperationalStatusADSB0 :=
  {| bds65.AircraftOperationalStatusADSB0_FormatTypeCode := bits 1 5 data;
     bds65.AircraftOperationalStatusADSB0_Subtype := bits 6 8 data;
     bds65.AircraftOperationalStatusADSB0_EnRouteOperationalCapabilities := bits 9 12 data;
     bds65.AircraftOperationalStatusADSB0_EnRouteOperationalCapabilityStatus := bits 25 28 data;
     bds65.AircraftOperationalStatusADSB0_TerminalAreaOperationalCapabilities := bits 13 16 data;
     bds65.AircraftOperationalStatusADSB0_TerminalAreaOperationalCapabilityStatus := bits 29 32 data;
     bds65.AircraftOperationalStatusADSB0_ApproachLandingOperationalCapabilities := bits 17 20 data;
     bds65.AircraftOperationalStatusADSB0_ApproachLandingOperationalCapabilityStatus := bits 33 36 data;
     bds65.AircraftOperationalStatusADSB0_SurfaceOperationalCapabilities := bits 21 24 data;
     bds65.AircraftOperationalStatusADSB0_SurfaceOperationalCapabilityStatus := bits 37 40 data |}.

Definition operational_mode_v1 (data : list Z) : bds65_fields.OperationalMode :=
  {| bds65_fields.OperationalMode_ACASResolutionAdvisoryActive := bits 27 27 data;
     bds65_fields.OperationalMode_IdentSwitchActive := bits 28 28 data;
     bds65_fields.OperationalMode_ReceivingATCServices := bits 29 29 data |}.

Definition airborne_v1 (data : list Z) : bds65.AircraftOperationalStatusAirborneADSB1 :=
  {| bds65.AircraftOperationalStatusAirborneADSB1_FormatTypeCode := bits 1 5 data;
     bds65.AircraftOperationalStatusAirborneADSB1_Subtype := bits 6 8 data;
     bds65.AircraftOperationalStatusAirborneADSB1_AirborneCapabilityClass :=
       {| bds65_fields.AirborneCapabilityClassV1_NotACASStatus := bits 11 11 data;
          bds65_fields.AirborneCapabilityClassV1_CockpitDisplayOfTrafficInformationStatus := bits 12 12 data;
          bds65_fields.AirborneCapabilityClassV1_AirReferencedVelocityReportCapability := bits 15 15 data;
          bds65_fields.AirborneCapabilityClassV1_TargetStateReportCapability := bits 16 16 data;
          bds65_fields.AirborneCapabilityClassV1_TargetChangeReportCapability := bits 17 18 data |};
     bds65.AircraftOperationalStatusAirborneADSB1_OperationalMode := operational_mode_v1 data;
     bds65.AircraftOperationalStatusAirborneADSB1_VersionNumber := bits 41 43 data;
     bds65.AircraftOperationalStatusAirborneADSB1_NICSupplement := bits 44 44 data;
     bds65.AircraftOperationalStatusAirborneADSB1_NavigationalAccuracyCategoryPosition := bits 45 48 data;
     bds65.AircraftOperationalStatusAirborneADSB1_SurveillanceIntegrityLevel := bits 51 52 data;
     bds65.AircraftOperationalStatusAirborneADSB1_NICBaro := bits 53 53 data;
     bds65.AircraftOperationalStatusAirborneADSB1_HorizontalReferenceDirection := bits 54 54 data |}.

Definition surface_v1 (data : list Z) : bds65.AircraftOperationalStatusSurfaceADSB1 :=
  {| bds65.AircraftOperationalStatusSurfaceADSB1_FormatTypeCode := bits 1 5 data;
     bds65.AircraftOperationalStatusSurfaceADSB1_Subtype := bits 6 8 data;
     bds65.AircraftOperationalStatusSurfaceADSB1_SurfaceCapabilityClass :=
       {| bds65_fields.SurfaceCapabilityClassV1_PositionOffsetApplied := bits 11 11 data;
          bds65_fields.SurfaceCapabilityClassV1_CockpitDisplayOfTrafficInformationStatus := bits 12 12 data;
          bds65_fields.SurfaceCapabilityClassV1_B2Low := bits 15 15 data |};
     bds65.AircraftOperationalStatusSurfaceADSB1_LengthAndWidth := bits 21 24 data;
     bds65.AircraftOperationalStatusSurfaceADSB1_OperationalMode := operational_mode_v1 data;
     bds65.AircraftOperationalStatusSurfaceADSB1_VersionNumber := bits 41 43 data;
     bds65.AircraftOperationalStatusSurfaceADSB1_NICSupplement := bits 44 44 data;
     bds65.AircraftOperationalStatusSurfaceADSB1_NavigationalAccuracyCategoryPosition := bits 45 48 data;
     bds65.AircraftOperationalStatusSurfaceADSB1_SurveillanceIntegrityLevel := bits 51 52 data;
     bds65.AircraftOperationalStatusSurfaceADSB1_TrackAngleHeading := bits 53 53 data;
     bds65.AircraftOperationalStatusSurfaceADSB1_HorizontalReferenceDirection := bits 54 54 data |}.

Definition airborne_v2 (data : list Z) : bds65.AircraftOperationalStatusAirborneADSB2 :=
  {| bds65.AircraftOperationalStatusAirborneADSB2_FormatTypeCode := bits 1 5 data;
     bds65.AircraftOperationalStatusAirborneADSB2_Subtype := bits 6 8 data;
     bds65.AircraftOperationalStatusAirborneADSB2_AirborneCapabilityClass :=
       {| bds65_fields.AirborneCapabilityClassV2_ACASOperational := bits 11 11 data;
          bds65_fields.AirborneCapabilityClassV2_ExtendedSquitterIn := bits 12 12 data;
          bds65_fields.AirborneCapabilityClassV2_AirReferencedVelocityReportCapability := bits 15 15 data;
          bds65_fields.AirborneCapabilityClassV2_TargetStateReportCapability := bits 16 16 data;
          bds65_fields.AirborneCapabilityClassV2_TargetChangeReportCapability := bits 17 18 data;
          bds65_fields.AirborneCapabilityClassV2_UniversalAccessTransceiverCapability := bits 19 19 data |};
     bds65.AircraftOperationalStatusAirborneADSB2_OperationalMode :=
       {| bds65_fields.AirborneOperationalMode_ACASResolutionAdvisoryActive := bits 27 27 data;
          bds65_fields.AirborneOperationalMode_IdentSwitchActive := bits 28 28 data;
          bds65_fields.AirborneOperationalMode_SingleAntennaFlag := bits 30 30 data;
          bds65_fields.AirborneOperationalMode_SystemDesignAssurance := bits 31 32 data |};
     bds65.AircraftOperationalStatusAirborneADSB2_VersionNumber := bits 41 43 data;
     bds65.AircraftOperationalStatusAirborneADSB2_NICSupplementA := bits 44 44 data;
     bds65.AircraftOperationalStatusAirborneADSB2_NavigationalAccuracyCategoryPosition := bits 45 48 data;
     bds65.AircraftOperationalStatusAirborneADSB2_GeometricVerticalAccuracy := bits 49 50 data;
     bds65.AircraftOperationalStatusAirborneADSB2_SourceIntegrityLevel := bits 51 52 data;
     bds65.AircraftOperationalStatusAirborneADSB2_NICBaro := bits 53 53 data;
     bds65.AircraftOperationalStatusAirborneADSB2_HorizontalReferenceDirection := bits 54 54 data;
     bds65.AircraftOperationalStatusAirborneADSB2_SourceIntegrityLevelSupplement := bits 55 55 data |}.

Definition surface_v2 (data : list Z) : bds65.AircraftOperationalStatusSurfaceADSB2 :=
  {| bds65.AircraftOperationalStatusSurfaceADSB2_FormatTypeCode := bits 1 5 data;
     bds65.AircraftOperationalStatusSurfaceADSB2_Subtype := bits 6 8 data;
     bds65.AircraftOperationalStatusSurfaceADSB2_SurfaceCapabilityClass :=
       {| bds65_fields.SurfaceCapabilityClassV2_ExtendedSquitterIn := bits 12 12 data;
          bds65_fields.SurfaceCapabilityClassV2_B2Low := bits 15 15 data;
          bds65_fields.SurfaceCapabilityClassV2_UniversalAccessTransceiverCapability := bits 16 16 data;
          bds65_fields.SurfaceCapabilityClassV2_NavigationAccuracyCategoryVelocity := bits 17 19 data;
          bds65_fields.SurfaceCapabilityClassV2_NICSupplementC := bits 20 20 data |};
     bds65.AircraftOperationalStatusSurfaceADSB2_LengthAndWidth := bits 21 24 data;
     bds65.AircraftOperationalStatusSurfaceADSB2_OperationalMode :=
       {| bds65_fields.SurfaceOperationalMode_ACASResolutionAdvisoryActive := bits 27 27 data;
          bds65_fields.SurfaceOperationalMode_IdentSwitchActive := bits 28 28 data;
          bds65_fields.SurfaceOperationalMode_SingleAntennaFlag := bits 30 30 data;
          bds65_fields.SurfaceOperationalMode_SystemDesignAssurance := bits 31 32 data;
          bds65_fields.SurfaceOperationalMode_GPSAntenna :=
            {| bds65_fields.GPSAntenna_GPSAntennaLateral := bits 33 35 data;
               bds65_fields.GPSAntenna_GPSAntennaLongitudinal := bits 36 40 data |} |};
     bds65.AircraftOperationalStatusSurfaceADSB2_VersionNumber := bits 41 43 data;
     bds65.AircraftOperationalStatusSurfaceADSB2_NICSupplementA := bits 44 44 data;
     bds65.AircraftOperationalStatusSurfaceADSB2_NavigationalAccuracyCategoryPosition := bits 45 48 data;
     bds65.AircraftOperationalStatusSurfaceADSB2_SourceIntegrityLevel := bits 51 52 data;
     bds65.AircraftOperationalStatusSurfaceADSB2_TrackAngleHeading := bits 53 53 data;
     bds65.AircraftOperationalStatusSurfaceADSB2_HorizontalReferenceDirection := bits 54 54 data;
     bds65.AircraftOperationalStatusSurfaceADSB2_SourceIntegrityLevelSupplement := bits 55 55 data |}.

(* version: bits 41-43; subtype 0 airborne, 1 surface; the listed bits must be zero (reserved,
   or selectors of formats that are not defined) *)
Inductive OperationalOf (data : list Z) : bds65.AircraftOperationalStatus -> Prop :=
| op_v0 : bits 6 8 data = 0 -> bits 41 56 data = 0 ->
    OperationalOf data (bds65.IAircraftOperationalStatus_AircraftOperationalStatusADSB0 (status_v0 data))
| op_airborne_v1 : bits 41 43 data = 1 -> bits 6 8 data = 0 ->
    bits 9 10 data = 0 -> bits 13 14 data = 0 -> bits 25 26 data = 0 -> bits 49 50 data = 0 -> bits 55 56 data = 0 ->
    OperationalOf data (bds65.IAircraftOperationalStatus_AircraftOperationalStatusAirborneADSB1 (airborne_v1 data))
| op_surface_v1 : bits 41 43 data = 1 -> bits 6 8 data = 1 ->
    bits 9 10 data = 0 -> bits 13 14 data = 0 -> bits 25 26 data = 0 -> bits 49 50 data = 0 -> bits 55 56 data = 0 ->
    OperationalOf data (bds65.IAircraftOperationalStatus_AircraftOperationalStatusSurfaceADSB1 (surface_v1 data))
| op_airborne_v2 : bits 41 43 data = 2 -> bits 6 8 data = 0 ->
    bits 9 10 data = 0 -> bits 25 26 data = 0 -> bits 56 56 data = 0 ->
    OperationalOf data (bds65.IAircraftOperationalStatus_AircraftOperationalStatusAirborneADSB2 (airborne_v2 data))
| op_surface_v2 : bits 41 43 data = 2 -> bits 6 8 data = 1 ->
    bits 9 10 data = 0 -> bits 25 26 data = 0 -> bits 56 56 data = 0 ->
    OperationalOf data (bds65.IAircraftOperationalStatus_AircraftOperationalStatusSurfaceADSB2 (surface_v2 data)).
