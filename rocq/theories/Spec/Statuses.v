(* The squitters that tell the state of an aircraft: target state and status (type 29), operational status (type 31), written
   field by field (Doc 9871 Tables B-2-98, C-2-98, A-2-101, B-2-101, C-2-101), and what the library must tell. *)
From Verif Require Import GoBase Bits.
From Verif.Spec Require Import Floats Identification Squitter Reply Payloads.
From Verif.Gen Require bds62 bds65 bds65_fields.
Local Open Scope Z_scope.

(* ---- target state, version 1 (subtype 0) ----
   source of the vertical data, type of the target altitude, capability, vertical mode, target altitude in hundreds of feet
   (from -10 to 1000), source of the horizontal data, target heading or track in degrees, which of the two, horizontal mode,
   accuracy of the position, integrity of the altitude and of the position, capability and mode codes, emergency *)
Definition target_1 (vsource type capability vmode altitude hsource heading indicator hmode nacp baro sil codes emergency : Z) : list field :=
  [(5, 29); (2, 0); (2, vsource); (1, type); (1, 0); (2, capability); (2, vmode); (10, altitude + 10); (2, hsource); (9, heading);
   (1, indicator); (2, hmode); (4, nacp); (1, baro); (2, sil); (5, 0); (2, codes); (3, emergency)].

(* what is told, given the heading told and its status *)
Definition target_told_1 (vsource type capability vmode altitude hsource heading heading_status indicator hmode nacp baro sil codes emergency : Z) : bds62.TargetStateAndStatus0 :=
  {| bds62.TargetStateAndStatus0_FormatTypeCode := 29;
     bds62.TargetStateAndStatus0_Subtype := 0;
     bds62.TargetStateAndStatus0_VerticalDataAvailableSourceIndicator := vsource;
     bds62.TargetStateAndStatus0_TargetAltitudeType := type;
     bds62.TargetStateAndStatus0_TargetAltitudeCapability := capability;
     bds62.TargetStateAndStatus0_VerticalModeIndicator := vmode;
     bds62.TargetStateAndStatus0_TargetAltitudeStatus := 1;
     bds62.TargetStateAndStatus0_TargetAltitude := 100 * altitude;
     bds62.TargetStateAndStatus0_HorizontalDataAvailableSourceIndicator := hsource;
     bds62.TargetStateAndStatus0_TargetHeadingTrackAngleStatus := heading_status;
     bds62.TargetStateAndStatus0_TargetHeadingTrackAngle := heading;
     bds62.TargetStateAndStatus0_TargetHeadingTrackIndicator := indicator;
     bds62.TargetStateAndStatus0_HorizontalModeIndicator := hmode;
     bds62.TargetStateAndStatus0_NavigationalAccuracyCategoryPosition := nacp;
     bds62.TargetStateAndStatus0_NICBaro := baro;
     bds62.TargetStateAndStatus0_SurveillanceIntegrityLevel := sil;
     bds62.TargetStateAndStatus0_CapabilityModeCode := codes;
     bds62.TargetStateAndStatus0_EmergencyPriorityStatus := emergency |}.

(* ---- target state, version 2 (subtype 1) ----
   a number of which zero means that it is not known: one more than its value *)
Definition from_one (w : Z) (v : option Z) : list field := [(w, match v with Some z => z + 1 | None => 0 end)].

(* integrity supplement, whether the selected altitude is from the flight management system, selected altitude (32 ft), pressure
   setting (0.8 hPa above 800), selected heading (180/256 degree, signed), accuracy of the position, integrity of the
   altitude and of the position, whether the modes are known, autopilot, vertical navigation, altitude hold, adapted flag,
   approach, TCAS, lateral navigation *)
Definition target_2 (sils fms : bool) (altitude pressure heading : option Z) (nacp baro sil : Z) (modes autopilot vnav hold adapted approach tcas lnav : bool) : list field :=
  [(5, 29); (2, 1); (1, flag sils); (1, flag fms)] ++ from_one 11 altitude ++ from_one 9 pressure ++ optional_signed 9 heading ++
  [(4, nacp); (1, baro); (2, sil); (1, flag modes); (1, flag autopilot); (1, flag vnav); (1, flag hold); (1, flag adapted);
   (1, flag approach); (1, flag tcas); (1, flag lnav); (2, 0)].

(* what is told, given the kind of altitude, the pressure and the heading told *)
Definition target_told_2 (sils fms : bool) (altitude : option Z) (pressure_known : bool) (pressure : f32) (heading_known : bool) (heading : f32)
  (nacp baro sil : Z) (modes autopilot vnav hold approach tcas lnav : bool) : bds62.TargetStateAndStatus1 :=
  {| bds62.TargetStateAndStatus1_FormatTypeCode := 29;
     bds62.TargetStateAndStatus1_Subtype := 1;
     bds62.TargetStateAndStatus1_SourceIntegrityLevelSupplement := flag sils;
     bds62.TargetStateAndStatus1_SelectedAltitudeType := flag fms;
     bds62.TargetStateAndStatus1_SelectedAltitudeStatus := flag (known altitude);
     bds62.TargetStateAndStatus1_SelectedAltitude := 32 * value altitude;
     bds62.TargetStateAndStatus1_BarometricPressureSettingStatus := flag pressure_known;
     bds62.TargetStateAndStatus1_BarometricPressureSetting := pressure;
     bds62.TargetStateAndStatus1_SelectedHeadingStatus := flag heading_known;
     bds62.TargetStateAndStatus1_SelectedHeading := heading;
     bds62.TargetStateAndStatus1_NavigationalAccuracyCategoryPosition := nacp;
     bds62.TargetStateAndStatus1_NICBaro := baro;
     bds62.TargetStateAndStatus1_SourceIntegrityLevel := sil;
     bds62.TargetStateAndStatus1_StatusMCPFCUBits := flag modes;
     bds62.TargetStateAndStatus1_AutopilotEngaged := autopilot;
     bds62.TargetStateAndStatus1_VNAVModeEngaged := vnav;
     bds62.TargetStateAndStatus1_AltitudeHoldModeEngaged := hold;
     bds62.TargetStateAndStatus1_ApproachModeEngaged := approach;
     bds62.TargetStateAndStatus1_TCASACASOperational := tcas;
     bds62.TargetStateAndStatus1_LNAVModeEngaged := lnav |}.

(* ---- operational status ---- *)
(* version 0 *)
Definition status_0 (en_route terminal approach surface en_route_status terminal_status approach_status surface_status : Z) : list field :=
  [(5, 31); (3, 0); (4, en_route); (4, terminal); (4, approach); (4, surface); (4, en_route_status); (4, terminal_status);
   (4, approach_status); (4, surface_status); (16, 0)].

Definition told_0 (en_route terminal approach surface en_route_status terminal_status approach_status surface_status : Z) : bds65.AircraftOperationalStatusADSB0 :=
  {| bds65.AircraftOperationalStatusADSB0_FormatTypeCode := 31;
     bds65.AircraftOperationalStatusADSB0_Subtype := 0;
     bds65.AircraftOperationalStatusADSB0_EnRouteOperationalCapabilities := en_route;
     bds65.AircraftOperationalStatusADSB0_EnRouteOperationalCapabilityStatus := en_route_status;
     bds65.AircraftOperationalStatusADSB0_TerminalAreaOperationalCapabilities := terminal;
     bds65.AircraftOperationalStatusADSB0_TerminalAreaOperationalCapabilityStatus := terminal_status;
     bds65.AircraftOperationalStatusADSB0_ApproachLandingOperationalCapabilities := approach;
     bds65.AircraftOperationalStatusADSB0_ApproachLandingOperationalCapabilityStatus := approach_status;
     bds65.AircraftOperationalStatusADSB0_SurfaceOperationalCapabilities := surface;
     bds65.AircraftOperationalStatusADSB0_SurfaceOperationalCapabilityStatus := surface_status |}.

(* version 1, in flight *)
Definition airborne_status_1 (not_acas cdti arv ts tc ra ident atc nic nacp sil baro hrd : Z) : list field :=
  [(5, 31); (3, 0); (2, 0); (1, not_acas); (1, cdti); (2, 0); (1, arv); (1, ts); (2, tc); (6, 0); (2, 0); (1, ra); (1, ident);
   (1, atc); (11, 0); (3, 1); (1, nic); (4, nacp); (2, 0); (2, sil); (1, baro); (1, hrd); (2, 0)].

Definition airborne_told_1 (not_acas cdti arv ts tc ra ident atc nic nacp sil baro hrd : Z) : bds65.AircraftOperationalStatusAirborneADSB1 :=
  {| bds65.AircraftOperationalStatusAirborneADSB1_FormatTypeCode := 31;
     bds65.AircraftOperationalStatusAirborneADSB1_Subtype := 0;
     bds65.AircraftOperationalStatusAirborneADSB1_AirborneCapabilityClass :=
       {| bds65_fields.AirborneCapabilityClassV1_NotACASStatus := not_acas;
          bds65_fields.AirborneCapabilityClassV1_CockpitDisplayOfTrafficInformationStatus := cdti;
          bds65_fields.AirborneCapabilityClassV1_AirReferencedVelocityReportCapability := arv;
          bds65_fields.AirborneCapabilityClassV1_TargetStateReportCapability := ts;
          bds65_fields.AirborneCapabilityClassV1_TargetChangeReportCapability := tc |};
     bds65.AircraftOperationalStatusAirborneADSB1_OperationalMode := {| bds65_fields.OperationalMode_ACASResolutionAdvisoryActive := ra;
     bds65_fields.OperationalMode_IdentSwitchActive := ident;
     bds65_fields.OperationalMode_ReceivingATCServices := atc |};
     bds65.AircraftOperationalStatusAirborneADSB1_VersionNumber := 1;
     bds65.AircraftOperationalStatusAirborneADSB1_NICSupplement := nic;
     bds65.AircraftOperationalStatusAirborneADSB1_NavigationalAccuracyCategoryPosition := nacp;
     bds65.AircraftOperationalStatusAirborneADSB1_SurveillanceIntegrityLevel := sil;
     bds65.AircraftOperationalStatusAirborneADSB1_NICBaro := baro;
     bds65.AircraftOperationalStatusAirborneADSB1_HorizontalReferenceDirection := hrd |}.

(* version 1, on the ground *)
Definition surface_status_1 (offset cdti b2low size ra ident atc nic nacp sil track hrd : Z) : list field :=
  [(5, 31); (3, 1); (2, 0); (1, offset); (1, cdti); (2, 0); (1, b2low); (5, 0); (4, size); (2, 0); (1, ra); (1, ident); (1, atc);
   (11, 0); (3, 1); (1, nic); (4, nacp); (2, 0); (2, sil); (1, track); (1, hrd); (2, 0)].

Definition surface_told_1 (offset cdti b2low size ra ident atc nic nacp sil track hrd : Z) : bds65.AircraftOperationalStatusSurfaceADSB1 :=
  {| bds65.AircraftOperationalStatusSurfaceADSB1_FormatTypeCode := 31;
     bds65.AircraftOperationalStatusSurfaceADSB1_Subtype := 1;
     bds65.AircraftOperationalStatusSurfaceADSB1_SurfaceCapabilityClass :=
       {| bds65_fields.SurfaceCapabilityClassV1_PositionOffsetApplied := offset;
          bds65_fields.SurfaceCapabilityClassV1_CockpitDisplayOfTrafficInformationStatus := cdti;
          bds65_fields.SurfaceCapabilityClassV1_B2Low := b2low |};
     bds65.AircraftOperationalStatusSurfaceADSB1_LengthAndWidth := size;
     bds65.AircraftOperationalStatusSurfaceADSB1_OperationalMode := {| bds65_fields.OperationalMode_ACASResolutionAdvisoryActive := ra;
     bds65_fields.OperationalMode_IdentSwitchActive := ident;
     bds65_fields.OperationalMode_ReceivingATCServices := atc |};
     bds65.AircraftOperationalStatusSurfaceADSB1_VersionNumber := 1;
     bds65.AircraftOperationalStatusSurfaceADSB1_NICSupplement := nic;
     bds65.AircraftOperationalStatusSurfaceADSB1_NavigationalAccuracyCategoryPosition := nacp;
     bds65.AircraftOperationalStatusSurfaceADSB1_SurveillanceIntegrityLevel := sil;
     bds65.AircraftOperationalStatusSurfaceADSB1_TrackAngleHeading := track;
     bds65.AircraftOperationalStatusSurfaceADSB1_HorizontalReferenceDirection := hrd |}.

(* version 2, in flight *)
Definition airborne_status_2 (acas es_in arv ts tc uat ra ident antenna sda nic nacp gva sil baro hrd sils : Z) : list field :=
  [(5, 31); (3, 0); (2, 0); (1, acas); (1, es_in); (2, 0); (1, arv); (1, ts); (2, tc); (1, uat); (5, 0); (2, 0); (1, ra);
   (1, ident); (1, 0); (1, antenna); (2, sda); (8, 0); (3, 2); (1, nic); (4, nacp); (2, gva); (2, sil); (1, baro); (1, hrd);
   (1, sils); (1, 0)].

Definition airborne_told_2 (acas es_in arv ts tc uat ra ident antenna sda nic nacp gva sil baro hrd sils : Z) : bds65.AircraftOperationalStatusAirborneADSB2 :=
  {| bds65.AircraftOperationalStatusAirborneADSB2_FormatTypeCode := 31;
     bds65.AircraftOperationalStatusAirborneADSB2_Subtype := 0;
     bds65.AircraftOperationalStatusAirborneADSB2_AirborneCapabilityClass :=
       {| bds65_fields.AirborneCapabilityClassV2_ACASOperational := acas;
          bds65_fields.AirborneCapabilityClassV2_ExtendedSquitterIn := es_in;
          bds65_fields.AirborneCapabilityClassV2_AirReferencedVelocityReportCapability := arv;
          bds65_fields.AirborneCapabilityClassV2_TargetStateReportCapability := ts;
          bds65_fields.AirborneCapabilityClassV2_TargetChangeReportCapability := tc;
          bds65_fields.AirborneCapabilityClassV2_UniversalAccessTransceiverCapability := uat |};
     bds65.AircraftOperationalStatusAirborneADSB2_OperationalMode :=
       {| bds65_fields.AirborneOperationalMode_ACASResolutionAdvisoryActive := ra;
          bds65_fields.AirborneOperationalMode_IdentSwitchActive := ident;
          bds65_fields.AirborneOperationalMode_SingleAntennaFlag := antenna;
          bds65_fields.AirborneOperationalMode_SystemDesignAssurance := sda |};
     bds65.AircraftOperationalStatusAirborneADSB2_VersionNumber := 2;
     bds65.AircraftOperationalStatusAirborneADSB2_NICSupplementA := nic;
     bds65.AircraftOperationalStatusAirborneADSB2_NavigationalAccuracyCategoryPosition := nacp;
     bds65.AircraftOperationalStatusAirborneADSB2_GeometricVerticalAccuracy := gva;
     bds65.AircraftOperationalStatusAirborneADSB2_SourceIntegrityLevel := sil;
     bds65.AircraftOperationalStatusAirborneADSB2_NICBaro := baro;
     bds65.AircraftOperationalStatusAirborneADSB2_HorizontalReferenceDirection := hrd;
     bds65.AircraftOperationalStatusAirborneADSB2_SourceIntegrityLevelSupplement := sils |}.

(* version 2, on the ground *)
Definition surface_status_2 (es_in b2low uat nacv nic_c size ra ident antenna sda lateral longitudinal nic nacp sil track hrd sils : Z) : list field :=
  [(5, 31); (3, 1); (2, 0); (1, 0); (1, es_in); (2, 0); (1, b2low); (1, uat); (3, nacv); (1, nic_c); (4, size); (2, 0); (1, ra);
   (1, ident); (1, 0); (1, antenna); (2, sda); (3, lateral); (5, longitudinal); (3, 2); (1, nic); (4, nacp); (2, 0); (2, sil);
   (1, track); (1, hrd); (1, sils); (1, 0)].

Definition surface_told_2 (es_in b2low uat nacv nic_c size ra ident antenna sda lateral longitudinal nic nacp sil track hrd sils : Z) : bds65.AircraftOperationalStatusSurfaceADSB2 :=
  {| bds65.AircraftOperationalStatusSurfaceADSB2_FormatTypeCode := 31;
     bds65.AircraftOperationalStatusSurfaceADSB2_Subtype := 1;
     bds65.AircraftOperationalStatusSurfaceADSB2_SurfaceCapabilityClass :=
       {| bds65_fields.SurfaceCapabilityClassV2_ExtendedSquitterIn := es_in;
          bds65_fields.SurfaceCapabilityClassV2_B2Low := b2low;
          bds65_fields.SurfaceCapabilityClassV2_UniversalAccessTransceiverCapability := uat;
          bds65_fields.SurfaceCapabilityClassV2_NavigationAccuracyCategoryVelocity := nacv;
          bds65_fields.SurfaceCapabilityClassV2_NICSupplementC := nic_c |};
     bds65.AircraftOperationalStatusSurfaceADSB2_LengthAndWidth := size;
     bds65.AircraftOperationalStatusSurfaceADSB2_OperationalMode :=
       {| bds65_fields.SurfaceOperationalMode_ACASResolutionAdvisoryActive := ra;
          bds65_fields.SurfaceOperationalMode_IdentSwitchActive := ident;
          bds65_fields.SurfaceOperationalMode_SingleAntennaFlag := antenna;
          bds65_fields.SurfaceOperationalMode_SystemDesignAssurance := sda;
          bds65_fields.SurfaceOperationalMode_GPSAntenna :=
            {| bds65_fields.GPSAntenna_GPSAntennaLateral := lateral;
               bds65_fields.GPSAntenna_GPSAntennaLongitudinal := longitudinal |} |};
     bds65.AircraftOperationalStatusSurfaceADSB2_VersionNumber := 2;
     bds65.AircraftOperationalStatusSurfaceADSB2_NICSupplementA := nic;
     bds65.AircraftOperationalStatusSurfaceADSB2_NavigationalAccuracyCategoryPosition := nacp;
     bds65.AircraftOperationalStatusSurfaceADSB2_SourceIntegrityLevel := sil;
     bds65.AircraftOperationalStatusSurfaceADSB2_TrackAngleHeading := track;
     bds65.AircraftOperationalStatusSurfaceADSB2_HorizontalReferenceDirection := hrd;
     bds65.AircraftOperationalStatusSurfaceADSB2_SourceIntegrityLevelSupplement := sils |}.
