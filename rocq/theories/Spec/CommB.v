(* Specification of the Comm-B registers: the fields of the 56-bit message field MB at their
   positions in Doc 9871, counted from 1.
   Sources: Doc 9871 Tables A-2-7, A-2-16, A-2-23, A-2-32, A-2-48, A-2-64, A-2-80, A-2-96 and,
   for the meteorological registers, A-2-69, E-2-68 and E-2-69. *)
From Verif Require Import GoBase Bits.
From Verif.Spec Require Import Floats Acas Identification.
From Verif.Gen Require bds00 bds07 bds10 bds17 bds20 bds30 bds40 bds44 bds45 bds50 bds60.
Local Open Scope Z_scope.

(* two's complement number: sign in bit i, magnitude in bits i+1 to j *)
Definition signed (i j : Z) (data : list Z) : Z :=
  bits (i + 1) j data - (if bit i data then 2 ^ (j - i) else 0).

(* "the status bit says that the field is absent": then the field must be zero *)
Definition absent_is_zero (status : Z) (i j : Z) (data : list Z) : Prop :=
  bit status data = false -> bits i j data = 0.

(* ---- BDS 0,0: no information ---- *)
Definition recognised_00 (data : list Z) : Prop := bits 1 56 data = 0.

(* ---- BDS 0,7: GICB capability status: 1-2 transmission rate, 3 altitude type, the rest is
   reserved. The rate 3 is not a value of the field. ---- *)
Definition recognised_07 (data : list Z) : Prop := bits 4 56 data = 0.

Definition status_07 (data : list Z) : bds07.Status :=
  {| bds07.Status_TransmissionRateSubfield := bits 1 2 data;
     bds07.Status_AltitudeTypeSubfield := bits 3 3 data |}.

Definition coherent_07 (data : list Z) : Prop := bits 1 2 data <= 2.

(* ---- BDS 1,0: data link capability report. The surveillance identifier code is a parameter:
   see CommB theorems. ---- *)
Definition recognised_10 (data : list Z) : Prop := bits 1 8 data = 16 /\ bits 10 14 data = 0.

Definition capability_10 (data : list Z) (surveillance_identifier : Z) : bds10.DataLinkCapabilityReport :=
  {| bds10.DataLinkCapabilityReport_ContinuationFlag := bits 9 9 data;
     bds10.DataLinkCapabilityReport_OverlayCommandCapability := bits 15 15 data;
     bds10.DataLinkCapabilityReport_ACASStatus := bits 16 16 data;
     bds10.DataLinkCapabilityReport_ModeSSubnetworkVersion := bits 17 23 data;
     bds10.DataLinkCapabilityReport_TransponderEnhancedProtocolIndicator := bits 24 24 data;
     bds10.DataLinkCapabilityReport_ModeSSpecificServicesCapability := bits 25 25 data;
     bds10.DataLinkCapabilityReport_UplinkELMThroughputCapability := bits 26 28 data;
     bds10.DataLinkCapabilityReport_DownlinkELMThroughputCapability := bits 29 32 data;
     bds10.DataLinkCapabilityReport_AircraftIdentificationCapability := bits 33 33 data;
     bds10.DataLinkCapabilityReport_SquitterCapabilitySubfield := bits 34 34 data;
     bds10.DataLinkCapabilityReport_SurveillanceIdentifierCode := surveillance_identifier;
     bds10.DataLinkCapabilityReport_CommonUsageGICBCapability := bits 36 36 data;
     bds10.DataLinkCapabilityReport_ACASHybridSurveillanceCapability := bits 37 37 data;
     bds10.DataLinkCapabilityReport_ACASGenerationCapability := bits 38 38 data;
     bds10.DataLinkCapabilityReport_ACASApplicableDocument := bits 39 40 data;
     bds10.DataLinkCapabilityReport_DTESubAddressStatuses := bits 41 56 data |}.

(* values of the fields that are defined; ACAS details only if ACAS is operational *)
Definition coherent_10 (data : list Z) : Prop :=
  bits 17 23 data <= 5 /\ bits 26 28 data <= 6 /\ bits 29 32 data <= 6 /\
  (bit 16 data = true -> bits 39 40 data <= 2) /\ (bit 16 data = false -> bits 37 40 data = 0).

(* ---- BDS 1,7: common usage GICB capability report ---- *)
Definition recognised_17 (data : list Z) : Prop := bits 30 56 data = 0.

Definition capability_17 (data : list Z) : bds17.CommonUsageGICBCapabilityReport :=
  {| bds17.CommonUsageGICBCapabilityReport_ExtendedSquitterAirbornePosition := bit 1 data;
     bds17.CommonUsageGICBCapabilityReport_ExtendedSquitterSurfacePosition := bit 2 data;
     bds17.CommonUsageGICBCapabilityReport_ExtendedSquitterStatus := bit 3 data;
     bds17.CommonUsageGICBCapabilityReport_ExtendedSquitterIdentificationAndCategory := bit 4 data;
     bds17.CommonUsageGICBCapabilityReport_ExtendedSquitterAirborneVelocityInformation := bit 5 data;
     bds17.CommonUsageGICBCapabilityReport_ExtendedSquitterEventDrivenInformation := bit 6 data;
     bds17.CommonUsageGICBCapabilityReport_AircraftIdentification := bit 7 data;
     bds17.CommonUsageGICBCapabilityReport_AircraftRegistrationNumber := bit 8 data;
     bds17.CommonUsageGICBCapabilityReport_SelectedVerticalIntention := bit 9 data;
     bds17.CommonUsageGICBCapabilityReport_NextWaypointIdentifier := bit 10 data;
     bds17.CommonUsageGICBCapabilityReport_NextWaypointPosition := bit 11 data;
     bds17.CommonUsageGICBCapabilityReport_NextWaypointInformation := bit 12 data;
     bds17.CommonUsageGICBCapabilityReport_MeteorologicalRoutineReport := bit 13 data;
     bds17.CommonUsageGICBCapabilityReport_MeteorologicalHazardReport := bit 14 data;
     bds17.CommonUsageGICBCapabilityReport_VHFChannelReport := bit 15 data;
     bds17.CommonUsageGICBCapabilityReport_TrackAndTurnReport := bit 16 data;
     bds17.CommonUsageGICBCapabilityReport_PositionCoarse := bit 17 data;
     bds17.CommonUsageGICBCapabilityReport_PositionFine := bit 18 data;
     bds17.CommonUsageGICBCapabilityReport_AirReferencedStateVector := bit 19 data;
     bds17.CommonUsageGICBCapabilityReport_Waypoint1 := bit 20 data;
     bds17.CommonUsageGICBCapabilityReport_Waypoint2 := bit 21 data;
     bds17.CommonUsageGICBCapabilityReport_Waypoint3 := bit 22 data;
     bds17.CommonUsageGICBCapabilityReport_QuasiStaticParameterMonitoring := bit 23 data;
     bds17.CommonUsageGICBCapabilityReport_HeadingAndSpeedReport := bit 24 data;
     bds17.CommonUsageGICBCapabilityReport_MilitaryApplications := bit 29 data |}.

(* ---- BDS 2,0: aircraft identification ---- *)
Definition recognised_20 (data : list Z) : Prop := bits 1 8 data = 32.
(* see Identification: [text], [legal_characters] *)

(* ---- BDS 3,0: ACAS active resolution advisory: see Acas.Reports ---- *)
Definition recognised_30 (data : list Z) : Prop := bits 1 8 data = 48.

(* ---- BDS 4,0: selected vertical intention ---- *)
Definition recognised_40 (data : list Z) : Prop := bits 40 47 data = 0 /\ bits 52 53 data = 0.

Definition intention (data : list Z) (mcp fms : Z) (pressure_status : bool) (pressure : f32) : bds40.SelectedVerticalIntention :=
  {| bds40.SelectedVerticalIntention_MCPFCUSelectedAltitudeAvailable := bit 1 data;
     bds40.SelectedVerticalIntention_MCPFCUSelectedAltitude := mcp;
     bds40.SelectedVerticalIntention_FMSSelectedAltitudeAvailable := bit 14 data;
     bds40.SelectedVerticalIntention_FMSSelectedAltitude := fms;
     bds40.SelectedVerticalIntention_BarometricPressureSettingAvailable := pressure_status;
     bds40.SelectedVerticalIntention_BarometricPressureSetting := pressure;
     bds40.SelectedVerticalIntention_StatusOfModeBits := bits 48 48 data;
     bds40.SelectedVerticalIntention_VNAVMode := bit 49 data;
     bds40.SelectedVerticalIntention_AltitudeHoldMode := bit 50 data;
     bds40.SelectedVerticalIntention_ApproachMode := bit 51 data;
     bds40.SelectedVerticalIntention_StatusOfTargetAltitudeSource := bits 54 54 data;
     bds40.SelectedVerticalIntention_TargetAltitudeSource := bits 55 56 data |}.

Definition setting_hpa (n : Z) : Q := ((800 # 1) + (1 # 10) * inject_Z n)%Q.

Inductive IntentionOf (data : list Z) : bds40.SelectedVerticalIntention -> Prop :=
| intention_of pressure : recognised_40 data ->
    is_close pressure (setting_hpa (bits 28 39 data)) (1 # 10000) ->
    IntentionOf data (intention data (16 * bits 2 13 data) (16 * bits 15 26 data) (bit 27 data) pressure).

(* something is reported, and nothing else than what is reported *)
Definition coherent_40 (data : list Z) : Prop :=
  (bit 1 data = true \/ bit 14 data = true \/ bit 27 data = true) /\
  absent_is_zero 1 2 13 data /\ absent_is_zero 14 15 26 data /\ absent_is_zero 27 28 39 data.

(* ---- BDS 4,4: meteorological routine air report ---- *)
Definition routine_v1 (data : list Z) (wind : Z) (direction temperature humidity : f32) : bds44.MeteorologicalRoutineAirReportV1 :=
  {| bds44.MeteorologicalRoutineAirReportV1_WindSpeedStatus := bit 5 data;
     bds44.MeteorologicalRoutineAirReportV1_WindSpeed := wind;
     bds44.MeteorologicalRoutineAirReportV1_WindDirectionStatus := bit 15 data;
     bds44.MeteorologicalRoutineAirReportV1_WindDirection := direction;
     bds44.MeteorologicalRoutineAirReportV1_StaticAirTemperatureStatus := bit 24 data;
     bds44.MeteorologicalRoutineAirReportV1_StaticAirTemperature := temperature;
     bds44.MeteorologicalRoutineAirReportV1_AverageStaticPressureStatus := bit 36 data;
     bds44.MeteorologicalRoutineAirReportV1_AverageStaticPressure := bits 37 47 data;
     bds44.MeteorologicalRoutineAirReportV1_TurbulenceFlag := bits 48 48 data;
     bds44.MeteorologicalRoutineAirReportV1_HumidityStatus := bit 49 data;
     bds44.MeteorologicalRoutineAirReportV1_Humidity := humidity |}.

Definition routine_v2 (data : list Z) (wind : Z) (direction temperature humidity : f32) : bds44.MeteorologicalRoutineAirReportV2 :=
  {| bds44.MeteorologicalRoutineAirReportV2_Source := bits 1 4 data;
     bds44.MeteorologicalRoutineAirReportV2_WindSpeedStatus := bit 5 data;
     bds44.MeteorologicalRoutineAirReportV2_WindSpeed := wind;
     bds44.MeteorologicalRoutineAirReportV2_WindDirectionStatus := bit 15 data;
     bds44.MeteorologicalRoutineAirReportV2_WindDirection := direction;
     bds44.MeteorologicalRoutineAirReportV2_StaticAirTemperatureStatus := bit 24 data;
     bds44.MeteorologicalRoutineAirReportV2_StaticAirTemperature := temperature;
     bds44.MeteorologicalRoutineAirReportV2_AverageStaticPressureStatus := bit 36 data;
     bds44.MeteorologicalRoutineAirReportV2_AverageStaticPressure := bits 37 47 data;
     bds44.MeteorologicalRoutineAirReportV2_TurbulenceFlag := bits 48 48 data;
     bds44.MeteorologicalRoutineAirReportV2_HumidityStatus := bit 49 data;
     bds44.MeteorologicalRoutineAirReportV2_Humidity := humidity |}.

(* The wind speed is in bits 6-14 (1 kt), the direction in bits 16-23 (180/128 degree), the
   temperature in bits 25-35 (0.125 degree C, signed), the humidity in bits 50-56 (1 %).
   Source (bits 1-4) 0: no source given; 1 to 4 the defined ones; the others are reserved. *)
Inductive RoutineOf (data : list Z) : bds44.MeteorologicalRoutineAirReport -> Prop :=
| routine_no_source direction temperature humidity : bits 1 4 data = 0 ->
    is_value direction (inject_Z (bits 16 23 data) * (180 # 128)) ->
    is_value temperature (inject_Z (signed 25 35 data) * (1 # 8)) ->
    is_value humidity (inject_Z (bits 50 56 data)) ->
    RoutineOf data (bds44.IMeteorologicalRoutineAirReport_MeteorologicalRoutineAirReportV1
      (routine_v1 data (bits 6 14 data) direction temperature humidity))
| routine_source direction temperature humidity : 1 <= bits 1 4 data <= 4 ->
    is_value direction (inject_Z (bits 16 23 data) * (180 # 128)) ->
    is_value temperature (inject_Z (signed 25 35 data) * (1 # 8)) ->
    is_value humidity (inject_Z (bits 50 56 data)) ->
    RoutineOf data (bds44.IMeteorologicalRoutineAirReport_MeteorologicalRoutineAirReportV2
      (routine_v2 data (bits 6 14 data) direction temperature humidity)).

Definition coherent_44 (data : list Z) : Prop :=
  (bit 5 data = true \/ bit 15 data = true \/ bit 24 data = true \/ bit 36 data = true \/ bit 49 data = true) /\
  absent_is_zero 5 6 14 data /\ absent_is_zero 15 16 23 data /\ absent_is_zero 24 25 35 data /\
  absent_is_zero 36 37 47 data /\ absent_is_zero 49 50 56 data /\
  bits 6 14 data <= 250 /\ -80 * 8 <= signed 25 35 data <= 60 * 8.

(* the older version of the register (Table A-2-68): sign of the temperature in bit 24, its value in
   bits 25-34 (0.25 degree C) *)
Definition routine_v0 (data : list Z) (wind : Z) (direction temperature humidity : f32) : bds44.MeteorologicalRoutineAirReportV0 :=
  {| bds44.MeteorologicalRoutineAirReportV0_Source := bits 1 4 data;
     bds44.MeteorologicalRoutineAirReportV0_WindSpeedStatus := bit 5 data;
     bds44.MeteorologicalRoutineAirReportV0_WindSpeed := wind;
     bds44.MeteorologicalRoutineAirReportV0_WindDirectionStatus := bit 5 data;
     bds44.MeteorologicalRoutineAirReportV0_WindDirection := direction;
     bds44.MeteorologicalRoutineAirReportV0_StaticAirTemperature := temperature;
     bds44.MeteorologicalRoutineAirReportV0_AverageStaticPressureStatus := bit 35 data;
     bds44.MeteorologicalRoutineAirReportV0_AverageStaticPressure := bits 36 46 data;
     bds44.MeteorologicalRoutineAirReportV0_TurbulenceStatus := bit 47 data;
     bds44.MeteorologicalRoutineAirReportV0_Turbulence := bits 48 49 data;
     bds44.MeteorologicalRoutineAirReportV0_HumidityStatus := bit 50 data;
     bds44.MeteorologicalRoutineAirReportV0_Humidity := humidity |}.

Definition coherent_44_v0 (data : list Z) : Prop :=
  (bit 5 data = true \/ bit 35 data = true \/ bit 47 data = true \/ bit 50 data = true) /\
  bits 1 4 data <= 4 /\
  absent_is_zero 5 6 23 data /\ absent_is_zero 35 36 46 data /\ absent_is_zero 47 48 49 data /\
  absent_is_zero 50 51 56 data /\
  bits 6 14 data <= 250 /\ -80 * 4 <= signed 24 34 data <= 60 * 4.

(* ---- BDS 4,5: meteorological hazard report ---- *)
Definition hazard_v1 (data : list Z) (temperature average peak : f32) : bds45.MeteorologicalHazardReportV1 :=
  {| bds45.MeteorologicalHazardReportV1_WindShearStatus := bit 1 data;
     bds45.MeteorologicalHazardReportV1_WindShear := bits 2 3 data;
     bds45.MeteorologicalHazardReportV1_MicroBurstStatus := bit 4 data;
     bds45.MeteorologicalHazardReportV1_MicroBurst := bits 5 6 data;
     bds45.MeteorologicalHazardReportV1_IcingStatus := bit 7 data;
     bds45.MeteorologicalHazardReportV1_Icing := bits 8 9 data;
     bds45.MeteorologicalHazardReportV1_WakeVortexStatus := bit 10 data;
     bds45.MeteorologicalHazardReportV1_WakeVortex := bits 11 12 data;
     bds45.MeteorologicalHazardReportV1_StaticAirTemperatureStatus := bit 13 data;
     bds45.MeteorologicalHazardReportV1_StaticAirTemperature := temperature;
     bds45.MeteorologicalHazardReportV1_AverageStaticPressureStatus := false (* not in this version of the register *);
     bds45.MeteorologicalHazardReportV1_AverageStaticPressure := 0;
     bds45.MeteorologicalHazardReportV1_RadioHeightStatus := bit 25 data;
     bds45.MeteorologicalHazardReportV1_RadioHeight := 2 * bits 26 37 data;
     bds45.MeteorologicalHazardReportV1_TurbulenceStatus := bit 38 data;
     bds45.MeteorologicalHazardReportV1_TurbulenceAverageEDR := average;
     bds45.MeteorologicalHazardReportV1_TurbulencePeakEDR := peak;
     bds45.MeteorologicalHazardReportV1_TurbulencePeakDelayInterval := bits 51 54 data |}.

(* temperature: bits 14-24 (0.125 degree C, signed); turbulence: average in bits 39-44 and peak
   in bits 45-50 (0.02); bits 55-56 are reserved *)
Inductive HazardOf (data : list Z) : bds45.MeteorologicalHazardReport -> Prop :=
| hazard temperature average peak : bits 55 56 data = 0 ->
    is_value temperature (inject_Z (signed 14 24 data) * (1 # 8)) ->
    is_close average (inject_Z (bits 39 44 data) * (1 # 50)) (1 # 10000000) ->
    is_close peak (inject_Z (bits 45 50 data) * (1 # 50)) (1 # 10000000) ->
    HazardOf data (bds45.IMeteorologicalHazardReport_MeteorologicalHazardReportV1
      (hazard_v1 data temperature average peak)).

Definition coherent_45 (data : list Z) : Prop :=
  (bit 1 data = true \/ bit 4 data = true \/ bit 7 data = true \/ bit 10 data = true \/ bit 13 data = true \/
   bit 25 data = true \/ bit 38 data = true) /\
  absent_is_zero 38 39 54 data /\ absent_is_zero 1 2 3 data /\ absent_is_zero 4 5 6 data /\
  absent_is_zero 7 8 9 data /\ absent_is_zero 10 11 12 data /\
  (bit 13 data = true -> -80 * 8 <= signed 14 24 data <= 60 * 8) /\ absent_is_zero 25 26 37 data.

(* the older version of the register (Table A-2-69): bits 52-56 are reserved *)
Definition hazard_v0 (data : list Z) (temperature : f32) : bds45.MeteorologicalHazardReportV0 :=
  {| bds45.MeteorologicalHazardReportV0_TurbulenceStatus := bit 1 data;
     bds45.MeteorologicalHazardReportV0_Turbulence := bits 2 3 data;
     bds45.MeteorologicalHazardReportV0_WindShearStatus := bit 4 data;
     bds45.MeteorologicalHazardReportV0_WindShear := bits 5 6 data;
     bds45.MeteorologicalHazardReportV0_MicroBurstStatus := bit 7 data;
     bds45.MeteorologicalHazardReportV0_MicroBurst := bits 8 9 data;
     bds45.MeteorologicalHazardReportV0_IcingStatus := bit 10 data;
     bds45.MeteorologicalHazardReportV0_Icing := bits 11 12 data;
     bds45.MeteorologicalHazardReportV0_WakeVortexStatus := bit 13 data;
     bds45.MeteorologicalHazardReportV0_WakeVortex := bits 14 15 data;
     bds45.MeteorologicalHazardReportV0_StaticAirTemperatureStatus := bit 16 data;
     bds45.MeteorologicalHazardReportV0_StaticAirTemperature := temperature;
     bds45.MeteorologicalHazardReportV0_AverageStaticPressureStatus := bit 27 data;
     bds45.MeteorologicalHazardReportV0_AverageStaticPressure := bits 28 38 data;
     bds45.MeteorologicalHazardReportV0_RadioHeightStatus := bit 39 data;
     bds45.MeteorologicalHazardReportV0_RadioHeight := 16 * bits 40 51 data |}.

Definition coherent_45_v0 (data : list Z) : Prop :=
  (bit 1 data = true \/ bit 4 data = true \/ bit 7 data = true \/ bit 10 data = true \/ bit 13 data = true \/
   bit 16 data = true \/ bit 27 data = true \/ bit 39 data = true) /\
  absent_is_zero 1 2 3 data /\ absent_is_zero 4 5 6 data /\ absent_is_zero 7 8 9 data /\
  absent_is_zero 10 11 12 data /\ absent_is_zero 13 14 15 data /\ absent_is_zero 16 17 26 data /\
  absent_is_zero 27 28 38 data /\ absent_is_zero 39 40 51 data /\
  -80 * 4 <= signed 17 26 data <= 60 * 4.

(* ---- BDS 5,0: track and turn report ---- *)
Definition track_and_turn (data : list Z) (roll track rate : f32) : bds50.TrackAndTurnReport :=
  {| bds50.TrackAndTurnReport_RollAngleStatus := bit 1 data;
     bds50.TrackAndTurnReport_RollAngle := roll;
     bds50.TrackAndTurnReport_TrueTrackAngleStatus := bit 12 data;
     bds50.TrackAndTurnReport_TrueTrackAngle := track;
     bds50.TrackAndTurnReport_GroundSpeedStatus := bit 24 data;
     bds50.TrackAndTurnReport_GroundSpeed := 2 * bits 25 34 data;
     bds50.TrackAndTurnReport_TrackAngleRateStatus := bit 35 data;
     bds50.TrackAndTurnReport_TrackAngleRate := rate;
     bds50.TrackAndTurnReport_TrueAirSpeedStatus := bit 46 data;
     bds50.TrackAndTurnReport_TrueAirSpeed := 2 * bits 47 56 data |}.

Inductive TrackOf (data : list Z) : bds50.TrackAndTurnReport -> Prop :=
| track_of roll track rate :
    is_value roll (inject_Z (signed 2 11 data) * (45 # 256)) ->
    is_value track (inject_Z (signed 13 23 data) * (90 # 512)) ->
    is_value rate (inject_Z (signed 36 45 data) * (8 # 256)) ->
    TrackOf data (track_and_turn data roll track rate).

Definition coherent_50 (data : list Z) : Prop :=
  (bit 1 data = true \/ bit 12 data = true \/ bit 24 data = true \/ bit 35 data = true \/ bit 46 data = true) /\
  absent_is_zero 1 2 11 data /\ absent_is_zero 12 13 23 data /\ absent_is_zero 24 25 34 data /\
  absent_is_zero 35 36 45 data /\ absent_is_zero 46 47 56 data /\
  (Qabs (inject_Z (signed 2 11 data) * (45 # 256)) <= 50)%Q /\
  2 * bits 25 34 data <= 600 /\ 2 * bits 47 56 data <= 500 /\
  Z.abs (2 * bits 25 34 data - 2 * bits 47 56 data) <= 200.

(* ---- BDS 6,0: heading and speed report ---- *)
Definition heading_and_speed (data : list Z) (heading mach : f32) : bds60.HeadingAndTrackReport :=
  {| bds60.HeadingAndTrackReport_MagneticHeadingStatus := bit 1 data;
     bds60.HeadingAndTrackReport_MagneticHeading := heading;
     bds60.HeadingAndTrackReport_IndicatedAirSpeedStatus := bit 13 data;
     bds60.HeadingAndTrackReport_IndicatedAirSpeed := bits 14 23 data;
     bds60.HeadingAndTrackReport_MachStatus := bit 24 data;
     bds60.HeadingAndTrackReport_Mach := mach;
     bds60.HeadingAndTrackReport_BarometricAltitudeRateStatus := bit 35 data;
     bds60.HeadingAndTrackReport_BarometricAltitudeRate := 32 * signed 36 45 data;
     bds60.HeadingAndTrackReport_InitialVerticalVelocityStatus := bit 46 data;
     bds60.HeadingAndTrackReport_InitialVerticalVelocity := 32 * signed 47 56 data |}.

Inductive HeadingOf (data : list Z) : bds60.HeadingAndTrackReport -> Prop :=
| heading_of heading mach :
    is_value heading (inject_Z (signed 2 12 data) * (90 # 512)) ->
    is_close mach (inject_Z (bits 25 34 data) * (4 # 1000)) (1 # 1000000) ->
    HeadingOf data (heading_and_speed data heading mach).

Definition coherent_60 (data : list Z) : Prop :=
  (bit 1 data = true \/ bit 13 data = true \/ bit 24 data = true \/ bit 35 data = true \/ bit 46 data = true) /\
  absent_is_zero 1 2 12 data /\ absent_is_zero 13 14 23 data /\ absent_is_zero 24 25 34 data /\
  absent_is_zero 35 36 45 data /\ absent_is_zero 46 47 56 data /\
  bits 14 23 data <= 500 /\ (inject_Z (bits 25 34 data) * (4 # 1000) <= 1)%Q /\
  Z.abs (32 * signed 36 45 data) <= 6000 /\ Z.abs (32 * signed 47 56 data) <= 6000.
