(* Why a Comm-B register is not recognised, and why a report is said not to be coherent: the
   checks made, in order, each with what is said when it is the first one that fails.
   See Reasons.first_failed. *)
From Verif Require Import GoBase Bits.
From Verif.Spec Require Import Floats Text Acas Identification Reasons.
From Verif.Gen Require Import bds00 bds07 bds10 bds17 bds20 bds30 bds40 bds44 bds45 bds50 bds60.
From Verif.Model Require Import CommbReader.
Require Import String List.
Import ListNotations.
Local Open Scope Z_scope.

(* ======================= float32 values ======================= *)
(* x is a float32: zero, an infinity, NaN, or a number with at most 24 significant bits in range *)
Definition float32 (x : spec_float) : Prop := valid_binary 24 128 x = true.
(* x > q and x < q *)
Definition above (x : spec_float) (q : Q) : Prop :=
  x = S754_infinity false \/ exists v, is_value x v /\ (q < v)%Q.
Definition below (x : spec_float) (q : Q) : Prop :=
  x = S754_infinity true \/ exists v, is_value x v /\ (v < q)%Q.
Definition is_zero (x : spec_float) : Prop := is_value x 0.

(* an operation fails exactly when a check does, and says what is to be said of the first one that does *)
Definition explains {A : Type} (checks : list (Prop * string)) (result : res A) : Prop :=
  forall e, result = Err e <-> first_failed checks e.

(* ======================= recognition ======================= *)
Definition size (name : string) (data : list Z) : Prop * string :=
  (len data = 7, "the data for Comm-B " +++ name +++ " message must be 7 bytes long").

Definition checks_00 (data : list Z) : list (Prop * string) :=
  [size "NoMessageAvailable" data; (bits 1 56 data = 0, "bits 1 to 56 must be zero"%string)].
Definition checks_07 (data : list Z) : list (Prop * string) :=
  [size "Status" data;
   (bits 4 8 data = 0, "the bits 4 to 8 are reserved and must be 0"%string);
   (bits 9 56 data = 0, "the bits 9 to 56 are reserved and must be 0"%string)].
Definition checks_10 (data : list Z) : list (Prop * string) :=
  [size "DataLinkCapabilityReport" data;
   (bits 1 8 data = 16, "the first byte of data is not 0x10"%string);
   (bits 10 14 data = 0, "the bits 10 to 14 are reserved and must be 0"%string)].
Definition checks_17 (data : list Z) : list (Prop * string) :=
  [size "CommonUsageGICBCapabilityReport" data;
   (bits 30 32 data = 0, "the bits 30 to 32 are reserved and must be 0"%string);
   (bits 33 56 data = 0, "the bits 33 to 56 are reserved and must be 0"%string)].
Definition checks_20 (data : list Z) : list (Prop * string) :=
  [size "AircraftIdentification" data;
   (bits 1 8 data = 32, "the first byte of data is not 0x20"%string)].
Definition checks_30 (data : list Z) : list (Prop * string) :=
  [size "ACASResolutionAdvisory" data;
   (bits 1 8 data = 48, "the first byte of data is not 0x30"%string);
   (bits 29 30 data = 2 -> exists altitude, ThreatAltitude (octets 2 7 data) altitude,
    "the Altitude field is malformed"%string)].
Definition checks_40 (data : list Z) : list (Prop * string) :=
  [size "SelectedVerticalIntention" data;
   (bits 40 40 data = 0, "the bit 40 must be zero"%string);
   (bits 41 47 data = 0, "the bits 41 to 47 must be zero"%string);
   (bits 52 53 data = 0, "the bits 52 to 53 must be zero"%string)].
(* the source is a number between 0 and 4, whatever the text of the error is *)
Definition checks_44 (data : list Z) : list (Prop * string) :=
  [(len data = 7, "the data must be 7 bytes long (" +++ numeral (len data) +++ " given)");
   (bits 1 4 data <= 4,
    "the field SubType must be comprised between 0 and 1 included, got " +++ numeral (bits 1 4 data))].
Definition checks_44_v0 (data : list Z) : list (Prop * string) := [size "MeteorologicalRoutineAirReport" data].
Definition checks_44_v1 (data : list Z) : list (Prop * string) :=
  [size "MeteorologicalRoutineAirReport" data; (bits 1 4 data = 0, "the bits 1 to 4 must be zero"%string)].
Definition checks_44_v2 (data : list Z) : list (Prop * string) := [size "MeteorologicalRoutineAirReport" data].
(* only the bits 55 and 56 are required to be zero, whatever the text of the error is *)
Definition checks_45 (data : list Z) : list (Prop * string) :=
  [(len data = 7, "the data must be 7 bytes long (" +++ numeral (len data) +++ " given)");
   (bits 55 56 data = 0, "the bits 52 to 56 must be zero"%string)].
Definition checks_45_v0 (data : list Z) : list (Prop * string) :=
  [size "MeteorologicalHazardReport" data; (bits 52 56 data = 0, "the bits 52 to 56 must be zero"%string)].
Definition checks_45_v1 (data : list Z) : list (Prop * string) :=
  [size "MeteorologicalHazardReport" data; (bits 55 56 data = 0, "the bits 55 to 56 must be zero"%string)].
Definition checks_50 (data : list Z) : list (Prop * string) := [size "TrackAndTurnReport" data].
Definition checks_60 (data : list Z) : list (Prop * string) := [size "HeadingAndTrackReport" data].

(* ======================= coherency ======================= *)
(* a report must say something *)
Definition something (statuses : list bool) : Prop * string :=
  (In true statuses, "the message does not convey any information"%string).
(* what is said not to be given must not be given *)
Definition given (name what : string) (status : bool) (zero : Prop) : Prop * string :=
  (status = false -> zero, "the " +++ name +++ " status is set to false, but a " +++ what +++ " value is given").
(* a value that is not reserved *)
Definition defined (name : string) (meaningful : Prop) : Prop * string :=
  (meaningful, "field " +++ name +++ " is a Reserved value").
(* no more than 250 knots of wind, between -80 and 60 degrees *)
Definition calm (wind : Z) : Prop * string := (wind <= 250, "the wind speed is too high (above 250 knots)"%string).
Definition temperate (t : f32) : Prop := ~ below t (-80) /\ ~ above t 60.
Definition temperature (t : f32) : Prop * string :=
  (temperate t, "the static air temperature is to high or to low (-80 <= temp <= 60)"%string).

Definition coherency_07 (m : Status) : list (Prop * string) :=
  [defined "TransmissionRateSubfield" (Status_TransmissionRateSubfield m <= 2)].

(* without an ACAS, no capability of the ACAS *)
Definition no_acas (name nothing : string) (status value : Z) : Prop * string :=
  (status = 0 -> value = 0, "field ACASStatus is FailedOrStandBy but " +++ name +++ " is not " +++ nothing).
Definition coherency_10 (m : DataLinkCapabilityReport) : list (Prop * string) :=
  let acas := DataLinkCapabilityReport_ACASStatus m in
  [no_acas "ACASHybridSurveillanceCapability" "HybridSurveillanceNotCapable" acas
     (DataLinkCapabilityReport_ACASHybridSurveillanceCapability m);
   no_acas "ACASGenerationCapability" "ACASGenerationNotCapable" acas (DataLinkCapabilityReport_ACASGenerationCapability m);
   no_acas "ACASApplicableDocument" "ACASApplicableDocument185" acas (DataLinkCapabilityReport_ACASApplicableDocument m);
   defined "ACASApplicableDocument" (DataLinkCapabilityReport_ACASApplicableDocument m <= 2);
   defined "ModeSSubnetworkVersion" (DataLinkCapabilityReport_ModeSSubnetworkVersion m <= 5);
   defined "UplinkELMThroughputCapability" (DataLinkCapabilityReport_UplinkELMThroughputCapability m <= 6);
   defined "DownlinkELMThroughputCapability" (DataLinkCapabilityReport_DownlinkELMThroughputCapability m <= 6)].

(* a character that is not legal is shown as # *)
Definition coherency_20 (m : AircraftIdentification) : list (Prop * string) :=
  [(~ In "#"%char (list_ascii_of_string (AircraftIdentification_Identification m)),
    "field Identification contains a non valid character"%string)].

Definition unavailable (name : string) (available : bool) (zero : Prop) : Prop * string :=
  given name name available zero.
Definition coherency_40 (m : SelectedVerticalIntention) : list (Prop * string) :=
  [something [SelectedVerticalIntention_MCPFCUSelectedAltitudeAvailable m;
              SelectedVerticalIntention_FMSSelectedAltitudeAvailable m;
              SelectedVerticalIntention_BarometricPressureSettingAvailable m];
   unavailable "MCP/FCU SelectedAltitude" (SelectedVerticalIntention_MCPFCUSelectedAltitudeAvailable m)
     (SelectedVerticalIntention_MCPFCUSelectedAltitude m = 0);
   unavailable "FMS SelectedAltitude" (SelectedVerticalIntention_FMSSelectedAltitudeAvailable m)
     (SelectedVerticalIntention_FMSSelectedAltitude m = 0);
   unavailable "BarometricPressureSetting" (SelectedVerticalIntention_BarometricPressureSettingAvailable m)
     (is_zero (SelectedVerticalIntention_BarometricPressureSetting m))].

(* the older format does not check the turbulence *)
Definition coherency_44_v0 (m : MeteorologicalRoutineAirReportV0) : list (Prop * string) :=
  [something [MeteorologicalRoutineAirReportV0_WindSpeedStatus m; MeteorologicalRoutineAirReportV0_WindDirectionStatus m;
              MeteorologicalRoutineAirReportV0_AverageStaticPressureStatus m; MeteorologicalRoutineAirReportV0_TurbulenceStatus m;
              MeteorologicalRoutineAirReportV0_HumidityStatus m];
   defined "Source" (MeteorologicalRoutineAirReportV0_Source m <= 4);
   given "wind speed" "wind speed" (MeteorologicalRoutineAirReportV0_WindSpeedStatus m)
     (MeteorologicalRoutineAirReportV0_WindSpeed m = 0);
   given "wind direction" "wind direction" (MeteorologicalRoutineAirReportV0_WindDirectionStatus m)
     (is_zero (MeteorologicalRoutineAirReportV0_WindDirection m));
   given "average static pressure" "average static pressure" (MeteorologicalRoutineAirReportV0_AverageStaticPressureStatus m)
     (MeteorologicalRoutineAirReportV0_AverageStaticPressure m = 0);
   given "humidity" "humidity" (MeteorologicalRoutineAirReportV0_HumidityStatus m)
     (is_zero (MeteorologicalRoutineAirReportV0_Humidity m));
   calm (MeteorologicalRoutineAirReportV0_WindSpeed m);
   temperature (MeteorologicalRoutineAirReportV0_StaticAirTemperature m)].

Definition coherency_44_v1 (m : MeteorologicalRoutineAirReportV1) : list (Prop * string) :=
  [something [MeteorologicalRoutineAirReportV1_WindSpeedStatus m; MeteorologicalRoutineAirReportV1_WindDirectionStatus m;
              MeteorologicalRoutineAirReportV1_StaticAirTemperatureStatus m;
              MeteorologicalRoutineAirReportV1_AverageStaticPressureStatus m; MeteorologicalRoutineAirReportV1_HumidityStatus m];
   given "wind speed" "wind speed" (MeteorologicalRoutineAirReportV1_WindSpeedStatus m)
     (MeteorologicalRoutineAirReportV1_WindSpeed m = 0);
   given "wind direction" "wind direction" (MeteorologicalRoutineAirReportV1_WindDirectionStatus m)
     (is_zero (MeteorologicalRoutineAirReportV1_WindDirection m));
   given "static air temperature" "static air temperature" (MeteorologicalRoutineAirReportV1_StaticAirTemperatureStatus m)
     (is_zero (MeteorologicalRoutineAirReportV1_StaticAirTemperature m));
   given "average static pressure" "average static pressure" (MeteorologicalRoutineAirReportV1_AverageStaticPressureStatus m)
     (MeteorologicalRoutineAirReportV1_AverageStaticPressure m = 0);
   given "humidity" "humidity" (MeteorologicalRoutineAirReportV1_HumidityStatus m)
     (is_zero (MeteorologicalRoutineAirReportV1_Humidity m));
   calm (MeteorologicalRoutineAirReportV1_WindSpeed m);
   temperature (MeteorologicalRoutineAirReportV1_StaticAirTemperature m)].

Definition coherency_44_v2 (m : MeteorologicalRoutineAirReportV2) : list (Prop * string) :=
  [defined "Source" (MeteorologicalRoutineAirReportV2_Source m <= 4);
   something [MeteorologicalRoutineAirReportV2_WindSpeedStatus m; MeteorologicalRoutineAirReportV2_WindDirectionStatus m;
              MeteorologicalRoutineAirReportV2_StaticAirTemperatureStatus m;
              MeteorologicalRoutineAirReportV2_AverageStaticPressureStatus m; MeteorologicalRoutineAirReportV2_HumidityStatus m];
   given "wind speed" "wind speed" (MeteorologicalRoutineAirReportV2_WindSpeedStatus m)
     (MeteorologicalRoutineAirReportV2_WindSpeed m = 0);
   given "wind direction" "wind direction" (MeteorologicalRoutineAirReportV2_WindDirectionStatus m)
     (is_zero (MeteorologicalRoutineAirReportV2_WindDirection m));
   given "static air temperature" "static air temperature" (MeteorologicalRoutineAirReportV2_StaticAirTemperatureStatus m)
     (is_zero (MeteorologicalRoutineAirReportV2_StaticAirTemperature m));
   given "average static pressure" "average static pressure" (MeteorologicalRoutineAirReportV2_AverageStaticPressureStatus m)
     (MeteorologicalRoutineAirReportV2_AverageStaticPressure m = 0);
   given "humidity" "humidity" (MeteorologicalRoutineAirReportV2_HumidityStatus m)
     (is_zero (MeteorologicalRoutineAirReportV2_Humidity m));
   calm (MeteorologicalRoutineAirReportV2_WindSpeed m);
   temperature (MeteorologicalRoutineAirReportV2_StaticAirTemperature m)].

Definition hazard (name : string) (status : bool) (level : Z) : Prop * string := given name name status (level = 0).
Definition coherency_45_v0 (m : MeteorologicalHazardReportV0) : list (Prop * string) :=
  [something [MeteorologicalHazardReportV0_TurbulenceStatus m; MeteorologicalHazardReportV0_WindShearStatus m;
              MeteorologicalHazardReportV0_MicroBurstStatus m; MeteorologicalHazardReportV0_IcingStatus m;
              MeteorologicalHazardReportV0_WakeVortexStatus m; MeteorologicalHazardReportV0_StaticAirTemperatureStatus m;
              MeteorologicalHazardReportV0_AverageStaticPressureStatus m; MeteorologicalHazardReportV0_RadioHeightStatus m];
   hazard "turbulence" (MeteorologicalHazardReportV0_TurbulenceStatus m) (MeteorologicalHazardReportV0_Turbulence m);
   hazard "wind shear" (MeteorologicalHazardReportV0_WindShearStatus m) (MeteorologicalHazardReportV0_WindShear m);
   hazard "micro burst" (MeteorologicalHazardReportV0_MicroBurstStatus m) (MeteorologicalHazardReportV0_MicroBurst m);
   hazard "icing" (MeteorologicalHazardReportV0_IcingStatus m) (MeteorologicalHazardReportV0_Icing m);
   hazard "wake vortex" (MeteorologicalHazardReportV0_WakeVortexStatus m) (MeteorologicalHazardReportV0_WakeVortex m);
   given "static air temperature" "static air temperature" (MeteorologicalHazardReportV0_StaticAirTemperatureStatus m)
     (is_zero (MeteorologicalHazardReportV0_StaticAirTemperature m));
   given "average static pressure" "average static pressure" (MeteorologicalHazardReportV0_AverageStaticPressureStatus m)
     (MeteorologicalHazardReportV0_AverageStaticPressure m = 0);
   given "radioHeight" "radioHeight" (MeteorologicalHazardReportV0_RadioHeightStatus m)
     (MeteorologicalHazardReportV0_RadioHeight m = 0);
   temperature (MeteorologicalHazardReportV0_StaticAirTemperature m)].

Definition coherency_45_v1 (m : MeteorologicalHazardReportV1) : list (Prop * string) :=
  [something [MeteorologicalHazardReportV1_TurbulenceStatus m; MeteorologicalHazardReportV1_WindShearStatus m;
              MeteorologicalHazardReportV1_MicroBurstStatus m; MeteorologicalHazardReportV1_IcingStatus m;
              MeteorologicalHazardReportV1_WakeVortexStatus m; MeteorologicalHazardReportV1_StaticAirTemperatureStatus m;
              MeteorologicalHazardReportV1_AverageStaticPressureStatus m; MeteorologicalHazardReportV1_RadioHeightStatus m];
   (MeteorologicalHazardReportV1_TurbulenceStatus m = false ->
      is_zero (MeteorologicalHazardReportV1_TurbulenceAverageEDR m) /\
      is_zero (MeteorologicalHazardReportV1_TurbulencePeakEDR m) /\
      MeteorologicalHazardReportV1_TurbulencePeakDelayInterval m = 0,
    "the turbulence status is set to false, but some turbulence values are given"%string);
   hazard "wind shear" (MeteorologicalHazardReportV1_WindShearStatus m) (MeteorologicalHazardReportV1_WindShear m);
   hazard "micro burst" (MeteorologicalHazardReportV1_MicroBurstStatus m) (MeteorologicalHazardReportV1_MicroBurst m);
   hazard "icing" (MeteorologicalHazardReportV1_IcingStatus m) (MeteorologicalHazardReportV1_Icing m);
   hazard "wake vortex" (MeteorologicalHazardReportV1_WakeVortexStatus m) (MeteorologicalHazardReportV1_WakeVortex m);
   (MeteorologicalHazardReportV1_StaticAirTemperatureStatus m = true ->
      temperate (MeteorologicalHazardReportV1_StaticAirTemperature m),
    snd (temperature (MeteorologicalHazardReportV1_StaticAirTemperature m)));
   given "average static pressure" "average static pressure" (MeteorologicalHazardReportV1_AverageStaticPressureStatus m)
     (MeteorologicalHazardReportV1_AverageStaticPressure m = 0);
   given "radioHeight" "radioHeight" (MeteorologicalHazardReportV1_RadioHeightStatus m)
     (MeteorologicalHazardReportV1_RadioHeight m = 0)].

Definition coherency_50 (m : TrackAndTurnReport) : list (Prop * string) :=
  [something [TrackAndTurnReport_RollAngleStatus m; TrackAndTurnReport_TrueTrackAngleStatus m;
              TrackAndTurnReport_GroundSpeedStatus m; TrackAndTurnReport_TrackAngleRateStatus m;
              TrackAndTurnReport_TrueAirSpeedStatus m];
   given "roll angle" "roll angle" (TrackAndTurnReport_RollAngleStatus m) (is_zero (TrackAndTurnReport_RollAngle m));
   given "true track angle" "true track angle" (TrackAndTurnReport_TrueTrackAngleStatus m)
     (is_zero (TrackAndTurnReport_TrueTrackAngle m));
   given "ground speed" "ground speed" (TrackAndTurnReport_GroundSpeedStatus m) (TrackAndTurnReport_GroundSpeed m = 0);
   given "track angle rate" "track angle rate" (TrackAndTurnReport_TrackAngleRateStatus m)
     (is_zero (TrackAndTurnReport_TrackAngleRate m));
   given "true air speed" "true air speed rate" (TrackAndTurnReport_TrueAirSpeedStatus m)
     (TrackAndTurnReport_TrueAirSpeed m = 0);
   (~ above (TrackAndTurnReport_RollAngle m) 50 /\ ~ below (TrackAndTurnReport_RollAngle m) (-50),
    "the roll angle is too high (above 50 degrees)"%string);
   (TrackAndTurnReport_GroundSpeed m <= 600, "the ground speed is too high (above 600 knots)"%string);
   (TrackAndTurnReport_TrueAirSpeed m <= 500, "the true air speed is too high (above 500 knots)"%string);
   (Z.abs (TrackAndTurnReport_GroundSpeed m - TrackAndTurnReport_TrueAirSpeed m) <= 200,
    "the difference between true air speed and ground speed is too high (above 200 knots)"%string)].

Definition coherency_60 (m : HeadingAndTrackReport) : list (Prop * string) :=
  [something [HeadingAndTrackReport_MagneticHeadingStatus m; HeadingAndTrackReport_IndicatedAirSpeedStatus m;
              HeadingAndTrackReport_MachStatus m; HeadingAndTrackReport_BarometricAltitudeRateStatus m;
              HeadingAndTrackReport_InitialVerticalVelocityStatus m];
   given "magnetic heading" "magnetic heading" (HeadingAndTrackReport_MagneticHeadingStatus m)
     (is_zero (HeadingAndTrackReport_MagneticHeading m));
   given "indicated air speed" "indicated air speed" (HeadingAndTrackReport_IndicatedAirSpeedStatus m)
     (HeadingAndTrackReport_IndicatedAirSpeed m = 0);
   given "mach" "mach" (HeadingAndTrackReport_MachStatus m) (is_zero (HeadingAndTrackReport_Mach m));
   given "barometric altitude rate" "barometric altitude rate" (HeadingAndTrackReport_BarometricAltitudeRateStatus m)
     (HeadingAndTrackReport_BarometricAltitudeRate m = 0);
   given "initial vertical velocity" "initial vertical velocity" (HeadingAndTrackReport_InitialVerticalVelocityStatus m)
     (HeadingAndTrackReport_InitialVerticalVelocity m = 0);
   (HeadingAndTrackReport_IndicatedAirSpeed m <= 500, "the indicated air speed is too high (above 500 knots)"%string);
   (~ above (HeadingAndTrackReport_Mach m) 1, "the mach is too high (above 1.0)"%string);
   (Z.abs (HeadingAndTrackReport_BarometricAltitudeRate m) <= 6000,
    "the barometric altitude rate is to high or to low (above or under 6000fpm)"%string);
   (Z.abs (HeadingAndTrackReport_InitialVerticalVelocity m) <= 6000,
    "the initial vertical velocity is to high or to low (above or under 6000fpm)"%string)].

(* every Comm-B message; nothing is checked in the registers 0,0 1,7 and 3,0 *)
Definition coherency_checks (message : Message) : list (Prop * string) :=
  match message with
  | B00 _ | B17 _ | B30 _ => []
  | B07 m => coherency_07 m
  | B10 m => coherency_10 m
  | B20 m => coherency_20 m
  | B40 m => coherency_40 m
  | B44 (IMeteorologicalRoutineAirReport_MeteorologicalRoutineAirReportV0 m) => coherency_44_v0 m
  | B44 (IMeteorologicalRoutineAirReport_MeteorologicalRoutineAirReportV1 m) => coherency_44_v1 m
  | B44 (IMeteorologicalRoutineAirReport_MeteorologicalRoutineAirReportV2 m) => coherency_44_v2 m
  | B45 (IMeteorologicalHazardReport_MeteorologicalHazardReportV0 m) => coherency_45_v0 m
  | B45 (IMeteorologicalHazardReport_MeteorologicalHazardReportV1 m) => coherency_45_v1 m
  | B50 m => coherency_50 m
  | B60 m => coherency_60 m
  end.

(* the values of the fields are values of their Go types, where it matters: the temperatures, the
   roll angle and the Mach number are float32, the speeds are unsigned 32-bit integers *)
Definition typed (message : Message) : Prop :=
  match message with
  | B44 (IMeteorologicalRoutineAirReport_MeteorologicalRoutineAirReportV0 m) =>
      float32 (MeteorologicalRoutineAirReportV0_StaticAirTemperature m)
  | B44 (IMeteorologicalRoutineAirReport_MeteorologicalRoutineAirReportV1 m) =>
      float32 (MeteorologicalRoutineAirReportV1_StaticAirTemperature m)
  | B44 (IMeteorologicalRoutineAirReport_MeteorologicalRoutineAirReportV2 m) =>
      float32 (MeteorologicalRoutineAirReportV2_StaticAirTemperature m)
  | B45 (IMeteorologicalHazardReport_MeteorologicalHazardReportV0 m) =>
      float32 (MeteorologicalHazardReportV0_StaticAirTemperature m)
  | B45 (IMeteorologicalHazardReport_MeteorologicalHazardReportV1 m) =>
      float32 (MeteorologicalHazardReportV1_StaticAirTemperature m)
  | B50 m => float32 (TrackAndTurnReport_RollAngle m) /\
      0 <= TrackAndTurnReport_GroundSpeed m < 2 ^ 32 /\ 0 <= TrackAndTurnReport_TrueAirSpeed m < 2 ^ 32
  | B60 m => float32 (HeadingAndTrackReport_Mach m)
  | _ => True
  end.
