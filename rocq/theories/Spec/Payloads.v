(* More of what an aircraft sends: airspeeds (Doc 9871 Table A-2-9), and the advisories of the collision avoidance
   system (Annex 10 vol. IV 4.3.8.4.2.2.1), written field by field. *)
From Verif Require Import GoBase Bits.
From Verif.Spec Require Import Altitude Floats Squitter Reply.
From Verif.Gen Require acas_ra acas_ra_fields bds10 bds17 bds40 bds44 bds45.
Local Open Scope Z_scope.

(* an airspeed, for an aircraft that does not know its speed over the ground: subtype (3, or 4 when it is supersonic),
   intent change, IFR capability, navigation uncertainty; magnetic heading in steps of 360/1024 degree when it is known;
   airspeed, indicated or true, in steps of 1 kt (4 kt when supersonic); climb in steps of 64 ft/min; difference of the
   geometric altitude from the barometric altitude in steps of 25 ft *)
Definition airspeed_of (subtype intent ifr nuc : Z) (known : bool) (heading : Z) (true_airspeed : bool)
  (airspeed source rate difference : Z) : list field :=
  [(5, 19); (3, subtype); (1, intent); (1, ifr); (3, nuc); (1, flag known); (10, heading); (1, flag true_airspeed);
   (10, airspeed + 1); (1, source); (1, flag (rate <? 0)); (9, Z.abs rate + 1); (2, 0);
   (1, flag (difference <? 0)); (7, Z.abs difference + 1)].

(* ---- resolution advisories ---- *)
(* what the collision avoidance system advises: to avoid one threat, or several on the same side; to avoid several on
   both sides; or nothing in the vertical plane. It says whether there are several threats. *)
Inductive advisory : Type :=
| one_side (several corrective downward increased reversal crossing positive : bool)
| both_sides (correct_up climb correct_down descend crossing reversal : bool)
| no_advisory.

(* whom it avoids: not said, by its Mode S address, or by its altitude (when known), range and bearing *)
Inductive threat : Type :=
| unidentified
| at_address (address : Z)
| at_position (feet : option Z) (range bearing : Z).

(* the 14 bits of the advisory *)
Definition advisory_fields (a : advisory) : list field :=
  match a with
  | one_side _ corrective downward increased reversal crossing positive =>
    [(1, 1); (1, flag corrective); (1, flag downward); (1, flag increased); (1, flag reversal); (1, flag crossing); (1, flag positive); (7, 0)]
  | both_sides correct_up climb correct_down descend crossing reversal =>
    [(1, 0); (1, flag correct_up); (1, flag climb); (1, flag correct_down); (1, flag descend); (1, flag crossing); (1, flag reversal); (7, 0)]
  | no_advisory => [(14, 0)]
  end.
Definition several_threats (a : advisory) : bool :=
  match a with one_side several _ _ _ _ _ _ => several | both_sides _ _ _ _ _ _ => true | no_advisory => false end.

(* the 28 bits of the threat: the type of its identity, then its identity *)
Inductive threat_fields : threat -> list field -> Prop :=
| fields_unidentified : threat_fields unidentified [(2, 0); (26, 0)]
| fields_address address : threat_fields (at_address address) [(2, 1); (24, address); (2, 0)]
| fields_position feet altitude range bearing : altitude13_fields Feet100 feet altitude ->
    threat_fields (at_position (Some feet) range bearing) ([(2, 2)] ++ altitude ++ [(7, range); (6, bearing)])
| fields_no_altitude altitude range bearing : altitude13_fields NoAltitude 0 altitude ->
    threat_fields (at_position None range bearing) ([(2, 2)] ++ altitude ++ [(7, range); (6, bearing)]).

(* the 48 bits of a report: advisory; not to pass below, above, not to turn left, right; whether it is over; threats *)
Definition report_of (a : advisory) (below above left right over : bool) (who : list field) : list field :=
  advisory_fields a ++
  [(1, flag below); (1, flag above); (1, flag left); (1, flag right); (1, flag over); (1, flag (several_threats a))] ++ who.

(* what the library says for such a report *)
Definition advisory_said (a : advisory) : acas_ra_fields.ActiveResolutionAdvisory :=
  match a with
  | one_side _ corrective downward increased reversal crossing positive =>
    acas_ra_fields.IActiveResolutionAdvisory_ActiveRAOneThreatOrSameSeparation
      {| acas_ra_fields.ActiveRAOneThreatOrSameSeparation_PreventiveCorrective :=
           if corrective then acas_ra_fields.ActiveRACorrective else acas_ra_fields.ActiveRAPreventive;
         acas_ra_fields.ActiveRAOneThreatOrSameSeparation_Sense :=
           if downward then acas_ra_fields.ActiveRASenseDownward else acas_ra_fields.ActiveRASenseUpward;
         acas_ra_fields.ActiveRAOneThreatOrSameSeparation_IsIncreasedRate := increased;
         acas_ra_fields.ActiveRAOneThreatOrSameSeparation_IsSenseReversal := reversal;
         acas_ra_fields.ActiveRAOneThreatOrSameSeparation_IsAltitudeCrossing := crossing;
         acas_ra_fields.ActiveRAOneThreatOrSameSeparation_VerticalSpeedLimitOrPositive :=
           if positive then acas_ra_fields.ActiveRAPositive else acas_ra_fields.ActiveRAVerticalSpeedLimit |}
  | both_sides correct_up climb correct_down descend crossing reversal =>
    acas_ra_fields.IActiveResolutionAdvisory_ActiveRAMultipleThreatsDifferentSeparation
      {| acas_ra_fields.ActiveRAMultipleThreatsDifferentSeparation_RequiresCorrectionUpwardSense := correct_up;
         acas_ra_fields.ActiveRAMultipleThreatsDifferentSeparation_RequiresPositiveClimb := climb;
         acas_ra_fields.ActiveRAMultipleThreatsDifferentSeparation_RequiresCorrectionDownwardSense := correct_down;
         acas_ra_fields.ActiveRAMultipleThreatsDifferentSeparation_RequiresPositiveDescend := descend;
         acas_ra_fields.ActiveRAMultipleThreatsDifferentSeparation_RequiresCrossing := crossing;
         acas_ra_fields.ActiveRAMultipleThreatsDifferentSeparation_IsSenseReversal := reversal |}
  | no_advisory =>
    acas_ra_fields.IActiveResolutionAdvisory_ActiveRANoVerticalRAGenerated acas_ra_fields.mkActiveRANoVerticalRAGenerated
  end.

Definition threat_kind (t : threat) : Z := match t with unidentified => 0 | at_address _ => 1 | at_position _ _ _ => 2 end.

Definition said (a : advisory) (below above left right over : bool) (t : threat) : acas_ra.ResolutionAdvisory :=
  {| acas_ra.ResolutionAdvisory_ActiveRA := advisory_said a;
     acas_ra.ResolutionAdvisory_RAComplement :=
       {| acas_ra_fields.RAComplement_DoNotPassBelow := below; acas_ra_fields.RAComplement_DoNotPassAbove := above;
          acas_ra_fields.RAComplement_DoNotTurnLeft := left; acas_ra_fields.RAComplement_DoNotTurnRight := right |};
     acas_ra.ResolutionAdvisory_RATerminatedIndicator := flag over;
     acas_ra.ResolutionAdvisory_MultipleThreatEncounter := flag (several_threats a);
     acas_ra.ResolutionAdvisory_ThreatTypeIndicator := threat_kind t;
     acas_ra.ResolutionAdvisory_ThreatIdentityAddress := match t with at_address x => Some x | _ => None end;
     acas_ra.ResolutionAdvisory_ThreatIdentityAltitude :=
       match t with
       | at_position (Some feet) _ _ => Some {| acas_ra_fields.ThreatIdentityAltitude_AltitudeStatus := acas_ra_fields.AltitudeValid;
                                                acas_ra_fields.ThreatIdentityAltitude_AltitudeInFeet := feet |}
       | at_position None _ _ => Some {| acas_ra_fields.ThreatIdentityAltitude_AltitudeStatus := acas_ra_fields.AltitudeInvalid;
                                         acas_ra_fields.ThreatIdentityAltitude_AltitudeInFeet := 0 |}
       | _ => None
       end;
     acas_ra.ResolutionAdvisory_ThreatIdentityRange := match t with at_position _ r _ => Some r | _ => None end;
     acas_ra.ResolutionAdvisory_ThreatIdentityBearing := match t with at_position _ _ b => Some b | _ => None end |}.

(* what the library reads right of a threat: the two first pulses of its altitude, C1 and A1, and the last bit of its
   range are zero *)
Definition readable (t : threat) (who : list field) : Prop :=
  match t with
  | at_position _ range _ => (exists rest, who = (2, 2) :: (1, 0) :: (1, 0) :: rest \/ who = (2, 2) :: (13, 0) :: rest) /\ range mod 2 = 0
  | _ => True
  end.

(* ---- Comm-B registers ---- *)
(* a number that the aircraft may not know: its status, then the number, or zero *)
Definition known (v : option Z) : bool := match v with Some _ => true | None => false end.
Definition value (v : option Z) : Z := match v with Some z => z | None => 0 end.
Definition optional (w : Z) (v : option Z) : list field := [(1, flag (known v)); (w, value v)].
Definition optional_signed (w : Z) (v : option Z) : list field := (1, flag (known v)) :: signed_field w (value v).
Definition between (a b : Z) (v : option Z) : Prop := match v with Some z => a <= z <= b | None => True end.

(* BDS 5,0, when some of the fields may be missing; the units are those of Reply.track_register *)
Definition some_track_register (roll track speed rate airspeed : option Z) : list field :=
  optional_signed 10 roll ++ optional_signed 11 track ++ optional 10 speed ++ optional_signed 10 rate ++ optional 10 airspeed.

(* BDS 6,0, in the units of Reply.heading_register *)
Definition some_heading_register (heading airspeed mach baro inertial : option Z) : list field :=
  optional_signed 11 heading ++ optional 10 airspeed ++ optional 10 mach ++ optional_signed 10 baro ++ optional_signed 10 inertial.

(* BDS 4,0: altitudes selected on the control panel and in the flight management system (16 ft), pressure setting (0.1 hPa
   above 800 hPa), modes of the autopilot, source of the target altitude *)
Definition intention_register (mcp fms pressure : option Z) (modes vnav hold approach : bool) (source : option Z) : list field :=
  optional 12 mcp ++ optional 12 fms ++ optional 12 pressure ++
  [(8, 0); (1, flag modes); (1, flag vnav); (1, flag hold); (1, flag approach); (2, 0)] ++ optional 2 source.

(* BDS 4,4: source, wind speed (1 kt) and direction (180/128 degree), temperature (1/8 degree C), pressure (1 hPa),
   turbulence, humidity (1 %) *)
Definition routine_register (source : Z) (wind direction temperature pressure : option Z) (turbulence : Z) (humidity : option Z) : list field :=
  [(4, source)] ++ optional 9 wind ++ optional 8 direction ++ optional_signed 11 temperature ++ optional 11 pressure ++
  [(1, turbulence)] ++ optional 7 humidity.

(* BDS 4,5: severity of wind shear, microbursts, icing, wake vortex; temperature (1/8 degree C), radio height (2 ft),
   turbulence (average and peak in steps of 0.02, delay of the peak) *)
Definition hazard_register (shear burst icing wake temperature height : option Z) (turbulence : option (Z * Z * Z)) : list field :=
  optional 2 shear ++ optional 2 burst ++ optional 2 icing ++ optional 2 wake ++ optional_signed 11 temperature ++ optional 12 height ++
  match turbulence with
  | Some (average, peak, delay) => [(1, 1); (6, average); (6, peak); (4, delay)]
  | None => [(1, 0); (6, 0); (6, 0); (4, 0)]
  end ++ [(2, 0)].

(* BDS 1,7: which registers the aircraft services, for the 24 first of its table and the last one; the rest is reserved *)
Definition services_register (f : Z -> bool) : list field :=
  List.map (fun i => (1, flag (f i))) [1; 2; 3; 4; 5; 6; 7; 8; 9; 10; 11; 12; 13; 14; 15; 16; 17; 18; 19; 20; 21; 22; 23; 24] ++
  [(4, 0); (1, flag (f 29)); (27, 0)].

(* BDS 1,0: continuation, overlay command, ACAS operational, subnetwork version, enhanced protocol, specific services,
   uplink and downlink throughputs, identification capability, squitter capability, surveillance identifier, common
   usage, ACAS hybrid surveillance, ACAS generation, ACAS document, statuses of the terminals *)
Definition capability_register (continuation overlay acas version enhanced specific uplink downlink identification squitter
  sic common hybrid generation document terminals : Z) : list field :=
  [(8, 0x10); (1, continuation); (5, 0); (1, overlay); (1, acas); (7, version); (1, enhanced); (1, specific); (3, uplink);
   (4, downlink); (1, identification); (1, squitter); (1, sic); (1, common); (1, hybrid); (1, generation); (2, document); (16, terminals)].

(* what the library says for these registers *)
Inductive routine_said (source : Z) (wind direction temperature pressure : option Z) (turbulence : Z) (humidity : option Z) :
  bds44.MeteorologicalRoutineAirReport -> Prop :=
| routine_said_1 d t h : source = 0 ->
    is_value d (inject_Z (value direction) * (180 # 128)) -> is_value t (inject_Z (value temperature) * (1 # 8)) -> is_value h (inject_Z (value humidity)) ->
    routine_said source wind direction temperature pressure turbulence humidity (bds44.IMeteorologicalRoutineAirReport_MeteorologicalRoutineAirReportV1
      {| bds44.MeteorologicalRoutineAirReportV1_WindSpeedStatus := known wind;
         bds44.MeteorologicalRoutineAirReportV1_WindSpeed := value wind;
         bds44.MeteorologicalRoutineAirReportV1_WindDirectionStatus := known direction;
         bds44.MeteorologicalRoutineAirReportV1_WindDirection := d;
         bds44.MeteorologicalRoutineAirReportV1_StaticAirTemperatureStatus := known temperature;
         bds44.MeteorologicalRoutineAirReportV1_StaticAirTemperature := t;
         bds44.MeteorologicalRoutineAirReportV1_AverageStaticPressureStatus := known pressure;
         bds44.MeteorologicalRoutineAirReportV1_AverageStaticPressure := value pressure;
         bds44.MeteorologicalRoutineAirReportV1_TurbulenceFlag := turbulence;
         bds44.MeteorologicalRoutineAirReportV1_HumidityStatus := known humidity;
         bds44.MeteorologicalRoutineAirReportV1_Humidity := h |})
| routine_said_2 d t h : source <> 0 ->
    is_value d (inject_Z (value direction) * (180 # 128)) -> is_value t (inject_Z (value temperature) * (1 # 8)) -> is_value h (inject_Z (value humidity)) ->
    routine_said source wind direction temperature pressure turbulence humidity (bds44.IMeteorologicalRoutineAirReport_MeteorologicalRoutineAirReportV2
      {| bds44.MeteorologicalRoutineAirReportV2_Source := source;
         bds44.MeteorologicalRoutineAirReportV2_WindSpeedStatus := known wind;
         bds44.MeteorologicalRoutineAirReportV2_WindSpeed := value wind;
         bds44.MeteorologicalRoutineAirReportV2_WindDirectionStatus := known direction;
         bds44.MeteorologicalRoutineAirReportV2_WindDirection := d;
         bds44.MeteorologicalRoutineAirReportV2_StaticAirTemperatureStatus := known temperature;
         bds44.MeteorologicalRoutineAirReportV2_StaticAirTemperature := t;
         bds44.MeteorologicalRoutineAirReportV2_AverageStaticPressureStatus := known pressure;
         bds44.MeteorologicalRoutineAirReportV2_AverageStaticPressure := value pressure;
         bds44.MeteorologicalRoutineAirReportV2_TurbulenceFlag := turbulence;
         bds44.MeteorologicalRoutineAirReportV2_HumidityStatus := known humidity;
         bds44.MeteorologicalRoutineAirReportV2_Humidity := h |}).

Definition average (t : option (Z * Z * Z)) : Z := match t with Some (a, _, _) => a | None => 0 end.
Definition peak (t : option (Z * Z * Z)) : Z := match t with Some (_, p, _) => p | None => 0 end.
Definition delay (t : option (Z * Z * Z)) : Z := match t with Some (_, _, d) => d | None => 0 end.

Inductive hazard_said (shear burst icing wake temperature height : option Z) (turbulence : option (Z * Z * Z)) :
  bds45.MeteorologicalHazardReport -> Prop :=
| hazard_said_1 t a p : is_value t (inject_Z (value temperature) * (1 # 8)) ->
    is_close a (inject_Z (average turbulence) * (1 # 50)) (1 # 10000000) -> is_close p (inject_Z (peak turbulence) * (1 # 50)) (1 # 10000000) ->
    hazard_said shear burst icing wake temperature height turbulence (bds45.IMeteorologicalHazardReport_MeteorologicalHazardReportV1
      {| bds45.MeteorologicalHazardReportV1_WindShearStatus := known shear;
         bds45.MeteorologicalHazardReportV1_WindShear := value shear;
         bds45.MeteorologicalHazardReportV1_MicroBurstStatus := known burst;
         bds45.MeteorologicalHazardReportV1_MicroBurst := value burst;
         bds45.MeteorologicalHazardReportV1_IcingStatus := known icing;
         bds45.MeteorologicalHazardReportV1_Icing := value icing;
         bds45.MeteorologicalHazardReportV1_WakeVortexStatus := known wake;
         bds45.MeteorologicalHazardReportV1_WakeVortex := value wake;
         bds45.MeteorologicalHazardReportV1_StaticAirTemperatureStatus := known temperature;
         bds45.MeteorologicalHazardReportV1_StaticAirTemperature := t;
         bds45.MeteorologicalHazardReportV1_AverageStaticPressureStatus := false;
         bds45.MeteorologicalHazardReportV1_AverageStaticPressure := 0;
         bds45.MeteorologicalHazardReportV1_RadioHeightStatus := known height;
         bds45.MeteorologicalHazardReportV1_RadioHeight := 2 * value height;
         bds45.MeteorologicalHazardReportV1_TurbulenceStatus := match turbulence with Some _ => true | None => false end;
         bds45.MeteorologicalHazardReportV1_TurbulenceAverageEDR := a;
         bds45.MeteorologicalHazardReportV1_TurbulencePeakEDR := p;
         bds45.MeteorologicalHazardReportV1_TurbulencePeakDelayInterval := delay turbulence |}).

Definition services_said (f : Z -> bool) : bds17.CommonUsageGICBCapabilityReport :=
  {| bds17.CommonUsageGICBCapabilityReport_ExtendedSquitterAirbornePosition := f 1;
     bds17.CommonUsageGICBCapabilityReport_ExtendedSquitterSurfacePosition := f 2;
     bds17.CommonUsageGICBCapabilityReport_ExtendedSquitterStatus := f 3;
     bds17.CommonUsageGICBCapabilityReport_ExtendedSquitterIdentificationAndCategory := f 4;
     bds17.CommonUsageGICBCapabilityReport_ExtendedSquitterAirborneVelocityInformation := f 5;
     bds17.CommonUsageGICBCapabilityReport_ExtendedSquitterEventDrivenInformation := f 6;
     bds17.CommonUsageGICBCapabilityReport_AircraftIdentification := f 7;
     bds17.CommonUsageGICBCapabilityReport_AircraftRegistrationNumber := f 8;
     bds17.CommonUsageGICBCapabilityReport_SelectedVerticalIntention := f 9;
     bds17.CommonUsageGICBCapabilityReport_NextWaypointIdentifier := f 10;
     bds17.CommonUsageGICBCapabilityReport_NextWaypointPosition := f 11;
     bds17.CommonUsageGICBCapabilityReport_NextWaypointInformation := f 12;
     bds17.CommonUsageGICBCapabilityReport_MeteorologicalRoutineReport := f 13;
     bds17.CommonUsageGICBCapabilityReport_MeteorologicalHazardReport := f 14;
     bds17.CommonUsageGICBCapabilityReport_VHFChannelReport := f 15;
     bds17.CommonUsageGICBCapabilityReport_TrackAndTurnReport := f 16;
     bds17.CommonUsageGICBCapabilityReport_PositionCoarse := f 17;
     bds17.CommonUsageGICBCapabilityReport_PositionFine := f 18;
     bds17.CommonUsageGICBCapabilityReport_AirReferencedStateVector := f 19;
     bds17.CommonUsageGICBCapabilityReport_Waypoint1 := f 20;
     bds17.CommonUsageGICBCapabilityReport_Waypoint2 := f 21;
     bds17.CommonUsageGICBCapabilityReport_Waypoint3 := f 22;
     bds17.CommonUsageGICBCapabilityReport_QuasiStaticParameterMonitoring := f 23;
     bds17.CommonUsageGICBCapabilityReport_HeadingAndSpeedReport := f 24;
     bds17.CommonUsageGICBCapabilityReport_MilitaryApplications := f 29 |}.

Definition capability_said (continuation overlay acas version enhanced specific uplink downlink identification squitter
  sic common hybrid generation document terminals : Z) : bds10.DataLinkCapabilityReport :=
  {| bds10.DataLinkCapabilityReport_ContinuationFlag := continuation;
     bds10.DataLinkCapabilityReport_OverlayCommandCapability := overlay;
     bds10.DataLinkCapabilityReport_ACASStatus := acas;
     bds10.DataLinkCapabilityReport_ModeSSubnetworkVersion := version;
     bds10.DataLinkCapabilityReport_TransponderEnhancedProtocolIndicator := enhanced;
     bds10.DataLinkCapabilityReport_ModeSSpecificServicesCapability := specific;
     bds10.DataLinkCapabilityReport_UplinkELMThroughputCapability := uplink;
     bds10.DataLinkCapabilityReport_DownlinkELMThroughputCapability := downlink;
     bds10.DataLinkCapabilityReport_AircraftIdentificationCapability := identification;
     bds10.DataLinkCapabilityReport_SquitterCapabilitySubfield := squitter;
     bds10.DataLinkCapabilityReport_SurveillanceIdentifierCode := sic;
     bds10.DataLinkCapabilityReport_CommonUsageGICBCapability := common;
     bds10.DataLinkCapabilityReport_ACASHybridSurveillanceCapability := hybrid;
     bds10.DataLinkCapabilityReport_ACASGenerationCapability := generation;
     bds10.DataLinkCapabilityReport_ACASApplicableDocument := document;
     bds10.DataLinkCapabilityReport_DTESubAddressStatuses := terminals |}.

Inductive intention_said (mcp fms pressure : option Z) (modes vnav hold approach : bool) (source : option Z) : bds40.SelectedVerticalIntention -> Prop :=
| intention_said_1 p : is_close p ((800 # 1) + (1 # 10) * inject_Z (value pressure)) (1 # 10000) ->
    intention_said mcp fms pressure modes vnav hold approach source
      {| bds40.SelectedVerticalIntention_MCPFCUSelectedAltitudeAvailable := known mcp;
         bds40.SelectedVerticalIntention_MCPFCUSelectedAltitude := 16 * value mcp;
         bds40.SelectedVerticalIntention_FMSSelectedAltitudeAvailable := known fms;
         bds40.SelectedVerticalIntention_FMSSelectedAltitude := 16 * value fms;
         bds40.SelectedVerticalIntention_BarometricPressureSettingAvailable := known pressure;
         bds40.SelectedVerticalIntention_BarometricPressureSetting := p;
         bds40.SelectedVerticalIntention_StatusOfModeBits := flag modes;
         bds40.SelectedVerticalIntention_VNAVMode := vnav;
         bds40.SelectedVerticalIntention_AltitudeHoldMode := hold;
         bds40.SelectedVerticalIntention_ApproachMode := approach;
         bds40.SelectedVerticalIntention_StatusOfTargetAltitudeSource := flag (known source);
         bds40.SelectedVerticalIntention_TargetAltitudeSource := value source |}.
