(* Property theorems: Payload. Generated by tools/mkprops.py; proofs are in theories/Proofs. *)
From Verif Require Import GoBase Bits.
From Verif.Spec Require Import Altitude ModeS Crc Identification Floats Adsb CommB CommBMessages Squitter Reply Payloads.
From Verif.Gen Require bds00 bds07 bds09 bds10 bds17 bds30 bds40 bds44 bds45 bds50 bds60 bds61 adsb_aircraft_status adsb_airborne_velocity acas_ra acas_ra_fields modes_messages.
From Verif.Model Require Import Crc ModesReader AdsbReader CommbReader.
From Verif.Proofs Require Payloads Registers2.
Local Open Scope Z_scope.

Theorem C94_airspeed_told_partial : forall v nicA nicC ca icao intent ifr nuc known heading tas airspeed source rate difference frame,
  0 <= airspeed <= 1021 -> Z.abs rate <= 509 -> Z.abs difference <= 125 ->
  Squitter ca icao (airspeed_of 3 intent ifr nuc known heading tas airspeed source rate difference) frame ->
  exists m x,
    received v nicA nicC frame icao (AVelocity m) /\
    adsb_airborne_velocity.AirborneVelocity_AirborneVelocity m = bds09.IAirborneVelocity_AirborneVelocityAirSpeedNormal x /\
    bds09.AirborneVelocityAirSpeedNormal_IntentChange x = intent /\
    bds09.AirborneVelocityAirSpeedNormal_IFRCapability x = ifr /\
    bds09.AirborneVelocityAirSpeedNormal_NavigationUncertaintyCategory x = nuc /\
    bds09.AirborneVelocityAirSpeedNormal_MagneticHeadingStatus x = flag known /\
    is_value (bds09.AirborneVelocityAirSpeedNormal_MagneticHeading x) (inject_Z heading * (360 # 1024)) /\
    bds09.AirborneVelocityAirSpeedNormal_AirspeedStatus x = 1 /\
    bds09.AirborneVelocityAirSpeedNormal_Airspeed x = airspeed /\
    bds09.AirborneVelocityAirSpeedNormal_VerticalRateSource x = source /\
    bds09.AirborneVelocityAirSpeedNormal_VerticalRateStatus x = 1 /\
    bds09.AirborneVelocityAirSpeedNormal_VerticalRate x = 64 * rate /\
    bds09.AirborneVelocityAirSpeedNormal_HeightDifferenceFromBaroStatus x = 1 /\
    bds09.AirborneVelocityAirSpeedNormal_HeightDifferenceFromBaro x = 25 * difference.
Proof. exact Payloads.airspeed_told. Qed.
Print Assumptions C94_airspeed_told_partial.

Theorem C94_airspeed_supersonic_told_partial : forall v nicA nicC ca icao intent ifr nuc known heading tas airspeed source rate difference frame,
  0 <= airspeed <= 1021 -> Z.abs rate <= 509 -> Z.abs difference <= 125 ->
  Squitter ca icao (airspeed_of 4 intent ifr nuc known heading tas airspeed source rate difference) frame ->
  exists m x,
    received v nicA nicC frame icao (AVelocity m) /\
    adsb_airborne_velocity.AirborneVelocity_AirborneVelocity m = bds09.IAirborneVelocity_AirborneVelocityAirSpeedSupersonic x /\
    bds09.AirborneVelocityAirSpeedSupersonic_IntentChange x = intent /\
    bds09.AirborneVelocityAirSpeedSupersonic_IFRCapability x = ifr /\
    bds09.AirborneVelocityAirSpeedSupersonic_NavigationUncertaintyCategory x = nuc /\
    bds09.AirborneVelocityAirSpeedSupersonic_MagneticHeadingStatus x = flag known /\
    is_value (bds09.AirborneVelocityAirSpeedSupersonic_MagneticHeading x) (inject_Z heading * (360 # 1024)) /\
    bds09.AirborneVelocityAirSpeedSupersonic_AirspeedStatus x = 1 /\
    bds09.AirborneVelocityAirSpeedSupersonic_Airspeed x = 4 * airspeed /\
    bds09.AirborneVelocityAirSpeedSupersonic_VerticalRateSource x = source /\
    bds09.AirborneVelocityAirSpeedSupersonic_VerticalRateStatus x = 1 /\
    bds09.AirborneVelocityAirSpeedSupersonic_VerticalRate x = 64 * rate /\
    bds09.AirborneVelocityAirSpeedSupersonic_HeightDifferenceFromBaroStatus x = 1 /\
    bds09.AirborneVelocityAirSpeedSupersonic_HeightDifferenceFromBaro x = 25 * difference.
Proof. exact Payloads.airspeed_supersonic_told. Qed.
Print Assumptions C94_airspeed_supersonic_told_partial.

Theorem C94_airspeed_kind_refuted : exists a b m,
  Squitter 5 0x400940 (airspeed_of 3 0 0 0 true 694 false 375 1 (-37) 4) a /\
  Squitter 5 0x400940 (airspeed_of 3 0 0 0 true 694 true 375 1 (-37) 4) b /\
  received 2 false false a 0x400940 m /\ received 2 false false b 0x400940 m.
Proof. exact Payloads.airspeed_kind_refuted. Qed.
Print Assumptions C94_airspeed_kind_refuted.

Example C94_airspeed_told_example : exists frame,
  Squitter 5 0x400940 (airspeed_of 3 0 0 0 true 694 true 375 1 (-37) 4) frame.
Proof. exact Payloads.airspeed_told_example. Qed.
Print Assumptions C94_airspeed_told_example.

Theorem C95_advisory_reply_told_partial : forall vertical sensitivity information coding feet altitude icao frame
    a below above left right over t who,
  altitude13_fields coding feet altitude -> threat_fields t who -> readable t who ->
  Reply (air_air_long vertical sensitivity information altitude ((8, 0x30) :: report_of a below above left right over who)) icao frame ->
  exists d, answered frame icao (MDF16 d) /\
    modes_messages.MessageDF16_Altitude d = feet /\
    List.hd 0 (modes_messages.MessageDF16_MessageACAS d) = 0x30 /\
    acas_ra.ReadResolutionAdvisory (List.tl (modes_messages.MessageDF16_MessageACAS d)) = Ok (said a below above left right over t).
Proof. exact Payloads.advisory_reply_told_partial. Qed.
Print Assumptions C95_advisory_reply_told_partial.

Theorem C95_advisory_squitter_told_partial : forall v nicA nicC ca icao a below above left right over t who frame,
  threat_fields t who -> readable t who ->
  Squitter ca icao ([(5, 28); (3, 2)] ++ report_of a below above left right over who) frame ->
  exists m, received v nicA nicC frame icao (AStatus m) /\
    adsb_aircraft_status.AircraftStatus_AircraftStatus m = bds61.IAircraftStatus_AircraftStatusACAS
      {| bds61.AircraftStatusACAS_FormatTypeCode := 28;
         bds61.AircraftStatusACAS_Subtype := 2;
         bds61.AircraftStatusACAS_ResolutionAdvisory := said a below above left right over t |}.
Proof. exact Payloads.advisory_squitter_told_partial. Qed.
Print Assumptions C95_advisory_squitter_told_partial.

Theorem C95_advisory_register_told_partial : forall a below above left right over t who,
  threat_fields t who -> readable t who -> fits (report_of a below above left right over who) ->
  exists l, ReadCommBMessage (message ((8, 0x30) :: report_of a below above left right over who)) = Ok l /\
    forall x, List.In (B30 x) l <->
      x = {| bds30.ACASResolutionAdvisory_ResolutionAdvisory := said a below above left right over t |}.
Proof. exact Payloads.advisory_register_told_partial. Qed.
Print Assumptions C95_advisory_register_told_partial.

Example C95_advisory_told_example : exists who frame, threat_fields (at_position (Some 8900) 46 12) who /\
  readable (at_position (Some 8900) 46 12) who /\
  Squitter 5 0x400940 ([(5, 28); (3, 2)] ++ report_of (one_side true true false true false true true) true false false false false who) frame.
Proof. exact Payloads.advisory_told_example. Qed.
Print Assumptions C95_advisory_told_example.

Theorem C96_some_track_told_partial : forall roll track speed rate airspeed,
  between (-284) 284 roll -> between (-1024) 1023 track -> between 0 300 speed -> between (-512) 511 rate -> between 0 250 airspeed ->
  Z.abs (value speed - value airspeed) <= 100 ->
  track <> None \/ speed <> None \/ rate <> None \/ airspeed <> None ->
  exists l m, ReadCommBMessage (message (some_track_register roll track speed rate airspeed)) = Ok l /\
    (forall x, List.In (B50 x) l <-> x = m) /\
    bds50.TrackAndTurnReport_RollAngleStatus m = known roll /\
    is_value (bds50.TrackAndTurnReport_RollAngle m) (inject_Z (value roll) * (45 # 256)) /\
    bds50.TrackAndTurnReport_TrueTrackAngleStatus m = known track /\
    is_value (bds50.TrackAndTurnReport_TrueTrackAngle m) (inject_Z (value track) * (90 # 512)) /\
    bds50.TrackAndTurnReport_GroundSpeedStatus m = known speed /\
    bds50.TrackAndTurnReport_GroundSpeed m = 2 * value speed /\
    bds50.TrackAndTurnReport_TrackAngleRateStatus m = known rate /\
    is_value (bds50.TrackAndTurnReport_TrackAngleRate m) (inject_Z (value rate) * (8 # 256)) /\
    bds50.TrackAndTurnReport_TrueAirSpeedStatus m = known airspeed /\
    bds50.TrackAndTurnReport_TrueAirSpeed m = 2 * value airspeed.
Proof. exact Registers2.some_track_told_partial. Qed.
Print Assumptions C96_some_track_told_partial.

Theorem C96_track_lost_refuted : forall roll track speed rate,
  between (-284) 284 roll -> between (-1024) 1023 track -> 100 < speed <= 300 -> between (-512) 511 rate ->
  exists l, ReadCommBMessage (message (some_track_register roll track (Some speed) rate None)) = Ok l /\
    forall x, ~ List.In (B50 x) l.
Proof. exact Registers2.track_lost_refuted. Qed.
Print Assumptions C96_track_lost_refuted.

Theorem C96_some_heading_told_partial : forall heading airspeed mach baro inertial,
  between (-1024) 1023 heading -> between 0 500 airspeed -> between 0 250 mach -> between (-187) 187 baro -> between (-187) 187 inertial ->
  airspeed <> None \/ mach <> None \/ baro <> None \/ inertial <> None ->
  exists l m, ReadCommBMessage (message (some_heading_register heading airspeed mach baro inertial)) = Ok l /\
    (forall x, List.In (B60 x) l <-> x = m) /\
    bds60.HeadingAndTrackReport_MagneticHeadingStatus m = known heading /\
    is_value (bds60.HeadingAndTrackReport_MagneticHeading m) (inject_Z (value heading) * (90 # 512)) /\
    bds60.HeadingAndTrackReport_IndicatedAirSpeedStatus m = known airspeed /\
    bds60.HeadingAndTrackReport_IndicatedAirSpeed m = value airspeed /\
    bds60.HeadingAndTrackReport_MachStatus m = known mach /\
    is_close (bds60.HeadingAndTrackReport_Mach m) (inject_Z (value mach) * (4 # 1000)) (1 # 1000000) /\
    bds60.HeadingAndTrackReport_BarometricAltitudeRateStatus m = known baro /\
    bds60.HeadingAndTrackReport_BarometricAltitudeRate m = 32 * value baro /\
    bds60.HeadingAndTrackReport_InitialVerticalVelocityStatus m = known inertial /\
    bds60.HeadingAndTrackReport_InitialVerticalVelocity m = 32 * value inertial.
Proof. exact Registers2.some_heading_told. Qed.
Print Assumptions C96_some_heading_told_partial.

Example C96_some_track_example :
  message (some_track_register (Some (-12)) (Some 650) (Some 219) None (Some 212)) = [0xFE; 0x95; 0x15; 0x36; 0xC0; 0x04; 0xD4] /\
  between (-284) 284 (Some (-12)) /\ between (-1024) 1023 (Some 650) /\ between 0 300 (Some 219) /\ between (-512) 511 None /\ between 0 250 (Some 212) /\
  Z.abs (value (Some 219) - value (Some 212)) <= 100.
Proof. exact Registers2.some_track_example. Qed.
Print Assumptions C96_some_track_example.

Example C96_some_heading_example :
  message (some_heading_register (Some (-300)) (Some 270) None (Some (-40)) None) = [0xED; 0x4A; 0x1C; 0x00; 0x3E; 0xC0; 0x00] /\
  between (-1024) 1023 (Some (-300)) /\ between 0 500 (Some 270) /\ between 0 250 None /\ between (-187) 187 (Some (-40)) /\ between (-187) 187 None.
Proof. exact Registers2.some_heading_example. Qed.
Print Assumptions C96_some_heading_example.

Theorem C97_routine_told : forall source wind direction temperature pressure turbulence humidity,
  0 <= source <= 4 -> between 0 250 wind -> between 0 255 direction -> between (-640) 480 temperature -> between 0 2047 pressure ->
  0 <= turbulence <= 1 -> between 0 127 humidity ->
  source <> 2 \/ wind <> None ->
  direction <> None \/ temperature <> None \/ pressure <> None \/ humidity <> None ->
  exists l m, ReadCommBMessage (message (routine_register source wind direction temperature pressure turbulence humidity)) = Ok l /\
    (forall x, List.In (B44 x) l <-> x = m) /\
    routine_said source wind direction temperature pressure turbulence humidity m.
Proof. exact Registers2.routine_told. Qed.
Print Assumptions C97_routine_told.

Theorem C97_hazard_told : forall shear burst icing wake temperature height turbulence,
  between 0 3 shear -> between 0 3 burst -> between 0 3 icing -> between 0 3 wake -> between (-640) 480 temperature -> between 0 4095 height ->
  0 <= average turbulence <= 63 -> 0 <= peak turbulence <= 63 -> 0 <= delay turbulence <= 15 ->
  wake <> None \/ temperature <> None \/ height <> None \/ turbulence <> None ->
  exists l m, ReadCommBMessage (message (hazard_register shear burst icing wake temperature height turbulence)) = Ok l /\
    (forall x, List.In (B45 x) l <-> x = m) /\
    hazard_said shear burst icing wake temperature height turbulence m.
Proof. exact Registers2.hazard_told. Qed.
Print Assumptions C97_hazard_told.

Theorem C97_services_told : forall f, f 7 = true -> (exists i, 9 <= i <= 24 /\ f i = true) \/ f 29 = true ->
  exists l, ReadCommBMessage (message (services_register f)) = Ok l /\
    forall x, List.In (B17 x) l <-> x = services_said f.
Proof. exact Registers2.services_told. Qed.
Print Assumptions C97_services_told.

Theorem C97_status_told : forall rate altitude, 0 <= rate <= 2 -> 0 <= altitude <= 1 -> 0 < rate + altitude ->
  ReadCommBMessage (message [(2, rate); (1, altitude); (53, 0)]) =
    Ok [B07 {| bds07.Status_TransmissionRateSubfield := rate; bds07.Status_AltitudeTypeSubfield := altitude |}].
Proof. exact Registers2.status_told. Qed.
Print Assumptions C97_status_told.

Theorem C97_nothing_told : ReadCommBMessage (message [(56, 0)]) = Ok [B00 bds00.mkNoMessageAvailable].
Proof. exact Registers2.nothing_told. Qed.
Print Assumptions C97_nothing_told.

Example C97_routine_told_example :
  message (routine_register 1 (Some 22) (Some 245) (Some (-390)) None 0 None) = [0x18; 0x5B; 0xEB; 0xCF; 0x40; 0x00; 0x00] /\
  between 0 250 (Some 22) /\ between 0 255 (Some 245) /\ between (-640) 480 (Some (-390)).
Proof. exact Registers2.routine_told_example. Qed.
Print Assumptions C97_routine_told_example.

Example C97_hazard_told_example :
  message (hazard_register None None (Some 2) None (Some (-100)) (Some 500) (Some (10, 20, 3))) = [0x03; 0x0F; 0x9C; 0x8F; 0xA4; 0xA5; 0x0C] /\
  between (-640) 480 (Some (-100)) /\ between 0 4095 (Some 500) /\ 0 <= average (Some (10, 20, 3)) <= 63.
Proof. exact Registers2.hazard_told_example. Qed.
Print Assumptions C97_hazard_told_example.

Example C97_services_told_example :
  message (services_register (fun i => existsb (Z.eqb i) [1; 2; 3; 4; 5; 7; 9; 16; 24])) = [0xFA; 0x81; 0x01; 0x00; 0x00; 0x00; 0x00].
Proof. exact Registers2.services_told_example. Qed.
Print Assumptions C97_services_told_example.

Theorem C98_intention_told_partial : forall altitude pressure modes vnav hold approach source,
  0 <= altitude <= 4095 -> 0 <= pressure <= 4095 -> between 0 3 source ->
  exists l m, ReadCommBMessage (message (intention_register (Some altitude) (Some altitude) (Some pressure) modes vnav hold approach source)) = Ok l /\
    (forall x, List.In (B40 x) l <-> x = m) /\
    intention_said (Some altitude) (Some altitude) (Some pressure) modes vnav hold approach source m.
Proof. exact Registers2.intention_told_partial. Qed.
Print Assumptions C98_intention_told_partial.

Theorem C98_intention_lost_refuted : forall mcp fms pressure modes vnav hold approach source,
  between 0 4095 mcp -> between 0 4095 fms -> between 0 4095 pressure -> between 0 3 source -> fms <> None \/ pressure <> None ->
  mcp = None \/ fms = None /\ value mcp <> 0 ->
  exists l, ReadCommBMessage (message (intention_register mcp fms pressure modes vnav hold approach source)) = Ok l /\
    forall x, ~ List.In (B40 x) l.
Proof. exact Registers2.intention_lost_refuted. Qed.
Print Assumptions C98_intention_lost_refuted.

Theorem C98_capability_told_partial : forall continuation overlay acas version enhanced specific uplink downlink identification squitter sic common hybrid generation document terminals,
  fits (capability_register continuation overlay acas version enhanced specific uplink downlink identification squitter sic common hybrid generation document terminals) ->
  version <= 5 -> uplink <= 6 -> downlink <= 6 -> (acas = 1 -> document <= 2) -> (acas = 0 -> hybrid = 0 /\ generation = 0 /\ document = 0) ->
  exists l sic', ReadCommBMessage (message (capability_register continuation overlay acas version enhanced specific uplink downlink identification squitter sic common hybrid generation document terminals)) = Ok l /\
    forall x, List.In (B10 x) l <-> x = capability_said continuation overlay acas version enhanced specific uplink downlink identification squitter sic' common hybrid generation document terminals.
Proof. exact Registers2.capability_told_partial. Qed.
Print Assumptions C98_capability_told_partial.

Example C98_intention_told_example :
  message (intention_register (Some 1875) (Some 1875) (Some 2132) true true false false (Some 2)) = [0xBA; 0x9D; 0xD4; 0xF0; 0xA8; 0x01; 0x86].
Proof. exact Registers2.intention_told_example. Qed.
Print Assumptions C98_intention_told_example.

Example C98_capability_told_example :
  message (capability_register 0 0 1 5 0 1 6 6 1 1 0 1 1 1 2 0) = [0x10; 0x01; 0x0A; 0xE6; 0xDE; 0x00; 0x00] /\ fits (capability_register 0 0 1 5 0 1 6 6 1 1 0 1 1 1 2 0).
Proof. exact Registers2.capability_told_example. Qed.
Print Assumptions C98_capability_told_example.
