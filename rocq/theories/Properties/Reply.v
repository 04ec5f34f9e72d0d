(* Property theorems: Reply. Generated by tools/mkprops.py; proofs are in theories/Proofs. *)
From Verif Require Import GoBase Bits.
From Verif.Spec Require Import Altitude ModeS Crc Identification Floats Adsb CommB CommBMessages Squitter Reply.
From Verif.Gen Require modes_fields modes_messages bds20 bds50 bds60 bds61 adsb_aircraft_status.
From Verif.Model Require Import Crc ModesReader AdsbReader CommbReader.
From Verif.Proofs Require Registers Reply Squitter.
Local Open Scope Z_scope.

Theorem C82_altitude_reply_told : forall status request interrogator designator coding feet altitude icao frame,
  altitude13_fields coding feet altitude ->
  Reply (surveillance 4 status request interrogator designator altitude) icao frame ->
  exists d, answered frame icao (MDF4 d) /\
    modes_messages.MessageDF4_FlightStatus d = status /\
    modes_messages.MessageDF4_DownlinkRequest d = request /\
    modes_messages.MessageDF4_UtilityMessage d =
      {| modes_fields.UtilityMessage_InterrogatorIdentifier := interrogator; modes_fields.UtilityMessage_IdentifierDesignator := designator |} /\
    modes_messages.MessageDF4_AltitudeReportMethod d = coding_code coding /\
    modes_messages.MessageDF4_Altitude d = feet.
Proof. exact Reply.altitude_reply_told. Qed.
Print Assumptions C82_altitude_reply_told.

Theorem C82_altitude_commb_told : forall status request interrogator designator coding feet altitude register icao frame,
  altitude13_fields coding feet altitude -> width register = 56 ->
  Reply (surveillance 20 status request interrogator designator altitude ++ register) icao frame ->
  exists d, answered frame icao (MDF20 d) /\
    modes_messages.MessageDF20_FlightStatus d = status /\
    modes_messages.MessageDF20_DownlinkRequest d = request /\
    modes_messages.MessageDF20_UtilityMessage d =
      {| modes_fields.UtilityMessage_InterrogatorIdentifier := interrogator; modes_fields.UtilityMessage_IdentifierDesignator := designator |} /\
    modes_messages.MessageDF20_AltitudeReportMethod d = coding_code coding /\
    modes_messages.MessageDF20_Altitude d = feet /\
    modes_messages.MessageDF20_MessageCommB d = message register.
Proof. exact Reply.altitude_commb_told. Qed.
Print Assumptions C82_altitude_commb_told.

Theorem C82_air_air_told : forall vertical crosslink sensitivity information coding feet altitude icao frame,
  altitude13_fields coding feet altitude ->
  Reply (air_air vertical crosslink sensitivity information altitude) icao frame ->
  exists d, answered frame icao (MDF0 d) /\
    modes_messages.MessageDF0_VerticalStatus d = vertical /\
    modes_messages.MessageDF0_CrossLinkCapability d = crosslink /\
    modes_messages.MessageDF0_SensitivityLevel d = sensitivity /\
    modes_messages.MessageDF0_ReplyInformation d = information /\
    modes_messages.MessageDF0_AltitudeReportMethod d = coding_code coding /\
    modes_messages.MessageDF0_Altitude d = feet.
Proof. exact Reply.air_air_told. Qed.
Print Assumptions C82_air_air_told.

Theorem C82_air_air_long_told : forall vertical sensitivity information coding feet altitude mv icao frame,
  altitude13_fields coding feet altitude -> width mv = 56 ->
  Reply (air_air_long vertical sensitivity information altitude mv) icao frame ->
  exists d, answered frame icao (MDF16 d) /\
    modes_messages.MessageDF16_VerticalStatus d = vertical /\
    modes_messages.MessageDF16_SensitivityLevel d = sensitivity /\
    modes_messages.MessageDF16_ReplyInformation d = information /\
    modes_messages.MessageDF16_AltitudeReportMethod d = coding_code coding /\
    modes_messages.MessageDF16_Altitude d = feet /\
    modes_messages.MessageDF16_MessageACAS d = message mv.
Proof. exact Reply.air_air_long_told. Qed.
Print Assumptions C82_air_air_long_told.

Theorem C82_reply_exists : forall fields overlay, fits fields -> width fields = 32 \/ width fields = 88 -> 0 <= overlay < 2 ^ 24 ->
  exists frame, Reply fields overlay frame.
Proof. exact Reply.reply_exists. Qed.
Print Assumptions C82_reply_exists.

Example C82_altitude_reply_example :
  altitude13_fields Feet25 37000 [(6, 1520 / 32); (1, 0); (1, 1520 / 16 mod 2); (1, 1); (4, 1520 mod 16)] /\
  Reply (surveillance 4 0 0 0 0 [(6, 1520 / 32); (1, 0); (1, 1520 / 16 mod 2); (1, 1); (4, 1520 mod 16)]) 0x4840D6
    [0x20; 0x0; 0x17; 0xb0; 0x4; 0xf9; 0xa1].
Proof. exact Reply.altitude_reply_example. Qed.
Print Assumptions C82_altitude_reply_example.

Example C82_altitude13_example : exists alt, altitude13_fields Feet100 3700 alt.
Proof. exact Reply.altitude13_example. Qed.
Print Assumptions C82_altitude13_example.

Theorem C83_identity_reply_told : forall status request interrogator designator a b c d icao frame,
  octal a -> octal b -> octal c -> octal d ->
  Reply (surveillance 5 status request interrogator designator (squawk_fields a b c d)) icao frame ->
  exists m, answered frame icao (MDF5 m) /\
    modes_messages.MessageDF5_FlightStatus m = status /\
    modes_messages.MessageDF5_DownlinkRequest m = request /\
    modes_messages.MessageDF5_UtilityMessage m =
      {| modes_fields.UtilityMessage_InterrogatorIdentifier := interrogator; modes_fields.UtilityMessage_IdentifierDesignator := designator |} /\
    modes_messages.MessageDF5_Identity m = {| modes_fields.Identity_Identity := squawk a b c d |}.
Proof. exact Reply.identity_reply_told. Qed.
Print Assumptions C83_identity_reply_told.

Theorem C83_identity_commb_told : forall status request interrogator designator a b c d register icao frame,
  octal a -> octal b -> octal c -> octal d -> width register = 56 ->
  Reply (surveillance 21 status request interrogator designator (squawk_fields a b c d) ++ register) icao frame ->
  exists m, answered frame icao (MDF21 m) /\
    modes_messages.MessageDF21_FlightStatus m = status /\
    modes_messages.MessageDF21_DownlinkRequest m = request /\
    modes_messages.MessageDF21_UtilityMessage m =
      {| modes_fields.UtilityMessage_InterrogatorIdentifier := interrogator; modes_fields.UtilityMessage_IdentifierDesignator := designator |} /\
    modes_messages.MessageDF21_Identity m = {| modes_fields.Identity_Identity := squawk a b c d |} /\
    modes_messages.MessageDF21_MessageCommB m = message register.
Proof. exact Reply.identity_commb_told. Qed.
Print Assumptions C83_identity_commb_told.

Example C83_identity_reply_example : exists frame, octal 7 /\ octal 0 /\ Reply (surveillance 5 2 0 0 0 (squawk_fields 7 7 0 0)) 0x4840D6 frame.
Proof. exact Reply.identity_reply_example. Qed.
Print Assumptions C83_identity_reply_example.

Theorem C84_all_call_told : forall capability icao interrogator frame,
  Reply (all_call capability icao) interrogator frame ->
  exists d, ReadMessage frame = Ok (MDF11 d) /\
    modes_messages.MessageDF11_Capability d = capability /\
    modes_messages.MessageDF11_AddressAnnounced d = {| modes_fields.AddressAnnounced_Address := icao |} /\
    forall addresses interrogators x, CheckCRC (MDF11 d) frame addresses interrogators = Ok x <-> x = interrogator /\ admits interrogators interrogator.
Proof. exact Reply.all_call_told. Qed.
Print Assumptions C84_all_call_told.

Example C84_all_call_example : exists frame, Reply (all_call 5 0x4840D6) 7 frame.
Proof. exact Reply.all_call_example. Qed.
Print Assumptions C84_all_call_example.

Theorem C85_track_register_told : forall roll track speed rate airspeed,
  -284 <= roll <= 284 -> -1024 <= track < 1024 -> 0 <= speed <= 300 -> -512 <= rate < 512 -> 0 <= airspeed <= 250 ->
  Z.abs (speed - airspeed) <= 100 ->
  exists l m, ReadCommBMessage (message (track_register roll track speed rate airspeed)) = Ok l /\
    (forall x, List.In (B50 x) l <-> x = m) /\
    bds50.TrackAndTurnReport_RollAngleStatus m = true /\
    is_value (bds50.TrackAndTurnReport_RollAngle m) (inject_Z roll * (45 # 256)) /\
    bds50.TrackAndTurnReport_TrueTrackAngleStatus m = true /\
    is_value (bds50.TrackAndTurnReport_TrueTrackAngle m) (inject_Z track * (90 # 512)) /\
    bds50.TrackAndTurnReport_GroundSpeedStatus m = true /\
    bds50.TrackAndTurnReport_GroundSpeed m = 2 * speed /\
    bds50.TrackAndTurnReport_TrackAngleRateStatus m = true /\
    is_value (bds50.TrackAndTurnReport_TrackAngleRate m) (inject_Z rate * (8 # 256)) /\
    bds50.TrackAndTurnReport_TrueAirSpeedStatus m = true /\
    bds50.TrackAndTurnReport_TrueAirSpeed m = 2 * airspeed.
Proof. exact Registers.track_register_told. Qed.
Print Assumptions C85_track_register_told.

Theorem C85_heading_register_told : forall heading airspeed mach baro inertial,
  -1024 <= heading < 1024 -> 0 <= airspeed <= 500 -> 0 <= mach <= 250 -> -187 <= baro <= 187 -> -187 <= inertial <= 187 ->
  exists l m, ReadCommBMessage (message (heading_register heading airspeed mach baro inertial)) = Ok l /\
    (forall x, List.In (B60 x) l <-> x = m) /\
    bds60.HeadingAndTrackReport_MagneticHeadingStatus m = true /\
    is_value (bds60.HeadingAndTrackReport_MagneticHeading m) (inject_Z heading * (90 # 512)) /\
    bds60.HeadingAndTrackReport_IndicatedAirSpeedStatus m = true /\
    bds60.HeadingAndTrackReport_IndicatedAirSpeed m = airspeed /\
    bds60.HeadingAndTrackReport_MachStatus m = true /\
    is_close (bds60.HeadingAndTrackReport_Mach m) (inject_Z mach * (4 # 1000)) (1 # 1000000) /\
    bds60.HeadingAndTrackReport_BarometricAltitudeRateStatus m = true /\
    bds60.HeadingAndTrackReport_BarometricAltitudeRate m = 32 * baro /\
    bds60.HeadingAndTrackReport_InitialVerticalVelocityStatus m = true /\
    bds60.HeadingAndTrackReport_InitialVerticalVelocity m = 32 * inertial.
Proof. exact Registers.heading_register_told. Qed.
Print Assumptions C85_heading_register_told.

Theorem C85_identification_register_told : forall codes callsign, len codes = 8 ->
  List.map ia5 codes = List.map Some callsign ->
  ReadCommBMessage (message (identification_register codes)) = Ok [B20 {| bds20.AircraftIdentification_Identification := text callsign |}].
Proof. exact Registers.identification_register_told. Qed.
Print Assumptions C85_identification_register_told.

Example C85_track_register_example :
  message (track_register 12 650 219 4 212) = [0x81; 0x95; 0x15; 0x36; 0xE0; 0x24; 0xD4] /\
  -284 <= 12 <= 284 /\ -1024 <= 650 < 1024 /\ 0 <= 219 <= 300 /\ -512 <= 4 < 512 /\ 0 <= 212 <= 250 /\ Z.abs (219 - 212) <= 100.
Proof. exact Registers.track_register_example. Qed.
Print Assumptions C85_track_register_example.

Example C85_heading_register_example :
  exists frame, Reply (surveillance 21 0 0 0 0 (squawk_fields 2 0 0 0) ++ heading_register (-300) 270 195 (-40) (-41)) 0x4840D6 frame.
Proof. exact Registers.heading_register_example. Qed.
Print Assumptions C85_heading_register_example.

Example C85_identification_register_example :
  message (identification_register [20; 8; 25; 51; 56; 25; 32; 32]) = [0x20; 0x50; 0x86; 0x73; 0xE1; 0x98; 0x20].
Proof. exact Registers.identification_register_example. Qed.
Print Assumptions C85_identification_register_example.

Theorem C86_emergency_received : forall v nicA nicC ca icao state code frame,
  Squitter ca icao (emergency_payload state code) frame ->
  exists m, received v nicA nicC frame icao (AStatus m) /\
    adsb_aircraft_status.AircraftStatus_AircraftStatus m = bds61.IAircraftStatus_AircraftStatusEmergency
      {| bds61.AircraftStatusEmergency_FormatTypeCode := 28%Z;
         bds61.AircraftStatusEmergency_Subtype := 1%Z;
         bds61.AircraftStatusEmergency_EmergencyPriorityStatus := state;
         bds61.AircraftStatusEmergency_ModeACode := code |}.
Proof. exact Squitter.emergency_received. Qed.
Print Assumptions C86_emergency_received.

Example C86_emergency_example : exists frame, Squitter 5 0x4840D6 (emergency_payload 1 0x0AAA) frame.
Proof. exact Squitter.emergency_example. Qed.
Print Assumptions C86_emergency_example.
