(* Property theorems: ModeS. Generated by tools/mkprops.py; proofs are in theories/Proofs. *)
From Verif Require Import GoBase Bits.
From Verif.Spec Require Import Altitude ModeS.
From Verif.Gen Require bitutils modes_common modes_fields modes_messages.
From Verif.Model Require Import Crc ModesReader.
From Verif.Proofs Require Examples ModeSReader.
Local Open Scope Z_scope.

Theorem C01_read_message_total : forall frame, bytes frame ->
  (exists message, ReadMessage frame = Ok message) \/ (exists error, ReadMessage frame = Err error).
Proof. exact ModeSReader.read_message_total. Qed.
Print Assumptions C01_read_message_total.

Example C01_frames_example : (exists e, ReadMessage [1; 2; 3] = Err e) /\ (exists e, ReadMessage [] = Err e) /\
  (exists m, ReadMessage [0x2D; 0x00; 0x0A; 0xAA; 0x11; 0x22; 0x33] = Ok (MDF5 m)) /\ (exists m, ReadMessage [0x80; 0xE1; 0x94; 0x31; 0x58; 0xC3; 0x82; 0xD6; 0x90; 0xC8; 0xAC; 1; 2; 3] = Ok (MDF16 m)).
Proof. exact Examples.frames_example. Qed.
Print Assumptions C01_frames_example.

Theorem C02_read_message_accepts : forall frame, bytes frame ->
  (exists message, ReadMessage frame = Ok message) <->
  ((len frame = 7 /\ short_format (bits 1 5 frame)) \/
   (len frame = 14 /\ long_format (bits 1 5 frame))) /\
  (has_altitude (bits 1 5 frame) -> exists coding altitude, Altitude13 frame coding altitude).
Proof. exact ModeSReader.read_message_accepts. Qed.
Print Assumptions C02_read_message_accepts.

Theorem C02_altitude_legal : forall frame,
  (exists coding altitude, Altitude13 frame coding altitude) <->
  (bits 20 32 frame = 0 \/ bit 26 frame = true \/ bit 28 frame = true \/
   ~ ((bit 20 frame = false /\ bit 22 frame = false /\ bit 24 frame = false) \/
      (bit 20 frame = true /\ bit 24 frame = true))).
Proof. exact ModeSReader.altitude_legal. Qed.
Print Assumptions C02_altitude_legal.

Theorem C02_altitude_illegal : forall frame, bytes frame -> (len frame = 7 \/ len frame = 14) ->
  has_altitude (bits 1 5 frame) -> (forall coding altitude, ~ Altitude13 frame coding altitude) ->
  exists e, ReadMessage frame = Err e.
Proof. exact ModeSReader.altitude_illegal. Qed.
Print Assumptions C02_altitude_illegal.

Theorem C02_wrong_format : forall frame, bytes frame ->
  ~ (len frame = 7 /\ short_format (bits 1 5 frame)) ->
  ~ (len frame = 14 /\ long_format (bits 1 5 frame)) ->
  exists e, ReadMessage frame = Err e.
Proof. exact ModeSReader.wrong_format. Qed.
Print Assumptions C02_wrong_format.

Example C02_frame17_ok : bytes [0x8D; 0x48; 0x40; 0xD6; 0x20; 0x2C; 0xC3; 0x71; 0xC3; 0x2C; 0xE0; 0x57; 0x60; 0x98] /\ len [0x8D; 0x48; 0x40; 0xD6; 0x20; 0x2C; 0xC3; 0x71; 0xC3; 0x2C; 0xE0; 0x57; 0x60; 0x98] = 14 /\ bits 1 5 [0x8D; 0x48; 0x40; 0xD6; 0x20; 0x2C; 0xC3; 0x71; 0xC3; 0x2C; 0xE0; 0x57; 0x60; 0x98] = 17.
Proof. exact ModeSReader.frame17_ok. Qed.
Print Assumptions C02_frame17_ok.

Example C02_frame17_read : exists m, ReadMessage [0x8D; 0x48; 0x40; 0xD6; 0x20; 0x2C; 0xC3; 0x71; 0xC3; 0x2C; 0xE0; 0x57; 0x60; 0x98] = Ok (MDF17 m) /\
  modes_messages.MessageDF17_AddressAnnounced m = {| modes_fields.AddressAnnounced_Address := 0x4840D6 |}.
Proof. exact ModeSReader.frame17_read. Qed.
Print Assumptions C02_frame17_read.

Example C02_frame4_illegal : exists e, ReadMessage [0x20; 0; 0; 0x01; 0; 0; 0] = Err e.
Proof. exact ModeSReader.frame4_illegal. Qed.
Print Assumptions C02_frame4_illegal.

Theorem C03_message_kind : forall frame message, bytes frame -> ReadMessage frame = Ok message ->
  let df := bits 1 5 frame in
  GetDownLinkFormat message = (if 24 <=? df then 24 else df) /\
  match message with
  | MDF0 _ => df = 0
  | MDF4 _ => df = 4
  | MDF5 _ => df = 5
  | MDF11 _ => df = 11
  | MDF16 _ => df = 16
  | MDF17 _ => df = 17
  | MDF18 _ => df = 18
  | MDF19 _ => df = 19
  | MDF20 _ => df = 20
  | MDF21 _ => df = 21
  | MDF24 _ => bits 1 2 frame = 3
  end.
Proof. exact ModeSReader.message_kind. Qed.
Print Assumptions C03_message_kind.

Example C03_kind_example : exists m, bytes [0xDB; 1; 2; 3; 4; 5; 6; 7; 8; 9; 10; 11; 12; 13] /\ ReadMessage [0xDB; 1; 2; 3; 4; 5; 6; 7; 8; 9; 10; 11; 12; 13] = Ok (MDF24 m) /\ bits 1 5 [0xDB; 1; 2; 3; 4; 5; 6; 7; 8; 9; 10; 11; 12; 13] = 27.
Proof. exact Examples.kind_example. Qed.
Print Assumptions C03_kind_example.

Theorem C04_df0_layout : forall frame coding altitude,
  bytes frame -> len frame = 7 -> bits 1 5 frame = 0 ->
  Altitude13 frame coding altitude ->
  ReadMessage frame = Ok (MDF0
    {| modes_messages.MessageDF0_MessageData := frame_data frame;
       modes_messages.MessageDF0_VerticalStatus := bits 6 6 frame;
       modes_messages.MessageDF0_CrossLinkCapability := bits 7 7 frame;
       modes_messages.MessageDF0_SensitivityLevel := bits 9 11 frame;
       modes_messages.MessageDF0_ReplyInformation := bits 14 17 frame;
       modes_messages.MessageDF0_AltitudeReportMethod := coding_code coding;
       modes_messages.MessageDF0_Altitude := altitude |}).
Proof. exact ModeSReader.df0_layout. Qed.
Print Assumptions C04_df0_layout.

Theorem C04_df4_layout : forall frame coding altitude,
  bytes frame -> len frame = 7 -> bits 1 5 frame = 4 ->
  Altitude13 frame coding altitude ->
  ReadMessage frame = Ok (MDF4
    {| modes_messages.MessageDF4_MessageData := frame_data frame;
       modes_messages.MessageDF4_FlightStatus := bits 6 8 frame;
       modes_messages.MessageDF4_DownlinkRequest := bits 9 13 frame;
       modes_messages.MessageDF4_UtilityMessage :=
         {| modes_fields.UtilityMessage_InterrogatorIdentifier := bits 14 17 frame;
            modes_fields.UtilityMessage_IdentifierDesignator := bits 18 19 frame |};
       modes_messages.MessageDF4_AltitudeReportMethod := coding_code coding;
       modes_messages.MessageDF4_Altitude := altitude |}).
Proof. exact ModeSReader.df4_layout. Qed.
Print Assumptions C04_df4_layout.

Theorem C04_df5_layout : forall frame,
  bytes frame -> len frame = 7 -> bits 1 5 frame = 5 ->
  ReadMessage frame = Ok (MDF5
    {| modes_messages.MessageDF5_MessageData := frame_data frame;
       modes_messages.MessageDF5_FlightStatus := bits 6 8 frame;
       modes_messages.MessageDF5_DownlinkRequest := bits 9 13 frame;
       modes_messages.MessageDF5_UtilityMessage :=
         {| modes_fields.UtilityMessage_InterrogatorIdentifier := bits 14 17 frame;
            modes_fields.UtilityMessage_IdentifierDesignator := bits 18 19 frame |};
       modes_messages.MessageDF5_Identity :=
         {| modes_fields.Identity_Identity := identity13 frame |} |}).
Proof. exact ModeSReader.df5_layout. Qed.
Print Assumptions C04_df5_layout.

Theorem C04_df11_layout : forall frame,
  bytes frame -> len frame = 7 -> bits 1 5 frame = 11 ->
  ReadMessage frame = Ok (MDF11
    {| modes_messages.MessageDF11_MessageData := frame_data frame;
       modes_messages.MessageDF11_Capability := bits 6 8 frame;
       modes_messages.MessageDF11_AddressAnnounced :=
         {| modes_fields.AddressAnnounced_Address := bits 9 32 frame |} |}).
Proof. exact ModeSReader.df11_layout. Qed.
Print Assumptions C04_df11_layout.

Example C04_frame4_ok : bytes [0x20; 0x00; 0x17; 0xB0; 0x11; 0x22; 0x33] /\ len [0x20; 0x00; 0x17; 0xB0; 0x11; 0x22; 0x33] = 7 /\ bits 1 5 [0x20; 0x00; 0x17; 0xB0; 0x11; 0x22; 0x33] = 4 /\ Altitude13 [0x20; 0x00; 0x17; 0xB0; 0x11; 0x22; 0x33] Feet25 37000.
Proof. exact ModeSReader.frame4_ok. Qed.
Print Assumptions C04_frame4_ok.

Example C04_layout_example : bytes [0x2D; 0x00; 0x0A; 0xAA; 0x11; 0x22; 0x33] /\ len [0x2D; 0x00; 0x0A; 0xAA; 0x11; 0x22; 0x33] = 7 /\ bits 1 5 [0x2D; 0x00; 0x0A; 0xAA; 0x11; 0x22; 0x33] = 5 /\ identity13 [0x2D; 0x00; 0x0A; 0xAA; 0x11; 0x22; 0x33] = squawk 7 7 0 0 /\
  exists m, ReadMessage [0x2D; 0x00; 0x0A; 0xAA; 0x11; 0x22; 0x33] = Ok (MDF5 m) /\ modes_fields.Identity_IsSpecialEmergency (modes_messages.MessageDF5_Identity m) = true.
Proof. exact Examples.layout_example. Qed.
Print Assumptions C04_layout_example.

Theorem C05_df16_layout : forall frame coding altitude,
  bytes frame -> len frame = 14 -> bits 1 5 frame = 16 ->
  Altitude13 frame coding altitude ->
  ReadMessage frame = Ok (MDF16
    {| modes_messages.MessageDF16_MessageData := frame_data frame;
       modes_messages.MessageDF16_VerticalStatus := bits 6 6 frame;
       modes_messages.MessageDF16_SensitivityLevel := bits 9 11 frame;
       modes_messages.MessageDF16_ReplyInformation := bits 14 17 frame;
       modes_messages.MessageDF16_AltitudeReportMethod := coding_code coding;
       modes_messages.MessageDF16_Altitude := altitude;
       modes_messages.MessageDF16_MessageACAS := octets 5 11 frame |}).
Proof. exact ModeSReader.df16_layout. Qed.
Print Assumptions C05_df16_layout.

Theorem C05_df17_layout : forall frame,
  bytes frame -> len frame = 14 -> bits 1 5 frame = 17 ->
  ReadMessage frame = Ok (MDF17
    {| modes_messages.MessageDF17_MessageData := frame_data frame;
       modes_messages.MessageDF17_Capability := bits 6 8 frame;
       modes_messages.MessageDF17_AddressAnnounced :=
         {| modes_fields.AddressAnnounced_Address := bits 9 32 frame |};
       modes_messages.MessageDF17_MessageExtendedSquitter := octets 5 11 frame |}).
Proof. exact ModeSReader.df17_layout. Qed.
Print Assumptions C05_df17_layout.

Theorem C05_df18_layout : forall frame,
  bytes frame -> len frame = 14 -> bits 1 5 frame = 18 ->
  ReadMessage frame = Ok (MDF18
    {| modes_messages.MessageDF18_MessageData := frame_data frame;
       modes_messages.MessageDF18_ControlField := bits 6 8 frame;
       modes_messages.MessageDF18_AddressAnnounced :=
         {| modes_fields.AddressAnnounced_Address := bits 9 32 frame |};
       modes_messages.MessageDF18_MessageExtendedSquitter := octets 5 11 frame |}).
Proof. exact ModeSReader.df18_layout. Qed.
Print Assumptions C05_df18_layout.

Theorem C05_df19_layout : forall frame,
  bytes frame -> len frame = 14 -> bits 1 5 frame = 19 ->
  ReadMessage frame = Ok (MDF19
    {| modes_messages.MessageDF19_MessageData := frame_data frame;
       modes_messages.MessageDF19_ApplicationField := bits 6 8 frame |}).
Proof. exact ModeSReader.df19_layout. Qed.
Print Assumptions C05_df19_layout.

Theorem C05_df20_layout : forall frame coding altitude,
  bytes frame -> len frame = 14 -> bits 1 5 frame = 20 ->
  Altitude13 frame coding altitude ->
  ReadMessage frame = Ok (MDF20
    {| modes_messages.MessageDF20_MessageData := frame_data frame;
       modes_messages.MessageDF20_FlightStatus := bits 6 8 frame;
       modes_messages.MessageDF20_DownlinkRequest := bits 9 13 frame;
       modes_messages.MessageDF20_UtilityMessage :=
         {| modes_fields.UtilityMessage_InterrogatorIdentifier := bits 14 17 frame;
            modes_fields.UtilityMessage_IdentifierDesignator := bits 18 19 frame |};
       modes_messages.MessageDF20_AltitudeReportMethod := coding_code coding;
       modes_messages.MessageDF20_Altitude := altitude;
       modes_messages.MessageDF20_MessageCommB := octets 5 11 frame |}).
Proof. exact ModeSReader.df20_layout. Qed.
Print Assumptions C05_df20_layout.

Theorem C05_df21_layout : forall frame,
  bytes frame -> len frame = 14 -> bits 1 5 frame = 21 ->
  ReadMessage frame = Ok (MDF21
    {| modes_messages.MessageDF21_MessageData := frame_data frame;
       modes_messages.MessageDF21_FlightStatus := bits 6 8 frame;
       modes_messages.MessageDF21_DownlinkRequest := bits 9 13 frame;
       modes_messages.MessageDF21_UtilityMessage :=
         {| modes_fields.UtilityMessage_InterrogatorIdentifier := bits 14 17 frame;
            modes_fields.UtilityMessage_IdentifierDesignator := bits 18 19 frame |};
       modes_messages.MessageDF21_Identity :=
         {| modes_fields.Identity_Identity := identity13 frame |};
       modes_messages.MessageDF21_MessageCommB := octets 5 11 frame |}).
Proof. exact ModeSReader.df21_layout. Qed.
Print Assumptions C05_df21_layout.

Theorem C05_df24_layout : forall frame,
  bytes frame -> len frame = 14 -> bits 1 2 frame = 3 ->
  ReadMessage frame = Ok (MDF24
    {| modes_messages.MessageDF24_MessageData := frame_data frame;
       modes_messages.MessageDF24_ControlELM := bits 4 4 frame;
       modes_messages.MessageDF24_NumberOfDSegment := bits 5 8 frame;
       modes_messages.MessageDF24_MessageCommD := octets 2 11 frame |}).
Proof. exact ModeSReader.df24_layout. Qed.
Print Assumptions C05_df24_layout.

Example C05_frame20_ok : bytes [0xA0; 0x00; 0x01; 0x0A; 1; 2; 3; 4; 5; 6; 7; 8; 9; 10] /\ len [0xA0; 0x00; 0x01; 0x0A; 1; 2; 3; 4; 5; 6; 7; 8; 9; 10] = 14 /\ bits 1 5 [0xA0; 0x00; 0x01; 0x0A; 1; 2; 3; 4; 5; 6; 7; 8; 9; 10] = 20 /\
  exists feet, Altitude13 [0xA0; 0x00; 0x01; 0x0A; 1; 2; 3; 4; 5; 6; 7; 8; 9; 10] Feet100 feet.
Proof. exact ModeSReader.frame20_ok. Qed.
Print Assumptions C05_frame20_ok.

Example C05_long_layout_example : bytes [0x80; 0xE1; 0x94; 0x31; 0x58; 0xC3; 0x82; 0xD6; 0x90; 0xC8; 0xAC; 1; 2; 3] /\ len [0x80; 0xE1; 0x94; 0x31; 0x58; 0xC3; 0x82; 0xD6; 0x90; 0xC8; 0xAC; 1; 2; 3] = 14 /\ bits 1 5 [0x80; 0xE1; 0x94; 0x31; 0x58; 0xC3; 0x82; 0xD6; 0x90; 0xC8; 0xAC; 1; 2; 3] = 16 /\ (exists c a, Altitude13 [0x80; 0xE1; 0x94; 0x31; 0x58; 0xC3; 0x82; 0xD6; 0x90; 0xC8; 0xAC; 1; 2; 3] c a) /\
  bytes [0xA8; 0x00; 0x0D; 0x9F; 0xA5; 0x5A; 0x10; 0x32; 0x60; 0x00; 0x00; 9; 8; 7] /\ len [0xA8; 0x00; 0x0D; 0x9F; 0xA5; 0x5A; 0x10; 0x32; 0x60; 0x00; 0x00; 9; 8; 7] = 14 /\ bits 1 5 [0xA8; 0x00; 0x0D; 0x9F; 0xA5; 0x5A; 0x10; 0x32; 0x60; 0x00; 0x00; 9; 8; 7] = 21 /\
  exists m, ReadMessage [0x80; 0xE1; 0x94; 0x31; 0x58; 0xC3; 0x82; 0xD6; 0x90; 0xC8; 0xAC; 1; 2; 3] = Ok (MDF16 m) /\ modes_messages.MessageDF16_MessageACAS m = [0x58; 0xC3; 0x82; 0xD6; 0x90; 0xC8; 0xAC].
Proof. exact Examples.long_layout_example. Qed.
Print Assumptions C05_long_layout_example.

Theorem C06_identity_injective : forall f g, bytes f -> bytes g ->
  (len f = 7 \/ len f = 14) -> (len g = 7 \/ len g = 14) ->
  identity13 f = identity13 g ->
  bits 20 25 f = bits 20 25 g /\ bits 27 32 f = bits 27 32 g.
Proof. exact ModeSReader.identity_injective. Qed.
Print Assumptions C06_identity_injective.

Theorem C06_identity_surjective : forall a b c d, 0 <= a < 8 -> 0 <= b < 8 -> 0 <= c < 8 -> 0 <= d < 8 ->
  exists frame message, bytes frame /\ len frame = 7 /\
    ReadMessage frame = Ok (MDF5 message) /\
    modes_messages.MessageDF5_Identity message =
      {| modes_fields.Identity_Identity := squawk a b c d |}.
Proof. exact ModeSReader.identity_surjective. Qed.
Print Assumptions C06_identity_surjective.

Theorem C06_emergency_squawks : forall s,
  let id := {| modes_fields.Identity_Identity := s |} in
  (modes_fields.Identity_IsSpecialEmergency id = true <-> s = squawk 7 7 0 0) /\
  (modes_fields.Identity_IsSpecialRadiocommunicationFailure id = true <-> s = squawk 7 6 0 0) /\
  (modes_fields.Identity_IsSpecialUnlawfulInterference id = true <-> s = squawk 7 5 0 0) /\
  (modes_fields.Identity_IsSpecialInstructionNotReceived id = true <-> s = squawk 2 0 0 0).
Proof. exact ModeSReader.emergency_squawks. Qed.
Print Assumptions C06_emergency_squawks.

Example C06_layout_example : bytes [0x2D; 0x00; 0x0A; 0xAA; 0x11; 0x22; 0x33] /\ len [0x2D; 0x00; 0x0A; 0xAA; 0x11; 0x22; 0x33] = 7 /\ bits 1 5 [0x2D; 0x00; 0x0A; 0xAA; 0x11; 0x22; 0x33] = 5 /\ identity13 [0x2D; 0x00; 0x0A; 0xAA; 0x11; 0x22; 0x33] = squawk 7 7 0 0 /\
  exists m, ReadMessage [0x2D; 0x00; 0x0A; 0xAA; 0x11; 0x22; 0x33] = Ok (MDF5 m) /\ modes_fields.Identity_IsSpecialEmergency (modes_messages.MessageDF5_Identity m) = true.
Proof. exact Examples.layout_example. Qed.
Print Assumptions C06_layout_example.

Theorem C07_altitude_unique : forall frame c1 a1 c2 a2, bytes frame -> (len frame = 7 \/ len frame = 14) ->
  Altitude13 frame c1 a1 -> Altitude13 frame c2 a2 -> c1 = c2 /\ a1 = a2.
Proof. exact ModeSReader.altitude_unique. Qed.
Print Assumptions C07_altitude_unique.

Theorem C07_altitude_25ft_onto : forall n, 0 <= n < 2048 ->
  exists frame message, bytes frame /\ len frame = 7 /\ ReadMessage frame = Ok (MDF4 message) /\
    modes_messages.MessageDF4_Altitude message = 25 * n - 1000 /\
    modes_messages.MessageDF4_AltitudeReportMethod message = modes_fields.AltitudeCodeReport25FootIncrements.
Proof. exact ModeSReader.altitude_25ft_onto. Qed.
Print Assumptions C07_altitude_25ft_onto.

Example C07_altitude_example : bytes [0x20; 0x00; 0x17; 0xB0; 0x11; 0x22; 0x33] /\ len [0x20; 0x00; 0x17; 0xB0; 0x11; 0x22; 0x33] = 7 /\ Altitude13 [0x20; 0x00; 0x17; 0xB0; 0x11; 0x22; 0x33] Feet25 37000 /\
  exists m, ReadMessage [0x20; 0x00; 0x17; 0xB0; 0x11; 0x22; 0x33] = Ok (MDF4 m) /\ modes_messages.MessageDF4_Altitude m = 37000.
Proof. exact Examples.altitude_example. Qed.
Print Assumptions C07_altitude_example.

Theorem C08_gillham_correct : forall d1 d2 d4 a1 a2 a4 b1 b2 b4 c1 c2 c4,
  (forall feet, Gillham d1 d2 d4 a1 a2 a4 b1 b2 b4 c1 c2 c4 feet <->
     bitutils.GillhamToAltitude d1 d2 d4 a1 a2 a4 b1 b2 b4 c1 c2 c4 = Ok feet) /\
  ((forall feet, ~ Gillham d1 d2 d4 a1 a2 a4 b1 b2 b4 c1 c2 c4 feet) <->
     exists e, bitutils.GillhamToAltitude d1 d2 d4 a1 a2 a4 b1 b2 b4 c1 c2 c4 = Err e).
Proof. exact ModeSReader.gillham_correct. Qed.
Print Assumptions C08_gillham_correct.

Theorem C08_gillham_onto : forall k, 0 <= k < 2560 ->
  exists d1 d2 d4 a1 a2 a4 b1 b2 b4 c1 c2 c4,
    bitutils.GillhamToAltitude d1 d2 d4 a1 a2 a4 b1 b2 b4 c1 c2 c4 = Ok (100 * k - 1200).
Proof. exact ModeSReader.gillham_onto. Qed.
Print Assumptions C08_gillham_onto.

Example C08_gillham_example :
  bitutils.GillhamToAltitude false false true true false false false true true false true false = Ok 32000 /\
  bitutils.GillhamToAltitude false false true true false false false true true true true false = Ok 32100 /\
  (exists e, bitutils.GillhamToAltitude false false true true false false false true true false false false = Err e).
Proof. exact Examples.gillham_example. Qed.
Print Assumptions C08_gillham_example.

Theorem C09_gillham_unit_distance :
  forall d1 d2 d4 a1 a2 a4 b1 b2 b4 c1 c2 c4 d1' d2' d4' a1' a2' a4' b1' b2' b4' c1' c2' c4' feet,
  bitutils.GillhamToAltitude d1 d2 d4 a1 a2 a4 b1 b2 b4 c1 c2 c4 = Ok feet ->
  bitutils.GillhamToAltitude d1' d2' d4' a1' a2' a4' b1' b2' b4' c1' c2' c4' = Ok (feet + 100) ->
  hamming [d1; d2; d4; a1; a2; a4; b1; b2; b4; c1; c2; c4]
          [d1'; d2'; d4'; a1'; a2'; a4'; b1'; b2'; b4'; c1'; c2'; c4'] = 1.
Proof. exact ModeSReader.gillham_unit_distance. Qed.
Print Assumptions C09_gillham_unit_distance.

Example C09_gillham_example :
  bitutils.GillhamToAltitude false false true true false false false true true false true false = Ok 32000 /\
  bitutils.GillhamToAltitude false false true true false false false true true true true false = Ok 32100 /\
  (exists e, bitutils.GillhamToAltitude false false true true false false false true true false false false = Err e).
Proof. exact Examples.gillham_example. Qed.
Print Assumptions C09_gillham_example.

Theorem C10_pack_bytes : forall b3 b2 b1 b0, byte b3 -> byte b2 -> byte b1 -> byte b0 ->
  bitutils.Pack2Bytes b1 b0 = be [b1; b0] /\
  bitutils.Pack3Bytes b2 b1 b0 = be [b2; b1; b0] /\
  bitutils.Pack4Bytes b3 b2 b1 b0 = be [b3; b2; b1; b0].
Proof. exact ModeSReader.pack_bytes. Qed.
Print Assumptions C10_pack_bytes.

Theorem C10_pack_bits : forall b15 b14 b13 b12 b11 b10 b9 b8 b7 b6 b5 b4 b3 b2 b1 b0,
  bitutils.Pack8Bits b7 b6 b5 b4 b3 b2 b1 b0 = number [b7; b6; b5; b4; b3; b2; b1; b0] /\
  bitutils.Pack16Bits b15 b14 b13 b12 b11 b10 b9 b8 b7 b6 b5 b4 b3 b2 b1 b0
    = number [b15; b14; b13; b12; b11; b10; b9; b8; b7; b6; b5; b4; b3; b2; b1; b0].
Proof. exact ModeSReader.pack_bits. Qed.
Print Assumptions C10_pack_bits.

Example C10_pack_example : bitutils.Pack3Bytes 0x48 0x40 0xD6 = 0x4840D6 /\
  bitutils.Pack8Bits true false true false false false false true = 0xA1.
Proof. exact Examples.pack_example. Qed.
Print Assumptions C10_pack_example.
