(* Property theorems: Text. Generated by tools/mkprops.py; proofs are in theories/Proofs. *)
From Verif Require Import GoBase Bits.
From Verif.Spec Require Import Text Labels Command.
From Verif.Gen Require modes_common modes_fields modes_messages acas_ra acas_ra_fields bds05 bds06 bds08 bds09 bds61 bds62 bds65 bds_register.
From Verif.Model Require Import Crc ModesReader Cmd.
From Verif.Model Require AdsbReader CommbReader.
Require Import String Ascii.
From Verif.Proofs Require Command Labels Texts.
Local Open Scope Z_scope.

Theorem C55_modes_text_total : forall frame m, bytes frame -> ReadMessage frame = Ok m ->
  exists s, ModeSMessage_ToString m = Ok s.
Proof. exact Texts.modes_text_total. Qed.
Print Assumptions C55_modes_text_total.

Theorem C55_adsb_text_total : forall ffmt matan2 m, exists s, AdsbReader.Message_ToString ffmt matan2 m = Ok s.
Proof. exact Texts.adsb_text_total. Qed.
Print Assumptions C55_adsb_text_total.

Theorem C55_commb_text_total : forall ffmt m, exists s, CommbReader.Message_ToString ffmt m = Ok s.
Proof. exact Texts.commb_text_total. Qed.
Print Assumptions C55_commb_text_total.

Theorem C55_ra_text_total_any : forall ffmt ra, exists s, acas_ra.ResolutionAdvisory_ToString ffmt ra = Ok s.
Proof. exact Texts.ra_text_total_any. Qed.
Print Assumptions C55_ra_text_total_any.

Theorem C56_labels_numbered_partial : forall name label, List.In (name, label) numbered_fields ->
  forall code, numbered code (label code).
Proof. exact Labels.labels_numbered. Qed.
Print Assumptions C56_labels_numbered_partial.

Theorem C56_labels_numbered_distinct_partial : forall name label, List.In (name, label) numbered_fields ->
  forall code code', label code = label code' -> code = code'.
Proof. exact Labels.labels_numbered_distinct. Qed.
Print Assumptions C56_labels_numbered_distinct_partial.

Theorem C56_labels_distinct_partial : forall name label, List.In (name, label) (worded_fields ++ misnumbered_fields) ->
  forall code code', 0 <= code < 256 -> 0 <= code' < 256 -> label code = label code' -> code = code'.
Proof. exact Labels.labels_distinct. Qed.
Print Assumptions C56_labels_distinct_partial.

Theorem C56_labels_decimal_partial : forall name label, List.In (name, label) decimal_fields ->
  forall code, label code = numeral code.
Proof. exact Labels.labels_decimal. Qed.
Print Assumptions C56_labels_decimal_partial.

Theorem C56_labels_misnumbered_refuted : forall name label, List.In (name, label) misnumbered_fields ->
  exists code other, 0 <= code < 6 /\ other <> code /\ numbered other (label code) /\ ~ numbered code (label code).
Proof. exact Labels.labels_misnumbered_refuted. Qed.
Print Assumptions C56_labels_misnumbered_refuted.

Theorem C56_sense_label_refuted :
  acas_ra_fields.ActiveRASense_ToString acas_ra_fields.ActiveRASenseDownward =
  acas_ra_fields.ActiveRASense_ToString acas_ra_fields.ActiveRASenseUpward.
Proof. exact Labels.sense_label_refuted. Qed.
Print Assumptions C56_sense_label_refuted.

Theorem C56_numbered_determines_partial : forall z z' label, numbered z label -> numbered z' label -> z = z'.
Proof. exact Labels.numbered_determines. Qed.
Print Assumptions C56_numbered_determines_partial.

Theorem C56_sense_text_refuted : exists up down mu md,
  acas_ra.ReadResolutionAdvisory up = Ok mu /\ acas_ra.ReadResolutionAdvisory down = Ok md /\
  up <> down /\ mu <> md /\
  forall ffmt, acas_ra.ResolutionAdvisory_ToString ffmt mu = acas_ra.ResolutionAdvisory_ToString ffmt md.
Proof. exact Texts.sense_text_refuted. Qed.
Print Assumptions C56_sense_text_refuted.

Theorem C57_lines_exist : forall s, exists ls, has_lines s ls /\ forall ls', has_lines s ls' -> ls' = ls.
Proof. exact Texts.lines_exist. Qed.
Print Assumptions C57_lines_exist.

Theorem C57_prefix_text : forall s prefix ls, has_lines s ls ->
  PrefixMultiLine s prefix = text_of_lines (List.map (fun l => (prefix ++ l)%string) ls).
Proof. exact Texts.prefix_text. Qed.
Print Assumptions C57_prefix_text.

Theorem C57_prefix_lines : forall s prefix ls, has_lines s ls -> one_line prefix ->
  has_lines (PrefixMultiLine s prefix) (List.map (fun l => (prefix ++ l)%string) ls).
Proof. exact Texts.prefix_lines. Qed.
Print Assumptions C57_prefix_lines.

Example C57_prefix_example : PrefixMultiLine ("a" ++ nl ++ "" ++ nl ++ "bc") "--" = ("--a" ++ nl ++ "--" ++ nl ++ "--bc")%string.
Proof. exact Texts.prefix_example. Qed.
Print Assumptions C57_prefix_example.

Theorem C58_address_text : forall a, 0 <= a < 2 ^ 24 -> address_of_text (modes_common.ICAOAddress_ToString a) = Some a.
Proof. exact Texts.address_text. Qed.
Print Assumptions C58_address_text.

Theorem C58_threat_address_text : forall a, 0 <= a < 2 ^ 24 ->
  address_of_text (acas_ra_fields.ThreatIdentityAddress_ToString a) = Some a.
Proof. exact Texts.threat_address_text. Qed.
Print Assumptions C58_threat_address_text.

Theorem C58_announced_address_text : forall a, 0 <= a < 2 ^ 24 ->
  address_of_text (modes_fields.AddressAnnounced_ToString {| modes_fields.AddressAnnounced_Address := a |} ++ " ") = Some a.
Proof. exact Texts.announced_address_text. Qed.
Print Assumptions C58_announced_address_text.

Theorem C58_address_text_injective : forall a b, 0 <= a < 2 ^ 24 -> 0 <= b < 2 ^ 24 ->
  modes_common.ICAOAddress_ToString a = modes_common.ICAOAddress_ToString b -> a = b.
Proof. exact Texts.address_text_injective. Qed.
Print Assumptions C58_address_text_injective.

Example C58_address_example : modes_common.ICAOAddress_ToString 0x4840D6 = "48 40 D6 "%string.
Proof. exact Texts.address_example. Qed.
Print Assumptions C58_address_example.

Theorem C59_adsb_registers :
  (forall m, bds_register.Register_GetId (bds05.AirbornePosition_GetRegister m) = "BDS 0,5"%string) /\
  (forall m, bds_register.Register_GetId (bds06.SurfacePosition_GetRegister m) = "BDS 0,6"%string) /\
  (forall m, bds_register.Register_GetId (bds08.AircraftIdentificationAndCategory_GetRegister m) = "BDS 0,8"%string) /\
  (forall m, bds_register.Register_GetId (bds09.IAirborneVelocity_GetRegister m) = "BDS 0,9"%string) /\
  (forall m, bds_register.Register_GetId (bds61.IAircraftStatus_GetRegister m) = "BDS 6,1"%string) /\
  (forall m, bds_register.Register_GetId (bds62.ITargetStateAndStatus_GetRegister m) = "BDS 6,2"%string) /\
  (forall m, bds_register.Register_GetId (bds65.IAircraftOperationalStatus_GetRegister m) = "BDS 6,5"%string).
Proof. exact Texts.adsb_registers. Qed.
Print Assumptions C59_adsb_registers.

Theorem C59_register_ids_distinct : List.NoDup (List.map bds_register.Register_GetId
  [bds_register.BDS00; bds_register.BDS05; bds_register.BDS06; bds_register.BDS07; bds_register.BDS08; bds_register.BDS09;
   bds_register.BDS10; bds_register.BDS17; bds_register.BDS20; bds_register.BDS30; bds_register.BDS40; bds_register.BDS44;
   bds_register.BDS45; bds_register.BDS50; bds_register.BDS60; bds_register.BDS61; bds_register.BDS62; bds_register.BDS65]).
Proof. exact Texts.register_ids_distinct. Qed.
Print Assumptions C59_register_ids_distinct.

Theorem C60_command_report : forall ffmt matan2 str level,
  exists out, processSingleLine ffmt matan2 str level = Ok out /\ report ffmt matan2 level str out.
Proof. exact Command.command_report. Qed.
Print Assumptions C60_command_report.

Theorem C60_command_never_panics : forall ffmt matan2 str level, processSingleLine ffmt matan2 str level <> Panic.
Proof. exact Command.command_never_panics. Qed.
Print Assumptions C60_command_never_panics.

Theorem C60_decode_text : forall s l, DecodeString s = Ok l <-> hex_text s l.
Proof. exact Command.decode_text. Qed.
Print Assumptions C60_decode_text.

Theorem C60_decode_reason : forall s e, DecodeString s = Err e -> not_hex s e.
Proof. exact Command.decode_reason. Qed.
Print Assumptions C60_decode_reason.

Theorem C60_hex_text_bytes : forall s l, hex_text s l -> bytes l.
Proof. exact Command.hex_text_bytes. Qed.
Print Assumptions C60_hex_text_bytes.

Theorem C60_hex_text_unique : forall s l l', hex_text s l -> hex_text s l' -> l = l'.
Proof. exact Command.hex_text_unique. Qed.
Print Assumptions C60_hex_text_unique.

Example C60_command_example : forall ffmt matan2, exists text,
  processSingleLine ffmt matan2 "8D4840D6202CC371C32CE0576098" 0 =
  Ok ("Reading: 8D4840D6202CC371C32CE0576098" ++ nl ++ " -- Mode-S Information --" ++ nl ++ "From: 48 40 D6 " ++ nl ++ text)%string.
Proof. exact Command.command_example. Qed.
Print Assumptions C60_command_example.

Theorem C61_command_report : forall ffmt matan2 str level,
  exists out, processSingleLine ffmt matan2 str level = Ok out /\ report ffmt matan2 level str out.
Proof. exact Command.command_report. Qed.
Print Assumptions C61_command_report.

Theorem C61_body_df16 : forall frame m, bytes frame -> ReadMessage frame = Ok (MDF16 m) ->
  modes_messages.MessageDF16_MessageACAS m = octets 5 11 frame.
Proof. exact Texts.body_df16. Qed.
Print Assumptions C61_body_df16.

Theorem C61_body_df17 : forall frame m, bytes frame -> ReadMessage frame = Ok (MDF17 m) ->
  modes_messages.MessageDF17_MessageExtendedSquitter m = octets 5 11 frame.
Proof. exact Texts.body_df17. Qed.
Print Assumptions C61_body_df17.

Theorem C61_body_df18 : forall frame m, bytes frame -> ReadMessage frame = Ok (MDF18 m) ->
  modes_messages.MessageDF18_MessageExtendedSquitter m = octets 5 11 frame /\
  modes_messages.MessageDF18_ControlField m = bits 6 8 frame.
Proof. exact Texts.body_df18. Qed.
Print Assumptions C61_body_df18.

Theorem C61_body_df20 : forall frame m, bytes frame -> ReadMessage frame = Ok (MDF20 m) ->
  modes_messages.MessageDF20_MessageCommB m = octets 5 11 frame.
Proof. exact Texts.body_df20. Qed.
Print Assumptions C61_body_df20.

Theorem C61_body_df21 : forall frame m, bytes frame -> ReadMessage frame = Ok (MDF21 m) ->
  modes_messages.MessageDF21_MessageCommB m = octets 5 11 frame.
Proof. exact Texts.body_df21. Qed.
Print Assumptions C61_body_df21.

Theorem C61_body_df24 : forall frame m, bytes frame -> ReadMessage frame = Ok (MDF24 m) ->
  modes_messages.MessageDF24_MessageCommD m = octets 2 11 frame.
Proof. exact Texts.body_df24. Qed.
Print Assumptions C61_body_df24.
