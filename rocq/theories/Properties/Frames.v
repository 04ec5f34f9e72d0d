(* Property theorems: Frames. Generated by tools/mkprops.py; proofs are in theories/Proofs. *)
From Verif Require Import GoBase Bits.
From Verif.Model Require Import Crc ModesReader Cmd Main.
From Verif.Model Require AdsbReader CommbReader ParseInt.
From Verif.Gen Require modes_messages.
From Verif.Spec Require Import Altitude ModeS Squitter Reply Payloads Text Report Reports Command CommandLine Integer Printout Frames.
Require Import String List.
Local Open Scope string_scope.
Local Open Scope list_scope.
From Verif.Proofs Require Frames FramesApi.
Local Open Scope Z_scope.

Theorem C101_frame_printed_partial : forall ffmt matan2 level line frame m a rows, (forall f, one_line (ffmt f)) -> hex_text line frame ->
  ReadMessage frame = Ok m -> CheckCRC m frame [] [] = Ok a -> content ffmt matan2 level frame rows ->
  exists out, processSingleLine ffmt matan2 line level = Ok out /\ shows out (printout line (origin frame) a (modes_rows m) rows).
Proof. exact Frames.frame_printed. Qed.
Print Assumptions C101_frame_printed_partial.

Theorem C101_squitter_printed_partial : forall ffmt matan2 level line ca icao payload frame m, (forall f, one_line (ffmt f)) -> hex_text line frame ->
  Squitter ca icao payload frame -> received level false false frame icao m ->
  (forall ra, adsb_advisory m = Some ra -> printable_advisory ra) ->
  exists out, processSingleLine ffmt matan2 line level = Ok out /\
    shows out (printout line "From" icao ([format_row 17 "Extended squitter"; ("Capability", coded ca)] ++ squitter_rows icao payload)
                 ((" -- ADSB Information --", heading) :: adsb_rows ffmt matan2 m)).
Proof. exact Frames.squitter_printed. Qed.
Print Assumptions C101_squitter_printed_partial.

Theorem C101_device_received_partial : forall v nicA nicC ca icao payload frame m cf address frame' addresses interrogators,
  Squitter ca icao payload frame -> received v nicA nicC frame icao m ->
  Reply ([(5, 18); (3, cf); (24, address)] ++ payload) 0 frame' ->
  exists d, ReadMessage frame' = Ok (MDF18 d) /\ modes_messages.MessageDF18_ControlField d = cf /\
    CheckCRC (MDF18 d) frame' addresses interrogators = Ok address /\
    AdsbReader.ReadADSBMessage v nicA nicC (modes_messages.MessageDF18_MessageExtendedSquitter d) = Ok m.
Proof. exact Frames.device_received. Qed.
Print Assumptions C101_device_received_partial.

Theorem C101_device_printed_partial : forall ffmt matan2 level line cf icao payload frame m, (forall f, one_line (ffmt f)) -> hex_text line frame ->
  width payload = 56 -> Reply ([(5, 18); (3, cf); (24, icao)] ++ payload) 0 frame -> cf = 0 \/ cf = 1 ->
  AdsbReader.ReadADSBMessage level false false (message payload) = Ok m ->
  (forall ra, adsb_advisory m = Some ra -> printable_advisory ra) ->
  exists out, processSingleLine ffmt matan2 line level = Ok out /\
    shows out (printout line "From" icao ([format_row 18 "Extended squitter/non transponder"; ("ControlField", coded cf)] ++ squitter_rows icao payload)
                 ((" -- ADSB Information --", heading) :: adsb_rows ffmt matan2 m)).
Proof. exact Frames.device_printed. Qed.
Print Assumptions C101_device_printed_partial.

Theorem C101_altitude_register_printed_partial : forall ffmt matan2 level line status request interrogator designator coding feet altitude register icao frame l,
  (forall f, one_line (ffmt f)) -> hex_text line frame -> altitude13_fields coding feet altitude -> width register = 56 ->
  Reply (surveillance 20 status request interrogator designator altitude ++ register) icao frame ->
  CommbReader.ReadCommBMessage (message register) = Ok l -> Forall printable_register l ->
  exists out, processSingleLine ffmt matan2 line level = Ok out /\
    shows out (printout line "From" icao
      ([format_row 20 "Comm-B altitude reply"] ++ surveillance_rows status request interrogator designator ++
       altitude_rows coding feet ++ [("MessageCommB", hex_octets (message register))])
      ((" -- Comm-B Information --", heading) :: register_content ffmt l)).
Proof. exact Frames.altitude_register_printed. Qed.
Print Assumptions C101_altitude_register_printed_partial.

Theorem C101_squawk_register_printed_partial : forall ffmt matan2 level line status request interrogator designator a b c d register icao frame l,
  (forall f, one_line (ffmt f)) -> hex_text line frame -> octal a -> octal b -> octal c -> octal d -> width register = 56 ->
  Reply (surveillance 21 status request interrogator designator (squawk_fields a b c d) ++ register) icao frame ->
  CommbReader.ReadCommBMessage (message register) = Ok l -> Forall printable_register l ->
  exists out, processSingleLine ffmt matan2 line level = Ok out /\
    shows out (printout line "From" icao
      ([format_row 21 "Comm-B identify reply"] ++ surveillance_rows status request interrogator designator ++
       [("Identity", identity_value (squawk a b c d)); ("MessageCommB", hex_octets (message register))])
      ((" -- Comm-B Information --", heading) :: register_content ffmt l)).
Proof. exact Frames.squawk_register_printed. Qed.
Print Assumptions C101_squawk_register_printed_partial.

Theorem C101_advisory_printed_partial : forall ffmt matan2 level line vertical sensitivity information coding feet altitude icao frame
    a below above left right over t who,
  (forall f, one_line (ffmt f)) -> hex_text line frame ->
  altitude13_fields coding feet altitude -> threat_fields t who -> readable t who ->
  printable_advisory (Spec.Payloads.said a below above left right over t) ->
  Reply (air_air_long vertical sensitivity information altitude ((8, 0x30) :: report_of a below above left right over who)) icao frame ->
  exists out, processSingleLine ffmt matan2 line level = Ok out /\
    shows out (printout line "From" icao
      ([format_row 16 "Long air-air surveillance (ACAS)"; ("VerticalStatus", coded vertical); ("SensitivityLevel", coded sensitivity);
        ("ReplyInformation", coded information)] ++ altitude_rows coding feet ++
       [("Message ACAS", decimal_octets (message ((8, 0x30) :: report_of a below above left right over who)))])
      ((" -- ACAS Information --", heading) :: resolution_advisory_rows ffmt (Spec.Payloads.said a below above left right over t))).
Proof. exact Frames.advisory_printed. Qed.
Print Assumptions C101_advisory_printed_partial.

Theorem C101_first_word_frame_partial : forall ffmt matan2 open line words rows, (forall f, one_line (ffmt f)) ->
  frame_rows ffmt matan2 0 line rows ->
  exists out, main ffmt matan2 ParseInt.ParseInt open (line :: words) = Exit 0 out /\ shows out rows.
Proof. exact FramesApi.first_word_frame. Qed.
Print Assumptions C101_first_word_frame_partial.

Theorem C101_file_frames_partial : forall ffmt matan2 open v version ws f content lines rows, (forall f, one_line (ffmt f)) ->
  option_words "adsb_reader_level" v ws -> integer v version -> 0 <= version <= 2 ->
  f <> EmptyString -> open f = File content false -> lines_of content lines -> short_lines content ->
  Forall2 (frame_rows ffmt matan2 version) lines rows ->
  exists outs, main ffmt matan2 ParseInt.ParseInt open (ws ++ ["-file"; f]) = Exit 0 (String.concat EmptyString outs) /\
    Forall2 shows outs rows.
Proof. exact FramesApi.file_frames. Qed.
Print Assumptions C101_file_frames_partial.

Example C101_track_printed_example : forall ffmt matan2 level, exists rows,
  frame_rows ffmt matan2 level "A000139381951536E024D4CCF6B5" rows /\
  List.In ("Message", exactly "BDS 5,0 - Track and turn report") rows /\
  List.In ("Ground Speed (knots)", number 438) rows /\ List.In ("True Air Speed (knots)", number 424) rows.
Proof. exact FramesApi.track_printed_example. Qed.
Print Assumptions C101_track_printed_example.
