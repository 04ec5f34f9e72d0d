(* Property theorems: Printout. Generated by tools/mkprops.py; proofs are in theories/Proofs. *)
From Verif Require Import GoBase Bits.
From Verif.Model Require Import Cmd Main.
From Verif.Model Require ParseInt.
From Verif.Gen Require bds08_fields.
From Verif.Spec Require Import Squitter Reply Text Report Reports Command CommandLine Integer Printout.
Require Import String List.
Local Open Scope string_scope.
Local Open Scope list_scope.
From Verif.Proofs Require PrintoutApi.
Local Open Scope Z_scope.

Theorem C91_command_tells : forall ffmt matan2 version line rows, (forall f, one_line (ffmt f)) ->
  tells ffmt matan2 version line rows ->
  exists out, processSingleLine ffmt matan2 line version = Ok out /\ shows out rows.
Proof. exact PrintoutApi.command_tells. Qed.
Print Assumptions C91_command_tells.

Theorem C91_first_word_tells : forall ffmt matan2 open line words rows, (forall f, one_line (ffmt f)) ->
  tells ffmt matan2 0 line rows ->
  exists out, main ffmt matan2 ParseInt.ParseInt open (line :: words) = Exit 0 out /\ shows out rows.
Proof. exact PrintoutApi.first_word_tells. Qed.
Print Assumptions C91_first_word_tells.

Theorem C91_file_tells : forall ffmt matan2 open v version ws f content lines rows, (forall f, one_line (ffmt f)) ->
  option_words "adsb_reader_level" v ws -> integer v version -> 0 <= version <= 2 ->
  f <> EmptyString -> open f = File content false -> lines_of content lines -> short_lines content ->
  Forall2 (tells ffmt matan2 version) lines rows ->
  exists outs, main ffmt matan2 ParseInt.ParseInt open (ws ++ ["-file"; f]) = Exit 0 (String.concat EmptyString outs) /\
    Forall2 shows outs rows.
Proof. exact PrintoutApi.file_tells. Qed.
Print Assumptions C91_file_tells.

Example C91_tells_identification_example : forall ffmt matan2 version,
  tells ffmt matan2 version "8D4840D6202CC371C32CE0576098"
    (printout "8D4840D6202CC371C32CE0576098" "From" 0x4840D6
       ([format_row 17 "Extended squitter"; ("Capability", coded 5)] ++
        squitter_rows 0x4840D6 (identification_payload 4 0 [11; 12; 13; 49; 48; 50; 51; 32]))
       [(" -- ADSB Information --", heading);
        ("Message", exactly "BDS 0,8 - Extended squitter aircraft identification and category");
        ("Format Type Code", Report.number 4);
        ("Category", worded bds08_fields.IAircraftCategory_ToString (bds08_fields.IAircraftCategory_AircraftCategorySetA 0));
        ("Identification", exactly "KLM1023 ")]).
Proof. exact PrintoutApi.tells_identification_example. Qed.
Print Assumptions C91_tells_identification_example.

Example C91_tells_velocity_example : forall ffmt matan2 version, exists rows,
  tells ffmt matan2 version "8D485020994409940838175B284F" rows /\
  List.In ("Velocity NS (knots)", Report.number 159) rows /\ List.In ("Vertical Rate (ft/min)", Report.number (-832)) rows /\
  List.In ("Computed Speed", exactly "159 (knots)") rows.
Proof. exact PrintoutApi.tells_velocity_example. Qed.
Print Assumptions C91_tells_velocity_example.

Example C91_tells_altitude_example : forall ffmt matan2 version, exists rows,
  tells ffmt matan2 version "200017B004F9A1" rows /\ List.In ("Altitude", Report.number 37000) rows /\
  List.In ("From", address_text 0x4840D6) rows.
Proof. exact PrintoutApi.tells_altitude_example. Qed.
Print Assumptions C91_tells_altitude_example.

Example C91_file_tells_example : forall ffmt matan2,
  let content := ("8D4840D6202CC371C32CE0576098" ++ String newline ("200017B004F9A1" ++ String newline ""))%string in
  option_words "adsb_reader_level" "2" ["-adsb_reader_level=2"] /\ integer "2" 2 /\
  lines_of content ["8D4840D6202CC371C32CE0576098"; "200017B004F9A1"] /\ short_lines content /\
  exists rows, Forall2 (tells ffmt matan2 2) ["8D4840D6202CC371C32CE0576098"; "200017B004F9A1"] rows.
Proof. exact PrintoutApi.file_tells_example. Qed.
Print Assumptions C91_file_tells_example.
