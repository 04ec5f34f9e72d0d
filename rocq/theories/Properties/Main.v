(* Property theorems: Main. Generated by tools/mkprops.py; proofs are in theories/Proofs. *)
From Verif Require Import GoBase Bits.
From Verif.Spec Require Import Text Command CommandLine Integer.
From Verif.Model Require Import Cmd Main.
From Verif.Model Require ParseInt.
Require Import String Ascii.
From Verif.Proofs Require CommandLine IntegerText Level.
Local Open Scope Z_scope.

Theorem C66_main_file : forall ffmt matan2 number open words f level rest content ls,
  command_line number words EmptyString 0 f level rest -> 0 <= level <= 2 -> f <> EmptyString ->
  open f = File content false -> lines_of content ls -> short_lines content ->
  exists outs, main ffmt matan2 number open words = Exit 0 (String.concat EmptyString outs) /\
               Forall2 (report ffmt matan2 level) ls outs.
Proof. exact CommandLine.main_file. Qed.
Print Assumptions C66_main_file.

Theorem C66_main_bad_file : forall ffmt matan2 number open words f level rest,
  command_line number words EmptyString 0 f level rest -> 0 <= level <= 2 -> f <> EmptyString ->
  (open f = NoFile \/ (exists content, open f = File content true) \/
   exists content, open f = File content false /\ ~ short_lines content) ->
  main ffmt matan2 number open words = Exit 1 EmptyString.
Proof. exact CommandLine.main_bad_file. Qed.
Print Assumptions C66_main_bad_file.

Theorem C66_lines_unique : forall content, exists ls, lines_of content ls /\ forall ls', lines_of content ls' -> ls' = ls.
Proof. exact CommandLine.lines_unique. Qed.
Print Assumptions C66_lines_unique.

Example C66_main_file_example :
  let number := fun s => if String.eqb s "2" then Some 2 else None in
  let content := ("8D4840D6202CC371C32CE0576098" ++ String carriage_return (String newline ("zz" ++ String newline "5D")))%string in
  command_line number ["--adsb_reader_level"; "2"; "-file=frames.txt"]%string EmptyString 0 "frames.txt" 2 [] /\
  lines_of content ["8D4840D6202CC371C32CE0576098"; "zz"; "5D"]%string /\ short_lines content.
Proof. exact CommandLine.main_file_example. Qed.
Print Assumptions C66_main_file_example.

Theorem C67_main_no_data_partial : forall ffmt matan2 number open,
  main ffmt matan2 number open [] = Exit 0 "No data provided"%string.
Proof. exact CommandLine.main_no_data. Qed.
Print Assumptions C67_main_no_data_partial.

Theorem C67_main_level_partial : forall ffmt matan2 number open words f level rest,
  command_line number words EmptyString 0 f level rest ->
  (main ffmt matan2 number open words = Crash EmptyString <-> ~ (0 <= level <= 2)).
Proof. exact CommandLine.main_level. Qed.
Print Assumptions C67_main_level_partial.

Theorem C67_main_bad_words_partial : forall ffmt matan2 number open words,
  (forall f level rest, ~ command_line number words EmptyString 0 f level rest) ->
  exists code, (code = 0 \/ code = 2) /\ main ffmt matan2 number open words = Exit code EmptyString.
Proof. exact CommandLine.main_bad_words. Qed.
Print Assumptions C67_main_bad_words_partial.

Theorem C67_command_line_unique_partial : forall number words f l f1 l1 r1 f2 l2 r2,
  command_line number words f l f1 l1 r1 -> command_line number words f l f2 l2 r2 -> f1 = f2 /\ l1 = l2 /\ r1 = r2.
Proof. exact CommandLine.command_line_unique. Qed.
Print Assumptions C67_command_line_unique_partial.

Theorem C67_main_first_word_partial : forall ffmt matan2 number open w words level rest,
  command_line number (w :: words) EmptyString 0 EmptyString level rest -> 0 <= level <= 2 ->
  exists out, main ffmt matan2 number open (w :: words) = Exit 0 out /\ report ffmt matan2 level w out.
Proof. exact CommandLine.main_first_word. Qed.
Print Assumptions C67_main_first_word_partial.

Theorem C67_main_data_partial : forall ffmt matan2 number open data words, plain data ->
  exists out, main ffmt matan2 number open (data :: words) = Exit 0 out /\ report ffmt matan2 0 data out.
Proof. exact CommandLine.main_data_partial. Qed.
Print Assumptions C67_main_data_partial.

Theorem C67_main_data_refuted : forall ffmt matan2 number open, number "1"%string = Some 1 ->
  exists out, forall data, plain data ->
    command_line number ["-adsb_reader_level=1"%string; data] EmptyString 0 EmptyString 1 [data] /\
    main ffmt matan2 number open ["-adsb_reader_level=1"%string; data] = Exit 0 out /\
    (forall frame, hex_text data frame -> ~ report ffmt matan2 1 data out).
Proof. exact CommandLine.main_data_refuted. Qed.
Print Assumptions C67_main_data_refuted.

Theorem C87_parse_int : forall s z, ParseInt.ParseInt s = Some z <-> integer s z /\ - 2 ^ 63 <= z < 2 ^ 63.
Proof. exact IntegerText.parse_int. Qed.
Print Assumptions C87_parse_int.

Theorem C87_dec_integer : forall z, integer (dec z) z.
Proof. exact IntegerText.dec_integer. Qed.
Print Assumptions C87_dec_integer.

Theorem C87_level_not_integer : forall ffmt matan2 open v ws words,
  option_words "adsb_reader_level" v ws ->
  (forall z, integer v z -> ~ (- 2 ^ 63 <= z < 2 ^ 63)) ->
  main ffmt matan2 ParseInt.ParseInt open (ws ++ words)%list = Exit 2 EmptyString.
Proof. exact Level.level_not_integer. Qed.
Print Assumptions C87_level_not_integer.

Theorem C87_level_unknown : forall ffmt matan2 open v z ws,
  option_words "adsb_reader_level" v ws -> integer v z -> - 2 ^ 63 <= z < 2 ^ 63 -> ~ (0 <= z <= 2) ->
  main ffmt matan2 ParseInt.ParseInt open ws = Crash EmptyString.
Proof. exact Level.level_unknown. Qed.
Print Assumptions C87_level_unknown.

Theorem C87_level_used : forall ffmt matan2 open v z ws f content ls,
  option_words "adsb_reader_level" v ws -> integer v z -> 0 <= z <= 2 ->
  f <> EmptyString -> open f = File content false -> lines_of content ls -> short_lines content ->
  exists outs, main ffmt matan2 ParseInt.ParseInt open (ws ++ ["-file"%string; f])%list = Exit 0 (String.concat EmptyString outs) /\
               Forall2 (report ffmt matan2 z) ls outs.
Proof. exact Level.level_used. Qed.
Print Assumptions C87_level_used.

Theorem C87_level_default : forall ffmt matan2 open f content ls,
  f <> EmptyString -> open f = File content false -> lines_of content ls -> short_lines content ->
  exists outs, main ffmt matan2 ParseInt.ParseInt open ["-file"%string; f] = Exit 0 (String.concat EmptyString outs) /\
               Forall2 (report ffmt matan2 0) ls outs.
Proof. exact Level.level_default. Qed.
Print Assumptions C87_level_default.

Example C87_integer_example :
  integer "2" 2 /\ integer "+0b1_0" 2 /\ integer "-0X0f" (-15) /\ integer "0_17" 15 /\
  (forall z, integer "2.0" z -> ~ (- 2 ^ 63 <= z < 2 ^ 63)) /\
  (forall z, integer "9223372036854775808" z -> ~ (- 2 ^ 63 <= z < 2 ^ 63)).
Proof. exact Level.integer_example. Qed.
Print Assumptions C87_integer_example.
