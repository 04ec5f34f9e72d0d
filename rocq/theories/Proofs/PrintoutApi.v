(* C91: the command prints what the aircraft sent. *)
From Verif Require Import GoBase Bits.
From Verif.Model Require Import Cmd Main.
From Verif.Model Require ParseInt.
From Verif.Gen Require bds08_fields.
Require Import Lia.
From Verif.Spec Require Import Floats Altitude ModeS Identification Adsb Velocity Squitter Reply.
From Verif.Spec Require Import Text Report Reports Command CommandLine Integer.
Require Import String List.
Import ListNotations.
From Coq Require Import Reals.
From Verif.Spec Require Import Track Printout.
From Verif.Proofs Require Import Printout.
From Verif.Proofs Require Squitter Reply EndToEnd Command CommandLine Level.
Local Open Scope string_scope.
Local Open Scope list_scope.
Local Open Scope Z_scope.

(* one frame *)
Theorem command_tells : forall ffmt matan2 version line rows, (forall f, one_line (ffmt f)) ->
  tells ffmt matan2 version line rows ->
  exists out, processSingleLine ffmt matan2 line version = Ok out /\ shows out rows.
Proof.
  intros ffmt matan2 version line rows One T.
  destruct (Command.command_report ffmt matan2 line version) as (out & E & R).
  exists out. split; [exact E|]. exact (printed_for _ _ _ _ _ _ One T R).
Qed.

(* a frame given as the first word: the version is 0 *)
Theorem first_word_tells : forall ffmt matan2 open line words rows, (forall f, one_line (ffmt f)) ->
  tells ffmt matan2 0 line rows ->
  exists out, main ffmt matan2 ParseInt.ParseInt open (line :: words) = Exit 0 out /\ shows out rows.
Proof.
  intros ffmt matan2 open line words rows One T.
  assert (Pl : plain line).
  { assert (X : exists frame, hex_text line frame) by (destruct T; eauto).
    destruct X as (frame & X). intros t _ ->. inversion X as [|a b x y s l A B C E]. subst. vm_compute in A. discriminate. }
  destruct (CommandLine.main_data_partial ffmt matan2 ParseInt.ParseInt open line words Pl) as (out & E & R).
  exists out. split; [exact E|]. exact (printed_for _ _ _ _ _ _ One T R).
Qed.

(* a file, with a frame on each line *)
Theorem file_tells : forall ffmt matan2 open v version ws f content lines rows, (forall f, one_line (ffmt f)) ->
  option_words "adsb_reader_level" v ws -> integer v version -> 0 <= version <= 2 ->
  f <> EmptyString -> open f = File content false -> lines_of content lines -> short_lines content ->
  Forall2 (tells ffmt matan2 version) lines rows ->
  exists outs, main ffmt matan2 ParseInt.ParseInt open (ws ++ ["-file"; f]) = Exit 0 (String.concat EmptyString outs) /\
    Forall2 shows outs rows.
Proof.
  intros ffmt matan2 open v version ws f content lines rows One Ow Iv Hv Hf Of L S T.
  destruct (Level.level_used ffmt matan2 open v version ws f content lines Ow Iv Hv Hf Of L S) as (outs & E & R).
  exists outs. split; [exact E|]. clear -One T R. revert outs R.
  induction T as [|line r lines rows T Ts IH]; intros outs R; inversion R; subst; constructor; [|auto].
  eapply printed_for; eassumption.
Qed.

(* ---- the frames of the published examples, and others ---- *)
Ltac hexa := repeat (match goal with |- hex_text (String ?a (String ?b ?s)) (?z :: ?l) =>
  let x := eval vm_compute in (hex_char a) in let y := eval vm_compute in (hex_char b) in
  match x with Some ?u => match y with Some ?w => change z with (16 * u + w); apply hex_text_cons; [reflexivity|reflexivity|] end end end); apply hex_text_nil.

Example tells_identification_example : forall ffmt matan2 version,
  tells ffmt matan2 version "8D4840D6202CC371C32CE0576098"
    (printout "8D4840D6202CC371C32CE0576098" "From" 0x4840D6
       ([format_row 17 "Extended squitter"; ("Capability", coded 5)] ++
        squitter_rows 0x4840D6 (identification_payload 4 0 [11; 12; 13; 49; 48; 50; 51; 32]))
       [(" -- ADSB Information --", heading);
        ("Message", exactly "BDS 0,8 - Extended squitter aircraft identification and category");
        ("Format Type Code", Report.number 4);
        ("Category", worded bds08_fields.IAircraftCategory_ToString (bds08_fields.IAircraftCategory_AircraftCategorySetA 0));
        ("Identification", exactly "KLM1023 ")]).
Proof.
  intros ffmt matan2 version. destruct EndToEnd.identification_example as [S C].
  eapply tells_squitter; [exact S|hexa|].
  apply (tells_identification _ _ _ 4 0 _ ["K"; "L"; "M"; "1"; "0"; "2"; "3"; " "]%char); [lia|reflexivity|exact C].
Qed.

Example tells_velocity_example : forall ffmt matan2 version, exists rows,
  tells ffmt matan2 version "8D485020994409940838175B284F" rows /\
  List.In ("Velocity NS (knots)", Report.number 159) rows /\ List.In ("Vertical Rate (ft/min)", Report.number (-832)) rows /\
  List.In ("Computed Speed", exactly "159 (knots)") rows.
Proof.
  intros ffmt matan2 version. eexists. split.
  { eapply tells_squitter; [exact EndToEnd.velocity_told_example|hexa|]. apply tells_velocity; lia. }
  unfold printout. cbn [app].
  split; [|split]; repeat first [left; reflexivity|right].
Qed.

Example tells_altitude_example : forall ffmt matan2 version, exists rows,
  tells ffmt matan2 version "200017B004F9A1" rows /\ List.In ("Altitude", Report.number 37000) rows /\
  List.In ("From", address_text 0x4840D6) rows.
Proof.
  intros ffmt matan2 version. destruct Reply.altitude_reply_example as [A R]. eexists. split.
  { eapply tells_altitude; [exact A|exact R|]. hexa. }
  unfold printout. cbn [app]. split; repeat first [left; reflexivity|right].
Qed.

(* the two lines of a file *)
Example file_tells_example : forall ffmt matan2,
  let content := ("8D4840D6202CC371C32CE0576098" ++ String newline ("200017B004F9A1" ++ String newline ""))%string in
  option_words "adsb_reader_level" "2" ["-adsb_reader_level=2"] /\ integer "2" 2 /\
  lines_of content ["8D4840D6202CC371C32CE0576098"; "200017B004F9A1"] /\ short_lines content /\
  exists rows, Forall2 (tells ffmt matan2 2) ["8D4840D6202CC371C32CE0576098"; "200017B004F9A1"] rows.
Proof.
  intros ffmt matan2 content.
  split; [apply (option_joined "adsb_reader_level" "2")|]. split; [exact (proj1 Level.integer_example)|].
  destruct (proj1 (CommandLine.read_lines content ["8D4840D6202CC371C32CE0576098"; "200017B004F9A1"]) ltac:(vm_compute; reflexivity)) as [L S].
  split; [exact L|]. split; [exact S|].
  destruct (tells_altitude_example ffmt matan2 2) as (r & T & _).
  eexists. constructor; [apply tells_identification_example|]. constructor; [exact T|constructor].
Qed.
