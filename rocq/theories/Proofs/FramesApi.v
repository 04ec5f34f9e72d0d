(* C101: the frames given to the command as the first word or in a file, and examples. *)
From Verif.Proofs Require Import Tac.
From Verif.Model Require Import Crc ModesReader Cmd Main.
From Verif.Model Require AdsbReader CommbReader ParseInt.
From Verif.Spec Require Import Text Report Reports Command CommandLine Integer Printout Frames.
From Verif.Proofs Require Import Frames.
From Verif.Proofs Require Command CommandLine Level Printout PrintoutApi.
Require Import String List.
Import ListNotations.
Local Open Scope string_scope.
Local Open Scope list_scope.
Local Open Scope Z_scope.

Lemma frame_shown : forall ffmt matan2 level line rows out, (forall f, one_line (ffmt f)) ->
  frame_rows ffmt matan2 level line rows -> report ffmt matan2 level line out -> shows out rows.
Proof.
  intros ffmt matan2 level line rows out One (frame & m & a & more & Hx & R & K & C & ->) P.
  pose proof (Command.hex_text_bytes _ _ Hx) as Hb.
  eapply (Printout.printed ffmt matan2 level line); eauto.
  - exact (checked_range frame m a Hb R K).
  - intros mo D. exact (content_shown _ _ _ _ _ _ One Hb C D).
Qed.

(* a frame given as the first word: the level is 0 *)
Theorem first_word_frame : forall ffmt matan2 open line words rows, (forall f, one_line (ffmt f)) ->
  frame_rows ffmt matan2 0 line rows ->
  exists out, main ffmt matan2 ParseInt.ParseInt open (line :: words) = Exit 0 out /\ shows out rows.
Proof.
  intros ffmt matan2 open line words rows One T.
  assert (Pl : plain line).
  { destruct T as (frame & m & a & more & X & _). intros t _ ->. inversion X as [|a' b x y s l A B C E]. subst. vm_compute in A. discriminate. }
  destruct (CommandLine.main_data_partial ffmt matan2 ParseInt.ParseInt open line words Pl) as (out & E & R).
  exists out. split; [exact E|]. exact (frame_shown _ _ _ _ _ _ One T R).
Qed.

(* a file, with a frame on each line *)
Theorem file_frames : forall ffmt matan2 open v version ws f content lines rows, (forall f, one_line (ffmt f)) ->
  option_words "adsb_reader_level" v ws -> integer v version -> 0 <= version <= 2 ->
  f <> EmptyString -> open f = File content false -> lines_of content lines -> short_lines content ->
  Forall2 (frame_rows ffmt matan2 version) lines rows ->
  exists outs, main ffmt matan2 ParseInt.ParseInt open (ws ++ ["-file"; f]) = Exit 0 (String.concat EmptyString outs) /\
    Forall2 shows outs rows.
Proof.
  intros ffmt matan2 open v version ws f content lines rows One Ow Iv Hv Hf Of L S T.
  destruct (Level.level_used ffmt matan2 open v version ws f content lines Ow Iv Hv Hf Of L S) as (outs & E & R).
  exists outs. split; [exact E|]. clear -One T R. revert outs R.
  induction T as [|line r lines rows T Ts IH]; intros outs R; inversion R; subst; constructor; [|auto].
  eapply frame_shown; eassumption.
Qed.

(* a track and turn report of the published examples: the ground speed of 438 kt and the airspeed of 424 kt are in it *)
Example track_printed_example : forall ffmt matan2 level, exists rows,
  frame_rows ffmt matan2 level "A000139381951536E024D4CCF6B5" rows /\
  List.In ("Message", exactly "BDS 5,0 - Track and turn report") rows /\
  List.In ("Ground Speed (knots)", number 438) rows /\ List.In ("True Air Speed (knots)", number 424) rows.
Proof.
  intros ffmt matan2 level. eexists. split.
  { exists [0xA0; 0x00; 0x13; 0x93; 0x81; 0x95; 0x15; 0x36; 0xE0; 0x24; 0xD4; 0xCC; 0xF6; 0xB5].
    eexists _, _, _. split; [PrintoutApi.hexa|]. split; [vm_compute; reflexivity|]. split; [vm_compute; reflexivity|]. split; [|reflexivity].
    eapply content_registers; [left; reflexivity| | |].
    - vm_compute. reflexivity.
    - discriminate.
    - constructor; [split; discriminate|constructor]. }
  unfold printout. cbn [app registers_rows commb_rows track_and_turn_report_rows modes_rows].
  split; [|split]; repeat first [left; reflexivity|right].
Qed.
