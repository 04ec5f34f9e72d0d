(* The level of the reader, as it is written on the command line. *)
From Verif Require Import GoBase.
From Verif.Model Require Import Cmd Main.
From Verif.Spec Require Import Text Command CommandLine Integer.
From Verif.Model Require ParseInt.
From Verif.Proofs Require Import CommandLine.
From Verif.Proofs Require IntegerText.
Require Import Lia.
Local Open Scope Z_scope.

(* what is read of the option, whatever the way of giving it *)
Lemma level_words : forall number v ws words f l, option_words "adsb_reader_level" v ws ->
  parseFlags number (ws ++ words)%list f l =
  match number v with Some z => parseFlags number words f z | None => ParseExit 2 end.
Proof. intros number v ws words f l H. destruct H; reflexivity. Qed.

Theorem level_not_integer : forall ffmt matan2 open v ws words,
  option_words "adsb_reader_level" v ws ->
  (forall z, integer v z -> ~ (- 2 ^ 63 <= z < 2 ^ 63)) ->
  main ffmt matan2 ParseInt.ParseInt open (ws ++ words)%list = Exit 2 EmptyString.
Proof.
  intros ffmt matan2 open v ws words H N. unfold main. rewrite (level_words _ v ws words _ _ H).
  destruct (ParseInt.ParseInt v) as [z|] eqn:E; [|reflexivity].
  apply IntegerText.parse_int in E. destruct E as [I B]. exfalso. exact (N z I B).
Qed.

Theorem level_unknown : forall ffmt matan2 open v z ws,
  option_words "adsb_reader_level" v ws -> integer v z -> - 2 ^ 63 <= z < 2 ^ 63 -> ~ (0 <= z <= 2) ->
  main ffmt matan2 ParseInt.ParseInt open ws = Crash EmptyString.
Proof.
  intros ffmt matan2 open v z ws H I B N.
  apply (main_level ffmt matan2 ParseInt.ParseInt open ws EmptyString z []); [|exact N].
  rewrite <- (app_nil_r ws). apply (words_level ParseInt.ParseInt v z ws); [exact H| |constructor].
  apply IntegerText.parse_int. split; assumption.
Qed.

Theorem level_used : forall ffmt matan2 open v z ws f content ls,
  option_words "adsb_reader_level" v ws -> integer v z -> 0 <= z <= 2 ->
  f <> EmptyString -> open f = File content false -> lines_of content ls -> short_lines content ->
  exists outs, main ffmt matan2 ParseInt.ParseInt open (ws ++ ["-file"%string; f])%list = Exit 0 (String.concat EmptyString outs) /\
               Forall2 (report ffmt matan2 z) ls outs.
Proof.
  intros ffmt matan2 open v z ws f content ls H I B NE O L S.
  apply (main_file ffmt matan2 ParseInt.ParseInt open _ f z [] content ls); try assumption.
  apply (words_level ParseInt.ParseInt v z ws); [exact H| |].
  - apply IntegerText.parse_int. split; [exact I|]. change (2 ^ 63) with 9223372036854775808. lia.
  - change ["-file"%string; f] with (["-file"%string; f] ++ [])%list.
    apply (words_file ParseInt.ParseInt f ["-file"%string; f] []); [apply (option_apart "file" f)|constructor].
Qed.

Theorem level_default : forall ffmt matan2 open f content ls,
  f <> EmptyString -> open f = File content false -> lines_of content ls -> short_lines content ->
  exists outs, main ffmt matan2 ParseInt.ParseInt open ["-file"%string; f] = Exit 0 (String.concat EmptyString outs) /\
               Forall2 (report ffmt matan2 0) ls outs.
Proof.
  intros ffmt matan2 open f content ls NE O L S.
  apply (main_file ffmt matan2 ParseInt.ParseInt open _ f 0 [] content ls); try assumption; [|lia].
  change ["-file"%string; f] with (["-file"%string; f] ++ [])%list.
  apply (words_file ParseInt.ParseInt f ["-file"%string; f] []); [apply (option_apart "file" f)|constructor].
Qed.

Example integer_example :
  integer "2" 2 /\ integer "+0b1_0" 2 /\ integer "-0X0f" (-15) /\ integer "0_17" 15 /\
  (forall z, integer "2.0" z -> ~ (- 2 ^ 63 <= z < 2 ^ 63)) /\
  (forall z, integer "9223372036854775808" z -> ~ (- 2 ^ 63 <= z < 2 ^ 63)).
Proof.
  split; [apply (IntegerText.parse_int "2" 2); reflexivity|].
  split; [apply (IntegerText.parse_int "+0b1_0" 2); reflexivity|].
  split; [apply (IntegerText.parse_int "-0X0f" (-15)); reflexivity|].
  split; [apply (IntegerText.parse_int "0_17" 15); reflexivity|].
  split; intros z I B.
  - pose proof (proj2 (IntegerText.parse_int "2.0" z) (conj I B)) as E. discriminate E.
  - pose proof (proj2 (IntegerText.parse_int "9223372036854775808" z) (conj I B)) as E. vm_compute in E. discriminate E.
Qed.
