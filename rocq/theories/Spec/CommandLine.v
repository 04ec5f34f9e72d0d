(* The command line and the files of the command, independently of the model:
   the words of a command line, and the lines of a file. *)
Require Import ZArith List String Ascii.
From Verif.Spec Require Import Text.
Import ListNotations.
Local Open Scope string_scope.

(* ---- files ---- *)

(* [raw_lines content ls]: the content is made of the lines [ls], each ended by
   a newline, except that the newline may be missing at the end of the file *)
Inductive raw_lines : string -> list string -> Prop :=
| raw_empty : raw_lines EmptyString []
| raw_last : forall l, one_line l -> l <> EmptyString -> raw_lines l [l]
| raw_line : forall l rest ls, one_line l -> raw_lines rest ls ->
    raw_lines (l ++ String newline EmptyString ++ rest) (l :: ls).

Definition carriage_return : ascii := Ascii.ascii_of_nat 13.

(* [l'] is [l] without the carriage return that may end it *)
Inductive chomped : string -> string -> Prop :=
| chomped_cr : forall l, chomped (l ++ String carriage_return EmptyString) l
| chomped_same : forall l, (forall k, l <> k ++ String carriage_return EmptyString) -> chomped l l.

(* the lines of a file, however they are ended *)
Definition lines_of (content : string) (ls : list string) : Prop :=
  exists raw, raw_lines content raw /\ Forall2 chomped raw ls.

(* every line fits in the 64 KiB that the program can read at once *)
Definition short_lines (content : string) : Prop :=
  exists raw, raw_lines content raw /\ Forall (fun l => (Z.of_nat (String.length l) < 65536)%Z) raw.

(* ---- words of the command line ---- *)

(* a word that is not an option *)
Definition plain (w : string) : Prop := forall t, t <> EmptyString -> w <> String "-" t.

(* the ways of giving the option [name] the value [v] *)
Inductive option_words (name v : string) : list string -> Prop :=
| option_joined : option_words name v ["-" ++ name ++ "=" ++ v]
| option_joined2 : option_words name v ["--" ++ name ++ "=" ++ v]
| option_apart : option_words name v ["-" ++ name; v]
| option_apart2 : option_words name v ["--" ++ name; v].

(* [command_line number words f l f' l' rest]: the options at the beginning of
   [words] change the file name and the level from [f], [l] to [f'], [l'] (the
   last one wins), and the words [rest] come after the options.  [number] reads
   an integer. *)
Inductive command_line (number : string -> option Z) : list string -> string -> Z -> string -> Z -> list string -> Prop :=
| words_none : forall f l, command_line number [] f l f l []
| words_plain : forall w rest f l, plain w -> command_line number (w :: rest) f l f l (w :: rest)
| words_end : forall rest f l, command_line number ("--" :: rest) f l f l rest
| words_file : forall v ws words f l f' l' rest, option_words "file" v ws ->
    command_line number words v l f' l' rest -> command_line number (ws ++ words)%list f l f' l' rest
| words_level : forall v z ws words f l f' l' rest, option_words "adsb_reader_level" v ws -> number v = Some z ->
    command_line number words f z f' l' rest -> command_line number (ws ++ words)%list f l f' l' rest.
