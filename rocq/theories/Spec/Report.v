(* What a printed report should look like: one line for each field, made of a
   title, possibly a colon, blanks, and the value of the field. *)
Require Import ZArith List String Ascii.
From Verif.Spec Require Import Text.
Import ListNotations.
Local Open Scope string_scope.

Fixpoint blanks (n : nat) : string :=
  match n with O => EmptyString | S k => String " " (blanks k) end.

(* a row: the title of a line, and what its value must be *)
Definition row : Type := string * (string -> Prop).

(* the line of a row *)
Definition line_for (r : row) (line : string) : Prop :=
  exists colon n v, (colon = ":" \/ colon = "") /\ line = fst r ++ colon ++ blanks n ++ v /\ snd r v.

(* the text is made of exactly the lines of these rows, in order *)
Definition shows (text : string) (rows : list row) : Prop :=
  exists ls, has_lines text ls /\ Forall2 line_for rows ls.

(* the same, each line being preceded by the same blanks *)
Definition indented (n : nat) (rows : list row) : list row :=
  map (fun r => (blanks n ++ fst r, snd r)) rows.

(* ---- values ---- *)

(* "code - some words" *)
Definition coded (code : Z) : string -> Prop := numbered code.
(* the words for this code, the first ones being for code 0; a code without words is
   printed as "code - some words" *)
Definition said (words : list string) (code : Z) : string -> Prop :=
  if (code <? 0)%Z then coded code
  else match nth_error words (Z.to_nat code) with
       | Some w => fun v => v = w
       | None => coded code
       end.
(* a decimal number *)
Definition number (z : Z) : string -> Prop := fun v => v = numeral z.
(* a boolean *)
Definition yesno (b : bool) : string -> Prop := fun v => v = if b then "true" else "false".
(* exactly these words *)
Definition exactly (s : string) : string -> Prop := fun v => v = s.
(* nothing: the lines below give the details *)
Definition heading : string -> Prop := exactly "".
(* a title inside a value *)
Definition titled (title : string) (p : string -> Prop) : string -> Prop :=
  fun v => exists n w, v = blanks n ++ title ++ ":" ++ w /\ exists k u, w = blanks k ++ u /\ p u.

(* an octet, in hexadecimal *)
Definition hex_octet (b : Z) (s : string) : Prop :=
  exists x y h l, s = String h (String l "") /\ hex_value h = Some x /\ hex_value l = Some y /\ (b = 16 * x + y)%Z.

(* octets, in hexadecimal, separated by blanks *)
Inductive hex_octets : list Z -> string -> Prop :=
| hex_octets_one : forall b s, hex_octet b s -> hex_octets [b] s
| hex_octets_more : forall b s l t, hex_octet b s -> hex_octets l t -> hex_octets (b :: l) (s ++ " " ++ t).

(* a 24-bit address, in hexadecimal, with or without a blank at the end *)
Definition address_text (a : Z) : string -> Prop :=
  fun v => address_of_text v = Some a \/ address_of_text (v ++ " ") = Some a.
