(* What the printed texts should look like: lines, numbered labels,
   hexadecimal addresses.  Nothing here mentions the model. *)
Require Import ZArith List String Ascii Decimal DecimalString DecimalZ.
Import ListNotations.
Local Open Scope Z_scope.

(* the character that ends a line *)
Definition newline : ascii := Ascii.ascii_of_nat 10.

(* a line: no newline inside *)
Fixpoint one_line (s : string) : Prop :=
  match s with
  | EmptyString => True
  | String c r => c <> newline /\ one_line r
  end.

(* the text made of the given lines, separated by newlines *)
Definition text_of_lines (ls : list string) : string :=
  String.concat (String newline EmptyString) ls.

(* [s] is the text of the lines [ls]: at least one, none with a newline *)
Definition has_lines (s : string) (ls : list string) : Prop :=
  ls <> [] /\ List.Forall one_line ls /\ s = text_of_lines ls.

(* the usual decimal writing of an integer *)
Definition numeral (z : Z) : string := NilZero.string_of_int (Z.to_int z).

(* a label for the code [z]: "z - some text" *)
Definition numbered (z : Z) (label : string) : Prop :=
  exists text, label = (numeral z ++ " - " ++ text)%string.

(* reading back an address written as pairs of hexadecimal digits, each pair
   followed by a space *)
Definition hex_value (c : ascii) : option Z :=
  match c with
  | "0" => Some 0 | "1" => Some 1 | "2" => Some 2 | "3" => Some 3
  | "4" => Some 4 | "5" => Some 5 | "6" => Some 6 | "7" => Some 7
  | "8" => Some 8 | "9" => Some 9 | "A" => Some 10 | "B" => Some 11
  | "C" => Some 12 | "D" => Some 13 | "E" => Some 14 | "F" => Some 15
  | _ => None
  end%char.

Definition address_of_text (s : string) : option Z :=
  match s with
  | String a (String b (String " "%char
   (String c (String d (String " "%char
   (String e (String f (String " "%char EmptyString)))))))) =>
      match hex_value a, hex_value b, hex_value c, hex_value d, hex_value e, hex_value f with
      | Some a, Some b, Some c, Some d, Some e, Some f =>
          Some (((((a * 16 + b) * 16 + c) * 16 + d) * 16 + e) * 16 + f)
      | _, _, _, _, _, _ => None
      end
  | _ => None
  end.
