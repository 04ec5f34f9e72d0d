(* The integers that can be written on the command line: the integer literals of Go, with an
   optional sign. *)
Require Import ZArith List String Ascii.
Import ListNotations.
Local Open Scope Z_scope.

(* a digit: 0 to 9, then the letters, in either case *)
Inductive digit : ascii -> Z -> Prop :=
| digit_figure : forall n, (n < 10)%nat -> digit (ascii_of_nat (48 + n)) (Z.of_nat n)
| digit_lower : forall n, (n < 26)%nat -> digit (ascii_of_nat (97 + n)) (Z.of_nat (10 + n))
| digit_upper : forall n, (n < 26)%nat -> digit (ascii_of_nat (65 + n)) (Z.of_nat (10 + n)).

(* a text made of digits of a base, where an underscore may separate two digits *)
Inductive spelled (base : Z) : string -> list Z -> Prop :=
| spelled_last : forall c d, digit c d -> d < base -> spelled base (String c EmptyString) [d]
| spelled_more : forall c d s ds, digit c d -> d < base -> spelled base s ds ->
    spelled base (String c s) (d :: ds)
| spelled_apart : forall c d s ds, digit c d -> d < base -> spelled base s ds ->
    spelled base (String c (String "_" s)) (d :: ds).

(* the number that digits make *)
Definition number_of (base : Z) (ds : list Z) : Z := fold_left (fun n d => n * base + d) ds 0.

(* what announces a base other than ten *)
Inductive prefix : string -> Z -> Prop :=
| prefix_0 : prefix "0" 8
| prefix_o : prefix "0o" 8
| prefix_O : prefix "0O" 8
| prefix_b : prefix "0b" 2
| prefix_B : prefix "0B" 2
| prefix_x : prefix "0x" 16
| prefix_X : prefix "0X" 16.

Inductive natural : string -> Z -> Prop :=
| natural_zero : natural "0" 0
| natural_decimal : forall c s ds, c <> "0"%char -> spelled 10 (String c s) ds ->
    natural (String c s) (number_of 10 ds)
| natural_based : forall p base s ds, prefix p base -> spelled base s ds ->
    natural (p ++ s) (number_of base ds)
| natural_based_apart : forall p base s ds, prefix p base -> spelled base s ds ->
    natural (p ++ "_" ++ s) (number_of base ds).

Inductive integer : string -> Z -> Prop :=
| integer_unsigned : forall s n, natural s n -> integer s n
| integer_plus : forall s n, natural s n -> integer ("+" ++ s) n
| integer_minus : forall s n, natural s n -> integer ("-" ++ s) (- n).
