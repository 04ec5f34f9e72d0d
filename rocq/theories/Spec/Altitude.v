(* Specification of the altitude and identity codes (ICAO Annex 10 vol. IV
   3.1.2.6.5.4, 3.1.2.6.7.1 and its Appendix; Doc 9871). Independent of the
   model: nothing from Gen or Model is used here. *)
From Verif Require Import GoBase Bits.
Local Open Scope Z_scope.

(* reflected binary (Gray) code *)
Definition gray (n : Z) : Z := Z.lxor n (n / 2).

(* the number written by a list of binary digits, most significant first *)
Definition number (l : list bool) : Z :=
  List.fold_left (fun acc (b : bool) => 2 * acc + (if b then 1 else 0)) l 0.

(* The C1 C2 C4 pulses of the five 100 ft steps of a 500 ft interval *)
Definition c_pulses (step : Z) : Z := List.nth (Z.to_nat step) [1; 3; 2; 6; 4] 0.

(* Step k (altitude 100 k - 1200 ft) is coded as: the 500 ft interval k / 5 in
   reflected binary on D1 D2 D4 A1 A2 A4 B1 B2 B4, and the step within the interval
   on C1 C2 C4, traversed downwards in odd intervals. *)
Definition gillham_pulses (k : Z) : Z * Z :=
  let n := k / 5 in
  let r := k mod 5 in
  (gray n, c_pulses (if Z.even n then r else 4 - r)).

Definition Gillham (d1 d2 d4 a1 a2 a4 b1 b2 b4 c1 c2 c4 : bool) (feet : Z) : Prop :=
  exists k, 0 <= k < 2560 /\ feet = 100 * k - 1200 /\
    (number [d1; d2; d4; a1; a2; a4; b1; b2; b4], number [c1; c2; c4]) = gillham_pulses k.

(* The 12-bit altitude field of the extended squitters, bits 9 to 20 of the register:
   C1 A1 C2 A2 C4 A4 B1 Q B2 D2 B4 D4 *)
Definition Altitude12 (data : list Z) (feet : Z) : Prop :=
  if bit 16 data
  then feet = 25 * (16 * bits 9 15 data + bits 17 20 data) - 1000
  else Gillham false (bit 18 data) (bit 20 data)
               (bit 10 data) (bit 12 data) (bit 14 data)
               (bit 15 data) (bit 17 data) (bit 19 data)
               (bit 9 data) (bit 11 data) (bit 13 data) feet.

(* How the 13-bit AC field (bits 20 to 32 of a surveillance reply,
   C1 A1 C2 A2 C4 A4 M B1 Q B2 D2 B4 D4) is coded *)
Inductive AltitudeCoding := NoAltitude | Metric | Feet25 | Feet100.

Inductive Altitude13 (frame : list Z) : AltitudeCoding -> Z -> Prop :=
| alt_none : bits 20 32 frame = 0 -> Altitude13 frame NoAltitude 0
| alt_metric : bit 26 frame = true -> Altitude13 frame Metric 0
| alt_25 : bit 26 frame = false -> bit 28 frame = true ->
    Altitude13 frame Feet25 
      (25 * (32 * bits 20 25 frame + 16 * bits 27 27 frame + bits 29 32 frame) - 1000)
| alt_100 feet : bits 20 32 frame <> 0 -> bit 26 frame = false -> bit 28 frame = false ->
    Gillham false (bit 30 frame) (bit 32 frame)
            (bit 21 frame) (bit 23 frame) (bit 25 frame)
            (bit 27 frame) (bit 29 frame) (bit 31 frame)
            (bit 20 frame) (bit 22 frame) (bit 24 frame) feet ->
    Altitude13 frame Feet100 feet.

(* Mode A identity: four octal digits A B C D, each written by its pulses
   4, 2, 1; the digits are read A4 A2 A1, B4 B2 B1, C4 C2 C1, D4 D2 D1. *)
Definition digit_char (n : Z) : ascii := Ascii.ascii_of_nat (48 + Z.to_nat n).
Definition squawk (a b c d : Z) : string :=
  String (digit_char a) (String (digit_char b) (String (digit_char c) (String (digit_char d) ""))).

(* ID field at bits 20 to 32: C1 A1 C2 A2 C4 A4 X B1 D1 B2 D2 B4 D4 *)
Definition identity13 (frame : list Z) : string :=
  squawk (number [bit 25 frame; bit 23 frame; bit 21 frame])
         (number [bit 31 frame; bit 29 frame; bit 27 frame])
         (number [bit 24 frame; bit 22 frame; bit 20 frame])
         (number [bit 32 frame; bit 30 frame; bit 28 frame]).

(* the number of positions at which two settings of the pulses differ *)
Fixpoint hamming (p q : list bool) : Z :=
  match p, q with
  | a :: p', b :: q' => (if Bool.eqb a b then 0 else 1) + hamming p' q'
  | _, _ => 0
  end.

