(* Specification of aircraft identifications (Annex 10 vol. IV, Table 3-9: the
   6-bit subset of IA-5) and emitter categories (Doc 9871 Table A-2-8). *)
From Verif Require Import GoBase Bits.
Local Open Scope Z_scope.

(* the character coded by c *)
Definition ia5 (c : Z) : option ascii :=
  if (1 <=? c) && (c <=? 26) then Some (Ascii.ascii_of_nat (Z.to_nat (64 + c)))   (* A-Z *)
  else if c =? 32 then Some (Ascii.ascii_of_nat 32)                              (* space *)
  else if (48 <=? c) && (c <=? 57) then Some (Ascii.ascii_of_nat (Z.to_nat c))    (* 0-9 *)
  else None.

(* an undefined code is shown as # *)
Definition shown (c : Z) : ascii :=
  match ia5 c with Some a => a | None => "#"%char end.

(* the eight 6-bit codes of bits 9 to 56 *)
Definition char_codes (data : list Z) : list Z :=
  List.map (fun k => bits (9 + 6 * k) (14 + 6 * k) data) [0; 1; 2; 3; 4; 5; 6; 7].

Fixpoint text (l : list ascii) : string :=
  match l with [] => EmptyString | a :: l' => String a (text l') end.

Definition legal_characters (data : list Z) : Prop :=
  Forall (fun c => ia5 c <> None) (char_codes data).

(* The register which carries the callsign made of the characters l *)
Definition carries (data : list Z) (l : list ascii) : Prop :=
  List.map ia5 (char_codes data) = List.map Some l.
