(* Specification of the Mode S cyclic code (Annex 10 vol. IV 3.1.2.3.3).
   A polynomial over GF(2) is the non-negative number whose binary digits are its
   coefficients: addition is Z.lxor, and multiplication is [clmul]. *)
From Verif Require Import GoBase Bits.
Local Open Scope Z_scope.

(* multiplication without carry: clmul (sum a_i x^i) b = xor of the b * x^i with a_i = 1 *)
Fixpoint pclmul (a : positive) (b : Z) : Z :=
  match a with
  | xH => b
  | xO a' => 2 * pclmul a' b
  | xI a' => Z.lxor b (2 * pclmul a' b)
  end.
Definition clmul (a b : Z) : Z := match a with Zpos p => pclmul p b | _ => 0 end.

(* G(x) = x^24 + x^23 + x^22 + ... + x^12 + x^10 + x^3 + 1 *)
Definition G : Z := 0x1FFF409.

(* divisible by G *)
Definition codeword (x : Z) : Prop := exists q, 0 <= q /\ x = clmul q G.

(* r is the remainder of M(x) x^24 by G(x) *)
Definition Parity (body : list Z) (r : Z) : Prop :=
  0 <= r < 2 ^ 24 /\ codeword (Z.lxor (be body * 2 ^ 24) r).

(* the number of bits, among the first n, at which two frames differ *)
Fixpoint distance (n : nat) (f g : list Z) : Z :=
  match n with
  | O => 0
  | S n' => distance n' f g + (if Bool.eqb (bit (Z.of_nat n) f) (bit (Z.of_nat n) g) then 0 else 1)
  end.

(* f and g agree outside of w consecutive bits *)
Definition burst (w : Z) (f g : list Z) : Prop :=
  exists i, forall j, 1 <= j <= 8 * len f -> ~ (i <= j < i + w) -> bit j f = bit j g.

(* the last 24 bits of a frame, and what precedes them *)
Definition parity_field (frame : list Z) : Z := bits (8 * len frame - 23) (8 * len frame) frame.
Definition body (frame : list Z) : list Z := octets 1 (len frame - 3) frame.


(* byte by byte exclusive or *)
Definition xor_bytes (l m : list Z) : list Z := List.map (fun p => Z.lxor (fst p) (snd p)) (List.combine l m).


(* a list of codes lets a code through when it is empty or has the code as a key *)
Definition admits (allowed : list (Z * bool)) (code : Z) : Prop :=
  allowed = [] \/ exists v, In (code, v) allowed.

