(* Specification vocabulary for the floating point fields: the exact rational
   value of a finite float. *)
From Verif Require Import GoBase.
From Coq Require Export QArith Qabs.
Local Open Scope Z_scope.

(* m * 2^e *)
Definition dyadic (m e : Z) : Q :=
  if 0 <=? e then inject_Z (m * 2 ^ e) else Qmake m (Z.to_pos (2 ^ (- e))).

(* the float x is exactly the rational q *)
Definition is_value (x : spec_float) (q : Q) : Prop :=
  match x with
  | S754_zero _ => q == 0
  | S754_finite s m e => q == dyadic (if s then Zneg m else Zpos m) e
  | _ => False
  end.

(* the float x is within err of the rational q *)
Definition is_close (x : spec_float) (q err : Q) : Prop :=
  exists v, is_value x v /\ (Qabs (v - q) <= err)%Q.
