(* The real value of a binary64 number. *)
From Coq Require Import ZArith Reals.
From Coq Require Import Floats.SpecFloat.
From Flocq Require Import Core BinarySingleNaN.

(* x is a finite binary64 number, and its value is r *)
Definition fl (x : spec_float) (r : R) : Prop :=
  exists b : binary_float 53 1024, x = B2SF b /\ is_finite b = true /\ B2R b = r.

(* x is a finite binary64 number, and its value is r up to eps *)
Definition about (x : spec_float) (r eps : R) : Prop := exists v, fl x v /\ (Rabs (v - r) <= eps)%R.
