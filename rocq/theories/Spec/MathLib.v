(* What the results on positions assume of the functions of package math that IEEE 754 does not define.
   The errors allowed are absolute; the documented errors of Go's functions are below 1e-15. *)
From Verif Require Import GoBase.
From Verif.Model Require Import Geo.
From Coq Require Import ZArith Reals.
From Verif.Spec Require Import Binary64.
Local Open Scope R_scope.

Definition tolerance : R := 1 / 100000000000000.

Definition accurate (m : mathlib) : Prop :=
  (forall x v, fl x v -> Rabs v <= 2 -> about (m_cos m x) (cos v) tolerance) /\
  (forall x v, fl x v -> Rabs v <= 2 -> about (m_pow m x (f64_lit 2 1)) (v * v) tolerance) /\
  (forall x v, fl x v -> Rabs v <= 1 - 1 / 20000 -> about (m_acos m x) (acos v) tolerance).

(* For the ground distance: the square is accurate relatively to its value, and not negative. *)
Definition accurate_distance (m : mathlib) : Prop :=
  (forall x v, fl x v -> Rabs v <= 2 -> about (m_cos m x) (cos v) tolerance) /\
  (forall x v, fl x v -> Rabs v <= 4 -> about (m_sin m x) (sin v) tolerance) /\
  (forall x v, fl x v -> Rabs v <= 2 ->
     exists w, fl (m_pow m x (f64_lit 2 1)) w /\ 0 <= w /\ Rabs (w - v * v) <= tolerance * (v * v) + 1 / 10 ^ 30) /\
  (forall y x v w, fl y v -> fl x w -> 0 <= v <= 2 -> 0 < w <= 2 ->
     about (m_atan2 m y x) (atan (v / w)) tolerance).
