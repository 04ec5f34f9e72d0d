(* What the results on airborne positions near the equator assume of package math, beyond accuracy: cosines and
   squares within 1e-15, which is about ten times what Go documents for them. *)
From Verif Require Import GoBase.
From Verif.Model Require Import Geo.
From Coq Require Import ZArith Reals.
From Verif.Spec Require Import Binary64 Geodesy MathLib.
Local Open Scope R_scope.

Definition fine : R := 1 / 1000000000000000.

Definition precise (m : mathlib) : Prop :=
  (forall x v, fl x v -> Rabs v <= 2 -> about (m_cos m x) (cos v) fine) /\
  (forall x v, fl x v -> Rabs v <= 2 -> about (m_pow m x (f64_lit 2 1)) (v * v) fine) /\
  (forall x v, fl x v -> Rabs v <= 1 - 1 / 20000 -> about (m_acos m x) (acos v) tolerance).

(* the position is not within a ten-thousandth of a degree of a latitude where the number of longitude zones
   changes, where it is n; the equator is not excluded *)
Definition clear_of_changes (lat : R) (n : Z) : Prop :=
  Rabs lat <= 90 /\ forall lat', Rabs (lat' - lat) <= 1 / 10000 -> zones_at lat' n.
