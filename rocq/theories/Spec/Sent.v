(* The latitude a position message stands for, and what the results on it assume of package math. *)
From Verif Require Import GoBase.
From Verif.Model Require Import Geo.
From Coq Require Import ZArith Reals.
From Flocq Require Import Core.
From Verif.Spec Require Import Binary64 Cpr MathLib Precise.
Local Open Scope R_scope.

(* the latitude which a receiver recovers from the code, and which the transmitter uses to choose the number of its
   longitude zones (DO-260B A.1.7.3.c): Rlat = Dlat * (YZ / 2^17 + floor (lat / Dlat)) *)
Definition recovered (zone x : R) : R :=
  zone * (IZR (Zfloor (131072 * (MOD x zone / zone) + 1 / 2)) / 131072 + IZR (Zfloor (x / zone))).

Definition sent_latitude (odd : bool) (lat : R) : R := recovered (360 / IZR (latitude_zones odd)) lat.

(* the same for positions on the ground: 19 bits are computed, of which 17 are sent *)
Definition sent_ground_latitude (odd : bool) (lat : R) : R :=
  let zone := 360 / IZR (latitude_zones odd) in
  zone * (IZR (Zfloor (524288 * (MOD lat zone / zone) + 1 / 2)) / 524288 + IZR (Zfloor (lat / zone))).

(* where aircraft move on the ground: anywhere but within 6 metres of the equator and next to the poles *)
Definition ground_latitude (lat : R) : Prop := 5 / 100000 <= Rabs lat <= 86.9999.

(* as in Precise, with arc cosines within 1e-14 up to 1e-5 of -1 and 1 *)
Definition sharp (m : mathlib) : Prop :=
  (forall x v, fl x v -> Rabs v <= 2 -> about (m_cos m x) (cos v) fine) /\
  (forall x v, fl x v -> Rabs v <= 2 -> about (m_pow m x (f64_lit 2 1)) (v * v) fine) /\
  (forall x v, fl x v -> Rabs v <= 1 - 1 / 100000 -> about (m_acos m x) (acos v) tolerance).
