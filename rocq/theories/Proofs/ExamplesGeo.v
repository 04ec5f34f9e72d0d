(* Concrete cases meeting the hypotheses of the property theorems: positions. *)
From Verif Require Import GoBase.
From Verif.Model Require Import Geo.
From Coq Require Import ZArith Reals Lia Lra.
From Coq Require Import Floats.SpecFloat.
From Flocq Require Import Core.
From Verif.Spec Require Import Binary64 Cpr Geodesy MathLib.
From Verif.Proofs Require Import FloatR CprAccurate ZonesFloat.
Local Open Scope R_scope.

Ltac ints := rewrite ?Rabs_pos_eq by (cbn; lra); cbn; lra.

Example airborne_local_example : forall m, accurate m -> exists X Y v w,
  GetCPRAirborneLocalPosition (floats m) (airborne_latitude false 45) (airborne_longitude 42 false 10)
    (f64_of_Z 44) (f64_of_Z 9) false = (X, Y) /\
  fl X v /\ Rabs (v - 45) <= 1 / 40000 /\ fl Y w /\ same_angle w 10 (1 / 25000).
Proof.
  intros m A.
  destruct (airborne_local_accurate m 45 10 (f64_of_Z 44) 44 (f64_of_Z 9) 9 false 42 A clear_45)
    as (X & Y & v & w & R & Fv & Ev & Fw & k & Ew).
  - apply (fl_of_Z 44). lia.
  - ints.
  - apply (fl_of_Z 9). lia.
  - ints.
  - unfold latitude_zones. ints.
  - exists 0%Z. unfold longitude_zones. ints.
  - exists X, Y, v, w. unfold half_step, latitude_zones, longitude_zones in *. cbn in Ev, Ew.
    repeat split; try assumption; [lra|]. exists k. lra.
Qed.

Example surface_local_example : forall m, accurate m -> exists X Y v w,
  GetCPRSurfaceLocalPosition (floats m) (surface_latitude true 45) (surface_longitude 42 true 10)
    (f64_of_Z 45) (f64_of_Z 9) true = (X, Y) /\
  fl X v /\ Rabs (v - 45) <= 1 / 100000 /\ fl Y w /\ same_angle w 10 (1 / 100000).
Proof.
  intros m A.
  destruct (surface_local_accurate m 45 10 (f64_of_Z 45) 45 (f64_of_Z 9) 9 true 42 A clear_45)
    as (X & Y & v & w & R & Fv & Ev & Fw & k & Ew).
  - apply (fl_of_Z 45). lia.
  - ints.
  - apply (fl_of_Z 9). lia.
  - ints.
  - unfold latitude_zones. replace (45 - 45) with 0 by lra. rewrite Rabs_R0. lra.
  - exists 0%Z. unfold longitude_zones. ints.
  - exists X, Y, v, w. unfold half_step, latitude_zones, longitude_zones in *. cbn in Ev, Ew.
    repeat split; try assumption; [lra|]. exists k. lra.
Qed.

Example airborne_global_example : forall m last, accurate m -> exists X Y v w,
  GetCPRAirborneGlobalPosition (floats m) (airborne_latitude false 45) (airborne_longitude 42 false (-100))
    (airborne_latitude true 45) (airborne_longitude 42 true (-100)) last = Ok (X, Y) /\
  fl X v /\ Rabs (v - 45) <= 1 / 40000 /\ fl Y w /\ Rabs (w - -100) <= 1 / 25000.
Proof.
  intros m last A.
  destruct (airborne_global_accurate m 45 (-100) 42 last A clear_45) as (X & Y & v & w & R & Fv & Ev & Fw & Bw & k & Ew).
  exists X, Y, v, w. unfold half_step, latitude_zones, longitude_zones in *.
  assert (E : Rabs (w - -100 - 360 * IZR k) <= 1 / 25000) by (destruct last; cbn in Ew; lra).
  assert (k = 0)%Z as ->.
  { apply Rabs_le_inv in E.
    assert (-1 < k < 1)%Z; [|lia]. split; apply lt_IZR; lra. }
  repeat split; try assumption; [destruct last; cbn in Ev; lra|].
  replace (w - -100) with (w - -100 - 360 * 0) by lra. exact E.
Qed.

Example surface_global_example : forall m last, accurate m -> exists X Y v w,
  GetCPRSurfaceGlobalPosition (floats m) (surface_latitude false 45) (surface_longitude 42 false (-100))
    (surface_latitude true 45) (surface_longitude 42 true (-100)) last (f64_of_Z 44) (f64_of_Z (-99)) = Ok (X, Y) /\
  fl X v /\ Rabs (v - 45) <= 1 / 100000 /\ fl Y w /\ Rabs (w - -100) <= 1 / 100000.
Proof.
  intros m last A.
  destruct (surface_global_accurate m 45 (-100) (f64_of_Z 44) 44 (f64_of_Z (-99)) (-99) 42 last A clear_45)
    as (X & Y & v & w & R & Fv & Ev & Fw & Ew).
  - left. lra.
  - rewrite Rabs_left; lra.
  - apply (fl_of_Z 44). lia.
  - apply (fl_of_Z (-99)). lia.
  - rewrite Rabs_left; lra.
  - exists X, Y, v, w. unfold half_step, latitude_zones, longitude_zones in *.
    repeat split; try assumption; destruct last; cbn in Ev, Ew; lra.
Qed.
