(* The track of an aircraft that reports the two components of its ground speed. *)
From Verif Require Import GoBase Bits.
From Verif.Spec Require Import Binary64 MathLib Velocity.
From Coq Require Import ZArith Reals.
From Flocq Require Import Core BinarySingleNaN.
Local Open Scope R_scope.

(* x is a finite float32 number, and its value is r *)
Definition fl32 (x : spec_float) (r : R) : Prop :=
  exists b : binary_float 24 128, x = B2SF b /\ is_finite b = true /\ B2R b = r.

(* theta, in degrees clockwise from north, is the direction of a speed of component e to the east and n to the north *)
Definition bearing (e n theta : R) : Prop :=
  0 <= theta < 360 /\
  e = sqrt (e * e + n * n) * sin (theta * PI / 180) /\
  n = sqrt (e * e + n * n) * cos (theta * PI / 180).

(* What is assumed of math.Atan2: an angle of [-pi, pi], of the right sine and cosine, up to the tolerance of
   Spec/MathLib; and no error on the half axis of angle 0. *)
Definition accurate_atan2 (f : spec_float -> spec_float -> spec_float) : Prop :=
  (forall y x v w, fl y v -> fl x w -> Rabs v <= 5000 -> Rabs w <= 5000 ->
     exists a, - PI <= a <= PI /\ v = sqrt (v * v + w * w) * sin a /\ w = sqrt (v * v + w * w) * cos a /\
       about (f y x) a tolerance) /\
  (forall y x w, fl y 0 -> fl x w -> 0 < w <= 5000 -> fl (f y x) 0).

(* a speed of the given magnitude, against the direction when the sign bit is set *)
Definition component (negative : bool) (step code : Z) : R :=
  if negative then - IZR (step * (code - 1)) else IZR (step * (code - 1)).

(* the track of subtypes 1 and 2: when both components are regular, an angle that is the bearing of the speed,
   up to 1/50000 degree (the result is a float32), unless the aircraft stands still *)
Definition TrackOf (step : Z) (data : list Z) (track : res spec_float) : Prop :=
  let e := component (bit 14 data) step (bits 15 24 data) in
  let n := component (bit 25 data) step (bits 26 35 data) in
  (regular (bits 15 24 data) -> regular (bits 26 35 data) ->
     exists t r, track = Ok t /\ fl32 t r /\ 0 <= r <= 360 /\
       ((e <> 0 \/ n <> 0) -> r < 360 /\ exists theta, bearing e n theta /\ Rabs (r - theta) <= 1 / 50000)) /\
  (~ regular (bits 15 24 data) -> track = Err "velocity EW is not regular"%string) /\
  (regular (bits 15 24 data) -> ~ regular (bits 26 35 data) -> track = Err "velocity NS is not regular"%string).
