(* Positions on the sphere, and the number of longitude zones of compact position reporting. *)
From Coq Require Import ZArith Reals.
Local Open Scope R_scope.

(* degrees to radians *)
Definition rad (degrees : R) : R := PI * degrees / 180.

(* the point of the unit sphere at a latitude and a longitude *)
Definition point (lat lon : R) : R * R * R :=
  (cos (rad lat) * cos (rad lon), cos (rad lat) * sin (rad lon), sin (rad lat)).

Definition dot (u v : R * R * R) : R :=
  let '(a, b, c) := u in let '(x, y, z) := v in a * x + b * y + c * z.

(* the angle between two points of the unit sphere *)
Definition angle (u v : R * R * R) : R := acos (dot u v).

Definition earth_radius : R := 6371000.

(* the latitude is at most the one where the number of longitude zones goes below n
   (DO-260B A.1.7.2.d: acos (sqrt ((1 - cos (PI / (2 * 15))) / (1 - cos (2 * PI / n))))) *)
Definition within_transition (n : Z) (lat : R) : Prop :=
  1 - cos (PI / 30) <= cos (rad lat) * cos (rad lat) * (1 - cos (2 * PI / IZR n)).

(* the number of longitude zones at a latitude *)
Definition zones_at (lat : R) (n : Z) : Prop :=
  (1 <= n <= 59)%Z /\ forall k, (2 <= k <= 59)%Z -> ((k <= n)%Z <-> within_transition k lat).

(* the position is not within a ten-thousandth of a degree of a latitude where the number of longitude
   zones changes, where it is n; nor within a thousandth of a degree of the equator *)
Definition clear_of_transitions (lat : R) (n : Z) : Prop :=
  1 / 1000 <= Rabs lat <= 90 /\ forall lat', Rabs (lat' - lat) <= 1 / 10000 -> zones_at lat' n.
