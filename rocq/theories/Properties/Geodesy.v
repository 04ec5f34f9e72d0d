(* Property theorems: Geodesy. Generated by tools/mkprops.py; proofs are in theories/Proofs. *)
From Verif Require Import GoBase.
From Verif.Model Require Import Geo GeoReal.
From Coq Require Import Reals.
From Verif.Spec Require Import Geodesy.
From Verif.Proofs Require Atan2 GeoReals.
Local Open Scope R_scope.

Theorem C51_number_of_zones : forall lat, Rabs lat <= 90 ->
  exists n, getNumberOfLongitude reals lat = IZR n /\ zones_at lat n.
Proof. exact GeoReals.number_of_zones. Qed.
Print Assumptions C51_number_of_zones.

Theorem C51_zones_unique : forall lat n n', zones_at lat n -> zones_at lat n' -> n = n'.
Proof. exact GeoReals.zones_unique. Qed.
Print Assumptions C51_zones_unique.

Theorem C51_zones_symmetric : forall lat n, zones_at lat n <-> zones_at (- lat) n.
Proof. exact GeoReals.zones_symmetric. Qed.
Print Assumptions C51_zones_symmetric.

Theorem C51_zones_decreasing : forall lat lat' n n', Rabs lat <= Rabs lat' <= 90 -> zones_at lat n -> zones_at lat' n' ->
  (n' <= n)%Z.
Proof. exact GeoReals.zones_decreasing. Qed.
Print Assumptions C51_zones_decreasing.

Theorem C54_ground_distance : forall lat1 lon1 lat2 lon2,
  ComputeGroundDistance reals lat1 lon1 lat2 lon2 = earth_radius * angle (point lat1 lon1) (point lat2 lon2).
Proof. exact GeoReals.ground_distance. Qed.
Print Assumptions C54_ground_distance.

Theorem C54_distance_bounds : forall lat1 lon1 lat2 lon2,
  0 <= ComputeGroundDistance reals lat1 lon1 lat2 lon2 <= PI * 6371000.
Proof. exact GeoReals.distance_bounds. Qed.
Print Assumptions C54_distance_bounds.

Theorem C54_distance_symmetric : forall lat1 lon1 lat2 lon2,
  ComputeGroundDistance reals lat1 lon1 lat2 lon2 = ComputeGroundDistance reals lat2 lon2 lat1 lon1.
Proof. exact GeoReals.distance_symmetric. Qed.
Print Assumptions C54_distance_symmetric.

Theorem C54_distance_zero : forall lat1 lon1 lat2 lon2,
  ComputeGroundDistance reals lat1 lon1 lat2 lon2 = 0 <-> point lat1 lon1 = point lat2 lon2.
Proof. exact GeoReals.distance_zero. Qed.
Print Assumptions C54_distance_zero.

Theorem C54_distance_triangle : forall lat1 lon1 lat2 lon2 lat3 lon3,
  ComputeGroundDistance reals lat1 lon1 lat3 lon3 <=
  ComputeGroundDistance reals lat1 lon1 lat2 lon2 + ComputeGroundDistance reals lat2 lon2 lat3 lon3.
Proof. exact GeoReals.distance_triangle. Qed.
Print Assumptions C54_distance_triangle.

Example C54_distance_quarter : ComputeGroundDistance reals 0 0 0 90 = 6371000 * (PI / 2).
Proof. exact GeoReals.distance_quarter. Qed.
Print Assumptions C54_distance_quarter.

Theorem C54_angle_of_point : forall x y, x <> 0 \/ y <> 0 ->
  let t := Geo.atan2 reals y x in
  - PI < t <= PI /\ x = R_sqrt.sqrt (x * x + y * y) * cos t /\ y = R_sqrt.sqrt (x * x + y * y) * sin t.
Proof. exact Atan2.angle_of_point. Qed.
Print Assumptions C54_angle_of_point.

Example C54_south_west : Geo.atan2 reals (-1) (-1) = - (3 * (PI / 4)).
Proof. exact Atan2.south_west. Qed.
Print Assumptions C54_south_west.
