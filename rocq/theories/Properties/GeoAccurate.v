(* Property theorems: GeoAccurate. Generated by tools/mkprops.py; proofs are in theories/Proofs. *)
From Verif Require Import GoBase.
From Verif.Model Require Import Geo.
From Coq Require Import Reals Floats.SpecFloat.
From Flocq Require Import Core.
From Verif.Spec Require Import Binary64 Cpr Geodesy MathLib.
From Verif.Proofs Require CprAccurate CprMoving DistanceFloat ExamplesGeo GeoTests IdealLib ZonesFloat.
Local Open Scope R_scope.

Theorem C49_airborne_local_accurate : forall m lat lon x r y s odd n,
  accurate m -> clear_of_transitions lat n ->
  fl x r -> Rabs r <= 90 -> fl y s -> Rabs s <= 360 ->
  Rabs (lat - r) <= 360 / IZR (latitude_zones odd) / 2 - 1 / 500 ->
  same_angle lon s (360 / IZR (longitude_zones n odd) / 2 - 1 / 500) ->
  exists X Y v w,
    GetCPRAirborneLocalPosition (floats m) (airborne_latitude odd lat) (airborne_longitude n odd lon) x y odd = (X, Y) /\
    fl X v /\ Rabs (v - lat) <= half_step 360 (latitude_zones odd) + 1 / 1000000000 /\
    fl Y w /\ same_angle w lon (half_step 360 (longitude_zones n odd) + 1 / 1000000000).
Proof. exact CprAccurate.airborne_local_accurate. Qed.
Print Assumptions C49_airborne_local_accurate.

Theorem C49_surface_local_accurate : forall m lat lon x r y s odd n,
  accurate m -> clear_of_transitions lat n ->
  fl x r -> Rabs r <= 90 -> fl y s -> Rabs s <= 360 ->
  Rabs (lat - r) <= 90 / IZR (latitude_zones odd) / 2 - 1 / 500 ->
  same_angle lon s (90 / IZR (longitude_zones n odd) / 2 - 1 / 500) ->
  exists X Y v w,
    GetCPRSurfaceLocalPosition (floats m) (surface_latitude odd lat) (surface_longitude n odd lon) x y odd = (X, Y) /\
    fl X v /\ Rabs (v - lat) <= half_step 90 (latitude_zones odd) + 1 / 1000000000 /\
    fl Y w /\ same_angle w lon (half_step 90 (longitude_zones n odd) + 1 / 1000000000).
Proof. exact CprAccurate.surface_local_accurate. Qed.
Print Assumptions C49_surface_local_accurate.

Example C49_accurate_exists : exists m, accurate m.
Proof. exact CprAccurate.accurate_exists. Qed.
Print Assumptions C49_accurate_exists.

Example C49_clear_45 : clear_of_transitions 45 42.
Proof. exact CprAccurate.clear_45. Qed.
Print Assumptions C49_clear_45.

Example C49_airborne_local_example : forall m, accurate m -> exists X Y v w,
  GetCPRAirborneLocalPosition (floats m) (airborne_latitude false 45) (airborne_longitude 42 false 10)
    (f64_of_Z 44) (f64_of_Z 9) false = (X, Y) /\
  fl X v /\ Rabs (v - 45) <= 1 / 40000 /\ fl Y w /\ same_angle w 10 (1 / 25000).
Proof. exact ExamplesGeo.airborne_local_example. Qed.
Print Assumptions C49_airborne_local_example.

Example C49_surface_local_example : forall m, accurate m -> exists X Y v w,
  GetCPRSurfaceLocalPosition (floats m) (surface_latitude true 45) (surface_longitude 42 true 10)
    (f64_of_Z 45) (f64_of_Z 9) true = (X, Y) /\
  fl X v /\ Rabs (v - 45) <= 1 / 100000 /\ fl Y w /\ same_angle w 10 (1 / 100000).
Proof. exact ExamplesGeo.surface_local_example. Qed.
Print Assumptions C49_surface_local_example.

Example C49_test_airborne_local_example : forall m x y, accurate m -> about x 52.258 (1 / 1000000000) -> about y 3.918 (1 / 1000000000) ->
  exists X Y v w, GetCPRAirborneLocalPosition (floats m) 93000 51372 x y false = (X, Y) /\
  fl X v /\ 52.257 <= v <= 52.258 /\ fl Y w /\ 3.919 <= w <= 3.920.
Proof. exact GeoTests.test_airborne_local_example. Qed.
Print Assumptions C49_test_airborne_local_example.

Example C49_test_surface_local_1_example : forall m x y, accurate m -> about x 51.990 (1 / 1000000000) -> about y 4.375 (1 / 1000000000) ->
  exists X Y v w, GetCPRSurfaceLocalPosition (floats m) 39195 110320 x y true = (X, Y) /\
  fl X v /\ 52.3205 <= v <= 52.3206 /\ fl Y w /\ 4.7357 <= w <= 4.7358.
Proof. exact GeoTests.test_surface_local_1_example. Qed.
Print Assumptions C49_test_surface_local_1_example.

Example C49_test_surface_local_2_example : forall m x y, accurate m -> about x (-43.5) (1 / 1000000000) -> about y 172.5 (1 / 1000000000) ->
  exists X Y v w, GetCPRSurfaceLocalPosition (floats m) 64585 67947 x y true = (X, Y) /\
  fl X v /\ -43.4857 <= v <= -43.4856 /\ fl Y w /\ 172.5394 <= w <= 172.5395.
Proof. exact GeoTests.test_surface_local_2_example. Qed.
Print Assumptions C49_test_surface_local_2_example.

Theorem C50_airborne_global_accurate : forall m lat lon n last,
  accurate m -> clear_of_transitions lat n ->
  exists x y v w,
    GetCPRAirborneGlobalPosition (floats m) (airborne_latitude false lat) (airborne_longitude n false lon)
      (airborne_latitude true lat) (airborne_longitude n true lon) last = Ok (x, y) /\
    fl x v /\ Rabs (v - lat) <= half_step 360 (latitude_zones (negb last)) + 1 / 100000000000 /\
    fl y w /\ -180 < w <= 180 /\
    same_angle w lon (half_step 360 (longitude_zones n (negb last)) + 1 / 100000000000).
Proof. exact CprAccurate.airborne_global_accurate. Qed.
Print Assumptions C50_airborne_global_accurate.

Example C50_airborne_global_example : forall m last, accurate m -> exists X Y v w,
  GetCPRAirborneGlobalPosition (floats m) (airborne_latitude false 45) (airborne_longitude 42 false (-100))
    (airborne_latitude true 45) (airborne_longitude 42 true (-100)) last = Ok (X, Y) /\
  fl X v /\ Rabs (v - 45) <= 1 / 40000 /\ fl Y w /\ Rabs (w - -100) <= 1 / 25000.
Proof. exact ExamplesGeo.airborne_global_example. Qed.
Print Assumptions C50_airborne_global_example.

Example C50_test_airborne_global_1_example : forall m, accurate m -> exists X Y v w,
  GetCPRAirborneGlobalPosition (floats m) 39848 83951 21567 81965 false = Ok (X, Y) /\
  fl X v /\ 49.817 <= v <= 49.818 /\ fl Y w /\ 6.084 <= w <= 6.085.
Proof. exact GeoTests.test_airborne_global_1_example. Qed.
Print Assumptions C50_test_airborne_global_1_example.

Example C50_test_airborne_global_2_example : forall m, accurate m -> exists X Y v w,
  GetCPRAirborneGlobalPosition (floats m) 93000 51372 74158 50194 true = Ok (X, Y) /\
  fl X v /\ 52.257 <= v <= 52.258 /\ fl Y w /\ 3.9193 <= w <= 3.9194.
Proof. exact GeoTests.test_airborne_global_2_example. Qed.
Print Assumptions C50_test_airborne_global_2_example.

Theorem C51_zones_binary64 : forall m lat n, accurate m ->
  1 / 1000 <= Rabs lat <= 90 -> (forall lat', Rabs (lat' - lat) <= 1 / 10000 -> zones_at lat' n) ->
  forall x v, fl x v -> Rabs (v - lat) <= 1 / 30000 -> fl (getNumberOfLongitude (floats m) x) (IZR n).
Proof. exact ZonesFloat.zones_binary64. Qed.
Print Assumptions C51_zones_binary64.

Theorem C53_surface_global_accurate_partial : forall m lat lon x r y s n last,
  accurate m -> clear_of_transitions lat n ->
  0 <= lat <= 89.99 /\ 0 <= r \/ -90 <= lat <= -0.0001 /\ r < 0 -> Rabs lon <= 179.999 ->
  fl x r -> fl y s -> Rabs (lon - s) <= 44.99 ->
  exists X Y v w,
    GetCPRSurfaceGlobalPosition (floats m) (surface_latitude false lat) (surface_longitude n false lon)
      (surface_latitude true lat) (surface_longitude n true lon) last x y = Ok (X, Y) /\
    fl X v /\ Rabs (v - lat) <= half_step 90 (latitude_zones (negb last)) + 1 / 100000000000 /\
    fl Y w /\ Rabs (w - lon) <= half_step 90 (longitude_zones n (negb last)) + 1 / 1000000000.
Proof. exact CprAccurate.surface_global_accurate. Qed.
Print Assumptions C53_surface_global_accurate_partial.

Example C53_surface_global_example : forall m last, accurate m -> exists X Y v w,
  GetCPRSurfaceGlobalPosition (floats m) (surface_latitude false 45) (surface_longitude 42 false (-100))
    (surface_latitude true 45) (surface_longitude 42 true (-100)) last (f64_of_Z 44) (f64_of_Z (-99)) = Ok (X, Y) /\
  fl X v /\ Rabs (v - 45) <= 1 / 100000 /\ fl Y w /\ Rabs (w - -100) <= 1 / 100000.
Proof. exact ExamplesGeo.surface_global_example. Qed.
Print Assumptions C53_surface_global_example.

Example C53_test_surface_global_1_example : forall m x y, accurate m -> about x 51.990 (1 / 1000000000) -> about y 4.375 (1 / 1000000000) ->
  exists X Y v w, GetCPRSurfaceGlobalPosition (floats m) 115609 116941 39199 110269 false x y = Ok (X, Y) /\
  fl X v /\ 52.3206 <= v <= 52.3207 /\ fl Y w /\ 4.7347 <= w <= 4.7348.
Proof. exact GeoTests.test_surface_global_1_example. Qed.
Print Assumptions C53_test_surface_global_1_example.

Example C53_test_surface_global_2_example : forall m x y, accurate m -> about x (-43.496) (1 / 1000000000) -> about y 172.558 (1 / 1000000000) ->
  exists X Y v w, GetCPRSurfaceGlobalPosition (floats m) 1246 57074 64585 67947 false x y = Ok (X, Y) /\
  fl X v /\ -43.4857 <= v <= -43.4856 /\ fl Y w /\ 172.5394 <= w <= 172.5395.
Proof. exact GeoTests.test_surface_global_2_example. Qed.
Print Assumptions C53_test_surface_global_2_example.

Theorem C54_distance_accurate : forall m x1 y1 x2 y2 lat1 lon1 lat2 lon2, accurate_distance m ->
  fl x1 lat1 -> fl y1 lon1 -> fl x2 lat2 -> fl y2 lon2 ->
  Rabs lat1 <= 89.999 -> Rabs lon1 <= 180 -> Rabs lat2 <= 89.999 -> Rabs lon2 <= 180 ->
  earth_radius * angle (point lat1 lon1) (point lat2 lon2) <= 20000000 ->
  about (ComputeGroundDistance (floats m) x1 y1 x2 y2)
        (earth_radius * angle (point lat1 lon1) (point lat2 lon2)) 0.01.
Proof. exact DistanceFloat.distance_accurate. Qed.
Print Assumptions C54_distance_accurate.

Theorem C54_distance_accurate_near : forall m x1 y1 x2 y2 lat1 lon1 lat2 lon2, accurate_distance m ->
  fl x1 lat1 -> fl y1 lon1 -> fl x2 lat2 -> fl y2 lon2 ->
  Rabs lat1 <= 89.999 -> Rabs lon1 <= 180 -> Rabs lat2 <= 89.999 -> Rabs lon2 <= 180 ->
  earth_radius * angle (point lat1 lon1) (point lat2 lon2) <= 10000000 ->
  about (ComputeGroundDistance (floats m) x1 y1 x2 y2)
        (earth_radius * angle (point lat1 lon1) (point lat2 lon2)) 0.0001.
Proof. exact DistanceFloat.distance_accurate_near. Qed.
Print Assumptions C54_distance_accurate_near.

Theorem C54_distance_antipodes_refuted : exists m, accurate_distance m /\
  ComputeGroundDistance (floats m) (f64_of_Z 0) (f64_of_Z 0) (f64_of_Z 0) (f64_of_Z 180) = S754_nan.
Proof. exact DistanceFloat.distance_antipodes_refuted. Qed.
Print Assumptions C54_distance_antipodes_refuted.

Theorem C54_distance_accurate_example : forall m, accurate_distance m ->
  about (ComputeGroundDistance (floats m) (f64_of_Z 0) (f64_of_Z 0) (f64_of_Z 0) (f64_of_Z 90)) (6371000 * (PI / 2)) 0.01.
Proof. exact DistanceFloat.distance_accurate_example. Qed.
Print Assumptions C54_distance_accurate_example.

Theorem C54_accurate_library_example : exists m, accurate m /\ accurate_distance m.
Proof. exact IdealLib.accurate_library_example. Qed.
Print Assumptions C54_accurate_library_example.

Theorem C92_airborne_global_moving : forall m lat0 lon0 lat1 lon1 n last,
  accurate m -> clear_of_transitions lat0 n -> clear_of_transitions lat1 n ->
  (Rabs (lat0 - lat1) <= 0.0507)%R -> short_move 360 n lon0 lon1 ->
  exists x y v w,
    GetCPRAirborneGlobalPosition (floats m) (airborne_latitude false lat0) (airborne_longitude n false lon0)
      (airborne_latitude true lat1) (airborne_longitude n true lon1) last = Ok (x, y) /\
    fl x v /\ (Rabs (v - (if last then lat0 else lat1)) <= half_step 360 (latitude_zones (negb last)) + 1 / 100000000000)%R /\
    fl y w /\ (-180 < w <= 180)%R /\
    same_angle w (if last then lon0 else lon1) (half_step 360 (longitude_zones n (negb last)) + 1 / 100000000000).
Proof. exact CprMoving.airborne_global_moving. Qed.
Print Assumptions C92_airborne_global_moving.

Theorem C92_surface_global_moving : forall m lat0 lon0 lat1 lon1 x r y s n (last : bool),
  accurate m -> clear_of_transitions lat0 n -> clear_of_transitions lat1 n ->
  (0 <= lat0 <= 89.99 /\ 0 <= lat1 <= 89.99 /\ 0 <= r \/ -90 <= lat0 <= -0.0001 /\ -90 <= lat1 <= -0.0001 /\ r < 0)%R ->
  (Rabs (if last then lon0 else lon1) <= 179.999)%R ->
  fl x r -> fl y s -> (Rabs ((if last then lon0 else lon1) - s) <= 44.99)%R ->
  (Rabs (lat0 - lat1) <= 0.0126)%R -> short_move 90 n lon0 lon1 ->
  exists X Y v w,
    GetCPRSurfaceGlobalPosition (floats m) (surface_latitude false lat0) (surface_longitude n false lon0)
      (surface_latitude true lat1) (surface_longitude n true lon1) last x y = Ok (X, Y) /\
    fl X v /\ (Rabs (v - (if last then lat0 else lat1)) <= half_step 90 (latitude_zones (negb last)) + 1 / 100000000000)%R /\
    fl Y w /\ (Rabs (w - (if last then lon0 else lon1)) <= half_step 90 (longitude_zones n (negb last)) + 1 / 1000000000)%R.
Proof. exact CprMoving.surface_global_moving. Qed.
Print Assumptions C92_surface_global_moving.

Theorem C92_airborne_global_crossing : forall m lat0 lat1 n0 n1 E U last,
  accurate m -> clear_of_transitions lat0 n0 -> clear_of_transitions lat1 n1 -> n0 <> n1 -> code E -> code U ->
  (Rabs (lat0 - lat1) <= 0.0507)%R ->
  exists error, GetCPRAirborneGlobalPosition (floats m) (airborne_latitude false lat0) E (airborne_latitude true lat1) U last = Err error.
Proof. exact CprMoving.airborne_global_crossing. Qed.
Print Assumptions C92_airborne_global_crossing.

Theorem C92_surface_global_crossing : forall m lat0 lat1 n0 n1 E U x r y s last,
  accurate m -> clear_of_transitions lat0 n0 -> clear_of_transitions lat1 n1 -> n0 <> n1 -> code E -> code U ->
  (0 <= lat0 <= 89.99 /\ 0 <= lat1 <= 89.99 /\ 0 <= r \/ -90 <= lat0 <= -0.0001 /\ -90 <= lat1 <= -0.0001 /\ r < 0)%R ->
  fl x r -> fl y s -> (Rabs s <= 360)%R -> (Rabs (lat0 - lat1) <= 0.0126)%R ->
  exists error, GetCPRSurfaceGlobalPosition (floats m) (surface_latitude false lat0) E (surface_latitude true lat1) U last x y = Err error.
Proof. exact CprMoving.surface_global_crossing. Qed.
Print Assumptions C92_surface_global_crossing.

Example C92_moving_example : exists m, accurate m /\ clear_of_transitions 45 42 /\ clear_of_transitions 45.02 42 /\
  Rabs (45 - 45.02) <= 0.0507 /\ short_move 360 42 179.99 (-179.99) /\
  Rabs (45 - 45.01) <= 0.0126 /\ short_move 90 42 7.68 7.7.
Proof. exact CprMoving.moving_example. Qed.
Print Assumptions C92_moving_example.

Example C92_crossing_example : clear_of_transitions 87.02 1 /\ clear_of_transitions 86.98 2 /\ Rabs (87.02 - 86.98) <= 0.0507.
Proof. exact CprMoving.crossing_example. Qed.
Print Assumptions C92_crossing_example.
