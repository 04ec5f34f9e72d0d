(* Property theorems: Geo. Generated by tools/mkprops.py; proofs are in theories/Proofs. *)
From Verif Require Import GoBase.
From Verif.Model Require Import Geo GeoReal.
From Coq Require Import Reals Floats.SpecFloat.
From Flocq Require Import Core.
From Verif.Spec Require Import Binary64 Cpr.
From Verif.Proofs Require CprGlobal CprLocal CprSurface CprWitness.
Local Open Scope Z_scope.

Theorem C49_airborne_local_decode : forall m c C x r y s odd,
  code c -> code C -> fl x r -> (Rabs r <= 90)%R -> fl y s -> (Rabs s <= 360)%R ->
  let result := GetCPRAirborneLocalPosition (floats m) c C x y odd in
  nearest 360 (latitude_zones odd) c r (fst result) /\
  forall n, 1 <= n <= 59 -> fl (getNumberOfLongitude (floats m) (fst result)) (IZR n) ->
    nearest 360 (longitude_zones n odd) C s (snd result).
Proof. exact CprLocal.airborne_local_decode. Qed.
Print Assumptions C49_airborne_local_decode.

Theorem C49_surface_local_decode : forall m c C x r y s odd,
  code c -> code C -> fl x r -> (Rabs r <= 90)%R -> fl y s -> (Rabs s <= 360)%R ->
  let result := GetCPRSurfaceLocalPosition (floats m) c C x y odd in
  nearest 90 (latitude_zones odd) c r (fst result) /\
  forall n, 1 <= n <= 59 -> fl (getNumberOfLongitude (floats m) (fst result)) (IZR n) ->
    nearest 90 (longitude_zones n odd) C s (snd result).
Proof. exact CprLocal.surface_local_decode. Qed.
Print Assumptions C49_surface_local_decode.

Theorem C49_airborne_local : forall m lat lon x r y s odd n,
  fl x r -> (Rabs r <= 90)%R -> fl y s -> (Rabs s <= 360)%R -> 1 <= n <= 59 ->
  (forall x v, fl x v -> (Rabs (v - lat) <= 1 / 30000)%R -> fl (getNumberOfLongitude (floats m) x) (IZR n)) ->
  (Rabs (lat - r) <= 360 / IZR (latitude_zones odd) / 2 - 1 / 500)%R ->
  same_angle lon s (360 / IZR (longitude_zones n odd) / 2 - 1 / 500) ->
  exists X Y v w,
    GetCPRAirborneLocalPosition (floats m) (airborne_latitude odd lat) (airborne_longitude n odd lon) x y odd = (X, Y) /\
    fl X v /\ (Rabs (v - lat) <= half_step 360 (latitude_zones odd) + 1 / 1000000000)%R /\
    fl Y w /\ same_angle w lon (half_step 360 (longitude_zones n odd) + 1 / 1000000000).
Proof. exact CprLocal.airborne_local. Qed.
Print Assumptions C49_airborne_local.

Theorem C49_surface_local : forall m lat lon x r y s odd n,
  fl x r -> (Rabs r <= 90)%R -> fl y s -> (Rabs s <= 360)%R -> 1 <= n <= 59 ->
  (forall x v, fl x v -> (Rabs (v - lat) <= 1 / 30000)%R -> fl (getNumberOfLongitude (floats m) x) (IZR n)) ->
  (Rabs (lat - r) <= 90 / IZR (latitude_zones odd) / 2 - 1 / 500)%R ->
  same_angle lon s (90 / IZR (longitude_zones n odd) / 2 - 1 / 500) ->
  exists X Y v w,
    GetCPRSurfaceLocalPosition (floats m) (surface_latitude odd lat) (surface_longitude n odd lon) x y odd = (X, Y) /\
    fl X v /\ (Rabs (v - lat) <= half_step 90 (latitude_zones odd) + 1 / 1000000000)%R /\
    fl Y w /\ same_angle w lon (half_step 90 (longitude_zones n odd) + 1 / 1000000000).
Proof. exact CprLocal.surface_local. Qed.
Print Assumptions C49_surface_local.

Theorem C50_airborne_global : forall m lat lon n last,
  (-90 <= lat <= 90)%R -> 1 <= n <= 59 ->
  (forall x v, fl x v -> (Rabs (v - lat) <= 1 / 30000)%R -> fl (getNumberOfLongitude (floats m) x) (IZR n)) ->
  exists x y v w,
    GetCPRAirborneGlobalPosition (floats m) (airborne_latitude false lat) (airborne_longitude n false lon)
      (airborne_latitude true lat) (airborne_longitude n true lon) last = Ok (x, y) /\
    fl x v /\ (Rabs (v - lat) <= half_step 360 (latitude_zones (negb last)) + 1 / 100000000000)%R /\
    fl y w /\ (-180 < w <= 180)%R /\
    same_angle w lon (half_step 360 (longitude_zones n (negb last)) + 1 / 100000000000).
Proof. exact CprGlobal.airborne_global. Qed.
Print Assumptions C50_airborne_global.

Theorem C50_polar_zone : forall m lat, (87.0001 <= Rabs lat)%R ->
  forall x v, fl x v -> (Rabs (v - lat) <= 1 / 30000)%R -> fl (getNumberOfLongitude (floats m) x) (IZR 1).
Proof. exact CprWitness.polar_zone. Qed.
Print Assumptions C50_polar_zone.

Example C50_polar_position : forall m last, exists x y v w,
  GetCPRAirborneGlobalPosition (floats m) (airborne_latitude false 88) (airborne_longitude 1 false 12)
    (airborne_latitude true 88) (airborne_longitude 1 true 12) last = Ok (x, y) /\
  fl x v /\ (Rabs (v - 88) <= 1 / 40000)%R /\ fl y w /\ same_angle w 12 (1 / 700).
Proof. exact CprWitness.polar_position. Qed.
Print Assumptions C50_polar_position.

Theorem C51_zones_north_south : forall m x, getNumberOfLongitude (floats m) (SFopp x) = getNumberOfLongitude (floats m) x.
Proof. exact CprWitness.zones_north_south. Qed.
Print Assumptions C51_zones_north_south.

Theorem C52_airborne_global_decode_partial : forall m evenLat evenLon oddLat oddLon last,
  code evenLat -> code evenLon -> code oddLat -> code oddLon ->
  let result := GetCPRAirborneGlobalPosition (floats m) evenLat evenLon oddLat oddLon last in
  exists xe xo,
    about xe (airborne_decoded_latitude false evenLat oddLat) (1 / 100000000000) /\
    about xo (airborne_decoded_latitude true evenLat oddLat) (1 / 100000000000) /\
    let ne := getNumberOfLongitude (floats m) xe in
    let no := getNumberOfLongitude (floats m) xo in
    (fl_eqb ne no = false -> exists error, result = Err error) /\
    (forall n, 1 <= n <= 59 -> fl ne (IZR n) -> fl no (IZR n) ->
       exists lon v, result = Ok ((if last then xe else xo), lon) /\ fl lon v /\ (-180 < v <= 180)%R /\
         same_angle v (decoded 360 (longitude_zones n (negb last)) (zone_index n evenLon oddLon)
                               (if last then evenLon else oddLon)) (1 / 100000000000)).
Proof. exact CprGlobal.airborne_global_decode. Qed.
Print Assumptions C52_airborne_global_decode_partial.

Theorem C52_airborne_latitude_range_refuted : forall m, exists X Y,
  GetCPRAirborneGlobalPosition (floats m) 0 0 65536 0 true = Ok (X, Y) /\ fl X 180.
Proof. exact CprWitness.airborne_latitude_range_refuted. Qed.
Print Assumptions C52_airborne_latitude_range_refuted.

Theorem C53_surface_global_decode_partial : forall m evenLat evenLon oddLat oddLon last x r y s,
  code evenLat -> code evenLon -> code oddLat -> code oddLon ->
  fl x r -> fl y s -> (Rabs s <= 360)%R ->
  let result := GetCPRSurfaceGlobalPosition (floats m) evenLat evenLon oddLat oddLon last x y in
  exists xe xo,
    about xe (surface_decoded_latitude false (Rlt_bool r 0) evenLat oddLat) (1 / 100000000000) /\
    about xo (surface_decoded_latitude true (Rlt_bool r 0) evenLat oddLat) (1 / 100000000000) /\
    let ne := getNumberOfLongitude (floats m) xe in
    let no := getNumberOfLongitude (floats m) xo in
    (fl_eqb ne no = false -> exists error, result = Err error) /\
    (forall n, 1 <= n <= 59 -> fl ne (IZR n) -> fl no (IZR n) ->
       let candidate := surface_candidate n (negb last) evenLon oddLon in
       exists lon w i, result = Ok ((if last then xe else xo), lon) /\ fl lon w /\
         -2 <= i <= 1 /\ (Rabs (w - candidate i) <= 1 / 10000000000)%R /\
         forall j, -2 <= j <= 1 -> (Rabs (s - candidate i) <= Rabs (s - candidate j) + 1 / 1000000000)%R).
Proof. exact CprSurface.surface_global_decode. Qed.
Print Assumptions C53_surface_global_decode_partial.

Theorem C53_surface_global_partial : forall m lat lon x r y s n last,
  (0 <= lat <= 89.99 /\ 0 <= r \/ -90 <= lat <= -0.0001 /\ r < 0)%R -> (Rabs lon <= 179.999)%R ->
  fl x r -> fl y s -> (Rabs (lon - s) <= 44.99)%R -> 1 <= n <= 59 ->
  (forall x v, fl x v -> (Rabs (v - lat) <= 1 / 30000)%R -> fl (getNumberOfLongitude (floats m) x) (IZR n)) ->
  exists X Y v w,
    GetCPRSurfaceGlobalPosition (floats m) (surface_latitude false lat) (surface_longitude n false lon)
      (surface_latitude true lat) (surface_longitude n true lon) last x y = Ok (X, Y) /\
    fl X v /\ (Rabs (v - lat) <= half_step 90 (latitude_zones (negb last)) + 1 / 100000000000)%R /\
    fl Y w /\ (Rabs (w - lon) <= half_step 90 (longitude_zones n (negb last)) + 1 / 1000000000)%R.
Proof. exact CprSurface.surface_global. Qed.
Print Assumptions C53_surface_global_partial.

Theorem C53_surface_quadrant_refuted : forall m, exists X Y w,
  GetCPRSurfaceGlobalPosition (floats m) (surface_latitude false 0) (surface_longitude 59 false (-179))
    (surface_latitude true 0) (surface_longitude 59 true (-179)) true (f64_of_Z 0) (f64_of_Z 179) = Ok (X, Y) /\
  fl X 0 /\ fl Y w /\ (Rabs (w - 91) <= 1 / 10000)%R.
Proof. exact CprWitness.surface_quadrant_refuted. Qed.
Print Assumptions C53_surface_quadrant_refuted.

Theorem C53_surface_reference_refuted : forall m reference, reference = f64_of_Z 100000000 \/ reference = S754_nan ->
  GetCPRSurfaceGlobalPosition (floats m) 0 0 0 0 true (f64_of_Z 0) reference = Panic.
Proof. exact CprWitness.surface_reference_refuted. Qed.
Print Assumptions C53_surface_reference_refuted.
