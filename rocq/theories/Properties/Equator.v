(* Property theorems: Equator. Generated by tools/mkprops.py; proofs are in theories/Proofs. *)
From Verif Require Import GoBase Bits.
From Verif.Spec Require Import Altitude Identification Floats Adsb AdsbMessages Velocity Squitter.
From Verif.Gen Require bds05 bds06 bds08 bds08_fields bds09 adsb_airborne_velocity adsb_aircraft_identification_and_category.
From Verif.Model Require Import Crc ModesReader AdsbReader Geo.
From Coq Require Import Reals Floats.SpecFloat.
From Flocq Require Import Core.
From Verif.Spec Require Import Binary64 Cpr Geodesy MathLib ZoneTable Precise Track.
From Verif.Proofs Require Equator EquatorApi.
Local Open Scope R_scope.

Theorem C106_airborne_global_everywhere : forall m lat lon n last,
  precise m -> clear_of_changes lat n ->
  exists x y v w,
    GetCPRAirborneGlobalPosition (floats m) (airborne_latitude false lat) (airborne_longitude n false lon)
      (airborne_latitude true lat) (airborne_longitude n true lon) last = Ok (x, y) /\
    fl x v /\ Rabs (v - lat) <= half_step 360 (latitude_zones (negb last)) + 1 / 100000000000 /\
    fl y w /\ -180 < w <= 180 /\
    same_angle w lon (half_step 360 (longitude_zones n (negb last)) + 1 / 100000000000).
Proof. exact Equator.airborne_global_everywhere. Qed.
Print Assumptions C106_airborne_global_everywhere.

Theorem C106_airborne_local_everywhere : forall m lat lon x r y s odd n,
  precise m -> clear_of_changes lat n ->
  fl x r -> Rabs r <= 90 -> fl y s -> Rabs s <= 360 ->
  Rabs (lat - r) <= 360 / IZR (latitude_zones odd) / 2 - 1 / 500 ->
  same_angle lon s (360 / IZR (longitude_zones n odd) / 2 - 1 / 500) ->
  exists X Y v w,
    GetCPRAirborneLocalPosition (floats m) (airborne_latitude odd lat) (airborne_longitude n odd lon) x y odd = (X, Y) /\
    fl X v /\ Rabs (v - lat) <= half_step 360 (latitude_zones odd) + 1 / 1000000000 /\
    fl Y w /\ same_angle w lon (half_step 360 (longitude_zones n odd) + 1 / 1000000000).
Proof. exact Equator.airborne_local_everywhere. Qed.
Print Assumptions C106_airborne_local_everywhere.

Theorem C106_airborne_moving_everywhere : forall m lat0 lon0 lat1 lon1 n last,
  precise m -> clear_of_changes lat0 n -> clear_of_changes lat1 n ->
  Rabs (lat0 - lat1) <= 0.0507 -> short_move 360 n lon0 lon1 ->
  exists x y v w,
    GetCPRAirborneGlobalPosition (floats m) (airborne_latitude false lat0) (airborne_longitude n false lon0)
      (airborne_latitude true lat1) (airborne_longitude n true lon1) last = Ok (x, y) /\
    fl x v /\ Rabs (v - (if last then lat0 else lat1)) <= half_step 360 (latitude_zones (negb last)) + 1 / 100000000000 /\
    fl y w /\ -180 < w <= 180 /\
    same_angle w (if last then lon0 else lon1) (half_step 360 (longitude_zones n (negb last)) + 1 / 100000000000).
Proof. exact Equator.airborne_moving_everywhere. Qed.
Print Assumptions C106_airborne_moving_everywhere.

Theorem C106_changes_by_table : forall lat n, Rabs lat <= 90 -> away (1 / 9000) lat -> tabulated lat n -> clear_of_changes lat n.
Proof. exact Equator.changes_by_table. Qed.
Print Assumptions C106_changes_by_table.

Theorem C106_accuracy_refuted : exists m x lat, accurate m /\ fl x lat /\ 0 < lat < 1 / 1000 /\
  (forall n, zones_at lat n -> n = 59%Z) /\ fl (getNumberOfLongitude (floats m) x) 60.
Proof. exact Equator.accuracy_refuted. Qed.
Print Assumptions C106_accuracy_refuted.

Example C106_clear_equator : clear_of_changes 0 59.
Proof. exact Equator.clear_equator. Qed.
Print Assumptions C106_clear_equator.

Example C106_precise_exists : exists m, precise m.
Proof. exact Equator.precise_exists. Qed.
Print Assumptions C106_precise_exists.

Theorem C106_airborne_located_everywhere : forall m v nicA nicC ca icao tc status antenna feet feet' altitude altitude' time time' lat0 lon0 lat1 lon1 n last even odd,
  precise m -> clear_of_changes lat0 n -> clear_of_changes lat1 n ->
  Rabs (lat0 - lat1) <= 0.0507 -> short_move 360 n lon0 lon1 ->
  (0 <= v <= 2)%Z -> (9 <= tc <= 18 \/ 20 <= tc <= 22)%Z -> altitude_fields feet altitude -> altitude_fields feet' altitude' ->
  Squitter ca icao (airborne_payload tc status antenna altitude time false (airborne_latitude false lat0) (airborne_longitude n false lon0)) even ->
  Squitter ca icao (airborne_payload tc status antenna altitude' time' true (airborne_latitude true lat1) (airborne_longitude n true lon1)) odd ->
  exists p q x y u w,
    received v nicA nicC even icao (AAirborne p) /\ received v nicA nicC odd icao (AAirborne q) /\
    bds05.AirbornePosition_CPRFormat (airborne_part p) = 0%Z /\
    bds05.AirbornePosition_CPRFormat (airborne_part q) = 1%Z /\
    GetCPRAirborneGlobalPosition (floats m)
      (bds05.AirbornePosition_EncodedLatitude (airborne_part p)) (bds05.AirbornePosition_EncodedLongitude (airborne_part p))
      (bds05.AirbornePosition_EncodedLatitude (airborne_part q)) (bds05.AirbornePosition_EncodedLongitude (airborne_part q)) last
      = Ok (x, y) /\
    fl x u /\ Rabs (u - (if last then lat0 else lat1)) <= half_step 360 (latitude_zones (negb last)) + 1 / 100000000000 /\
    fl y w /\ -180 < w <= 180 /\
    same_angle w (if last then lon0 else lon1) (half_step 360 (longitude_zones n (negb last)) + 1 / 100000000000).
Proof. exact EquatorApi.airborne_located_everywhere. Qed.
Print Assumptions C106_airborne_located_everywhere.

Theorem C106_airborne_near_everywhere : forall m v nicA nicC ca icao tc status antenna feet altitude time lat lon x0 r y0 s odd n frame,
  precise m -> clear_of_changes lat n ->
  (0 <= v <= 2)%Z -> (9 <= tc <= 18 \/ 20 <= tc <= 22)%Z -> altitude_fields feet altitude ->
  Squitter ca icao (airborne_payload tc status antenna altitude time odd (airborne_latitude odd lat) (airborne_longitude n odd lon)) frame ->
  fl x0 r -> Rabs r <= 90 -> fl y0 s -> Rabs s <= 360 ->
  Rabs (lat - r) <= 360 / IZR (latitude_zones odd) / 2 - 1 / 500 ->
  same_angle lon s (360 / IZR (longitude_zones n odd) / 2 - 1 / 500) ->
  exists p x y u w,
    received v nicA nicC frame icao (AAirborne p) /\
    bds05.AirbornePosition_CPRFormat (airborne_part p) = flag odd /\
    GetCPRAirborneLocalPosition (floats m)
      (bds05.AirbornePosition_EncodedLatitude (airborne_part p)) (bds05.AirbornePosition_EncodedLongitude (airborne_part p)) x0 y0 odd
      = (x, y) /\
    fl x u /\ Rabs (u - lat) <= half_step 360 (latitude_zones odd) + 1 / 1000000000 /\
    fl y w /\ same_angle w lon (half_step 360 (longitude_zones n odd) + 1 / 1000000000).
Proof. exact EquatorApi.airborne_near_everywhere. Qed.
Print Assumptions C106_airborne_near_everywhere.

Theorem C106_tropics : forall lat, Rabs lat <= 10 -> clear_of_changes lat 59.
Proof. exact EquatorApi.tropics. Qed.
Print Assumptions C106_tropics.

Example C106_equator_crossing : clear_of_changes (-0.01) 59 /\ clear_of_changes 0.02 59 /\
  Rabs (-0.01 - 0.02) <= 0.0507 /\ short_move 360 59 (-179) (-179.03).
Proof. exact EquatorApi.equator_crossing. Qed.
Print Assumptions C106_equator_crossing.
