(* Property theorems: Everywhere. Generated by tools/mkprops.py; proofs are in theories/Proofs. *)
From Verif Require Import GoBase Bits.
From Verif.Spec Require Import Altitude Identification Floats Adsb AdsbMessages Velocity Squitter.
From Verif.Gen Require bds05 bds06 bds08 bds08_fields bds09 adsb_airborne_velocity adsb_aircraft_identification_and_category.
From Verif.Model Require Import Crc ModesReader AdsbReader Geo.
From Coq Require Import Reals Floats.SpecFloat.
From Flocq Require Import Core.
From Verif.Spec Require Import Binary64 Cpr Geodesy MathLib ZoneTable Precise Sent Track.
From Verif.Proofs Require Everywhere EverywhereApi.
Local Open Scope R_scope.

Theorem C107_airborne_pair_everywhere : forall m lat0 lon0 lat1 lon1 n0 n1 last,
  sharp m -> -90 <= lat0 <= 90 -> -90 <= lat1 <= 90 ->
  zones_at (sent_latitude false lat0) n0 -> zones_at (sent_latitude true lat1) n1 ->
  Rabs (lat0 - lat1) <= 0.0507 -> (n0 = n1 -> short_move 360 n0 lon0 lon1) ->
  let result := GetCPRAirborneGlobalPosition (floats m) (airborne_latitude false lat0) (airborne_longitude n0 false lon0)
      (airborne_latitude true lat1) (airborne_longitude n1 true lon1) last in
  if (n0 =? n1)%Z then
    exists x y v w, result = Ok (x, y) /\
      fl x v /\ Rabs (v - (if last then lat0 else lat1)) <= half_step 360 (latitude_zones (negb last)) + 1 / 100000000000 /\
      fl y w /\ -180 < w <= 180 /\
      same_angle w (if last then lon0 else lon1) (half_step 360 (longitude_zones n0 (negb last)) + 1 / 100000000000)
  else exists error, result = Err error.
Proof. exact Everywhere.airborne_pair_everywhere. Qed.
Print Assumptions C107_airborne_pair_everywhere.

Theorem C107_airborne_still_everywhere : forall m lat lon n last,
  sharp m -> -90 <= lat <= 90 -> zones_at (sent_latitude false lat) n -> zones_at (sent_latitude true lat) n ->
  exists x y v w,
    GetCPRAirborneGlobalPosition (floats m) (airborne_latitude false lat) (airborne_longitude n false lon)
      (airborne_latitude true lat) (airborne_longitude n true lon) last = Ok (x, y) /\
    fl x v /\ Rabs (v - lat) <= half_step 360 (latitude_zones (negb last)) + 1 / 100000000000 /\
    fl y w /\ -180 < w <= 180 /\
    same_angle w lon (half_step 360 (longitude_zones n (negb last)) + 1 / 100000000000).
Proof. exact Everywhere.airborne_still_everywhere. Qed.
Print Assumptions C107_airborne_still_everywhere.

Theorem C107_airborne_one_everywhere : forall m lat lon x r y s odd n,
  sharp m -> -90 <= lat <= 90 -> zones_at (sent_latitude odd lat) n ->
  fl x r -> Rabs r <= 90 -> fl y s -> Rabs s <= 360 ->
  Rabs (lat - r) <= 360 / IZR (latitude_zones odd) / 2 - 1 / 500 ->
  same_angle lon s (360 / IZR (longitude_zones n odd) / 2 - 1 / 500) ->
  exists X Y v w,
    GetCPRAirborneLocalPosition (floats m) (airborne_latitude odd lat) (airborne_longitude n odd lon) x y odd = (X, Y) /\
    fl X v /\ Rabs (v - lat) <= half_step 360 (latitude_zones odd) + 1 / 1000000000 /\
    fl Y w /\ same_angle w lon (half_step 360 (longitude_zones n odd) + 1 / 1000000000).
Proof. exact Everywhere.airborne_one_everywhere. Qed.
Print Assumptions C107_airborne_one_everywhere.

Theorem C107_sent_zones : forall odd lat, -90 <= lat <= 90 ->
  (exists n, zones_at (sent_latitude odd lat) n) /\
  (forall n n', zones_at (sent_latitude odd lat) n -> zones_at (sent_latitude odd lat) n' -> n = n') /\
  Rabs (sent_latitude odd lat - lat) <= half_step 360 (latitude_zones odd).
Proof. exact Everywhere.sent_zones. Qed.
Print Assumptions C107_sent_zones.

Example C107_sharp_exists : exists m, sharp m.
Proof. exact Everywhere.sharp_exists. Qed.
Print Assumptions C107_sharp_exists.

Example C107_between_zones : zones_at (sent_latitude false 10.470455) 58 /\ zones_at (sent_latitude true 10.470455) 59.
Proof. exact Everywhere.between_zones. Qed.
Print Assumptions C107_between_zones.

Example C107_pole_side : zones_at (sent_latitude false 87) 2 /\ zones_at (sent_latitude true 87) 2.
Proof. exact Everywhere.pole_side. Qed.
Print Assumptions C107_pole_side.

Theorem C107_squitters_everywhere : forall m v nicA nicC ca icao tc status antenna feet feet' altitude altitude' time time' lat0 lon0 lat1 lon1 n0 n1 last even odd,
  sharp m -> -90 <= lat0 <= 90 -> -90 <= lat1 <= 90 ->
  zones_at (sent_latitude false lat0) n0 -> zones_at (sent_latitude true lat1) n1 ->
  Rabs (lat0 - lat1) <= 0.0507 -> (n0 = n1 -> short_move 360 n0 lon0 lon1) ->
  (0 <= v <= 2)%Z -> (9 <= tc <= 18 \/ 20 <= tc <= 22)%Z -> altitude_fields feet altitude -> altitude_fields feet' altitude' ->
  Squitter ca icao (airborne_payload tc status antenna altitude time false (airborne_latitude false lat0) (airborne_longitude n0 false lon0)) even ->
  Squitter ca icao (airborne_payload tc status antenna altitude' time' true (airborne_latitude true lat1) (airborne_longitude n1 true lon1)) odd ->
  exists p q,
    received v nicA nicC even icao (AAirborne p) /\ received v nicA nicC odd icao (AAirborne q) /\
    let result := GetCPRAirborneGlobalPosition (floats m)
      (bds05.AirbornePosition_EncodedLatitude (airborne_part p)) (bds05.AirbornePosition_EncodedLongitude (airborne_part p))
      (bds05.AirbornePosition_EncodedLatitude (airborne_part q)) (bds05.AirbornePosition_EncodedLongitude (airborne_part q)) last in
    if (n0 =? n1)%Z then
      exists x y u w, result = Ok (x, y) /\
        fl x u /\ Rabs (u - (if last then lat0 else lat1)) <= half_step 360 (latitude_zones (negb last)) + 1 / 100000000000 /\
        fl y w /\ -180 < w <= 180 /\
        same_angle w (if last then lon0 else lon1) (half_step 360 (longitude_zones n0 (negb last)) + 1 / 100000000000)
    else exists error, result = Err error.
Proof. exact EverywhereApi.squitters_everywhere. Qed.
Print Assumptions C107_squitters_everywhere.

Theorem C107_squitter_everywhere : forall m v nicA nicC ca icao tc status antenna feet altitude time lat lon x0 r y0 s odd n frame,
  sharp m -> -90 <= lat <= 90 -> zones_at (sent_latitude odd lat) n ->
  (0 <= v <= 2)%Z -> (9 <= tc <= 18 \/ 20 <= tc <= 22)%Z -> altitude_fields feet altitude ->
  Squitter ca icao (airborne_payload tc status antenna altitude time odd (airborne_latitude odd lat) (airborne_longitude n odd lon)) frame ->
  fl x0 r -> Rabs r <= 90 -> fl y0 s -> Rabs s <= 360 ->
  Rabs (lat - r) <= 360 / IZR (latitude_zones odd) / 2 - 1 / 500 ->
  same_angle lon s (360 / IZR (longitude_zones n odd) / 2 - 1 / 500) ->
  exists p x y u w,
    received v nicA nicC frame icao (AAirborne p) /\
    bds05.AirbornePosition_CPRFormat (airborne_part p) = flag odd /\
    GetCPRAirborneLocalPosition (floats m)
      (bds05.AirbornePosition_EncodedLatitude (airborne_part p)) (bds05.AirbornePosition_EncodedLongitude (airborne_part p)) x0 y0 odd
      = (x, y) /\
    fl x u /\ Rabs (u - lat) <= half_step 360 (latitude_zones odd) + 1 / 1000000000 /\
    fl y w /\ same_angle w lon (half_step 360 (longitude_zones n odd) + 1 / 1000000000).
Proof. exact EverywhereApi.squitter_everywhere. Qed.
Print Assumptions C107_squitter_everywhere.
