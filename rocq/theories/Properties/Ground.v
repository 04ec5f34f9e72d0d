(* Property theorems: Ground. Generated by tools/mkprops.py; proofs are in theories/Proofs. *)
From Verif Require Import GoBase Bits.
From Verif.Spec Require Import Altitude Identification Floats Adsb AdsbMessages Velocity Squitter.
From Verif.Gen Require bds05 bds06 bds08 bds08_fields bds09 adsb_airborne_velocity adsb_aircraft_identification_and_category.
From Verif.Model Require Import Crc ModesReader AdsbReader Geo.
From Coq Require Import Reals Floats.SpecFloat.
From Flocq Require Import Core.
From Verif.Spec Require Import Binary64 Cpr Geodesy MathLib ZoneTable Precise Sent Track.
From Verif.Proofs Require Ground GroundApi.
Local Open Scope R_scope.

Theorem C112_surface_pair_everywhere : forall m lat0 lon0 lat1 lon1 x r y s n0 n1 (last : bool),
  sharp m ->
  ground_latitude (sent_ground_latitude false lat0) -> ground_latitude (sent_ground_latitude true lat1) ->
  zones_at (sent_ground_latitude false lat0) n0 -> zones_at (sent_ground_latitude true lat1) n1 ->
  0 <= lat0 <= 89.99 /\ 0 <= lat1 <= 89.99 /\ 0 <= r \/ -90 <= lat0 <= -0.0001 /\ -90 <= lat1 <= -0.0001 /\ r < 0 ->
  Rabs (if last then lon0 else lon1) <= 179.999 ->
  fl x r -> fl y s -> Rabs ((if last then lon0 else lon1) - s) <= 44.99 ->
  Rabs (lat0 - lat1) <= 0.0126 -> (n0 = n1 -> short_move 90 n0 lon0 lon1) ->
  let result := GetCPRSurfaceGlobalPosition (floats m) (surface_latitude false lat0) (surface_longitude n0 false lon0)
      (surface_latitude true lat1) (surface_longitude n1 true lon1) last x y in
  if (n0 =? n1)%Z then
    exists X Y v w, result = Ok (X, Y) /\
      fl X v /\ Rabs (v - (if last then lat0 else lat1)) <= half_step 90 (latitude_zones (negb last)) + 1 / 100000000000 /\
      fl Y w /\ Rabs (w - (if last then lon0 else lon1)) <= half_step 90 (longitude_zones n0 (negb last)) + 1 / 1000000000
  else exists error, result = Err error.
Proof. exact Ground.surface_pair_everywhere. Qed.
Print Assumptions C112_surface_pair_everywhere.

Theorem C112_surface_one_everywhere : forall m lat lon x r y s odd n,
  sharp m -> ground_latitude (sent_ground_latitude odd lat) -> zones_at (sent_ground_latitude odd lat) n ->
  fl x r -> Rabs r <= 90 -> fl y s -> Rabs s <= 360 ->
  Rabs (lat - r) <= 90 / IZR (latitude_zones odd) / 2 - 1 / 500 ->
  same_angle lon s (90 / IZR (longitude_zones n odd) / 2 - 1 / 500) ->
  exists X Y v w,
    GetCPRSurfaceLocalPosition (floats m) (surface_latitude odd lat) (surface_longitude n odd lon) x y odd = (X, Y) /\
    fl X v /\ Rabs (v - lat) <= half_step 90 (latitude_zones odd) + 1 / 1000000000 /\
    fl Y w /\ same_angle w lon (half_step 90 (longitude_zones n odd) + 1 / 1000000000).
Proof. exact Ground.surface_one_everywhere. Qed.
Print Assumptions C112_surface_one_everywhere.

Theorem C112_sent_ground_zones : forall odd lat, -90 <= lat <= 90 ->
  (exists n, zones_at (sent_ground_latitude odd lat) n) /\
  (forall n n', zones_at (sent_ground_latitude odd lat) n -> zones_at (sent_ground_latitude odd lat) n' -> n = n') /\
  Rabs (sent_ground_latitude odd lat - lat) <= half_step 90 (latitude_zones odd) /\
  (1 / 10000 <= Rabs lat <= 86.9998 -> ground_latitude (sent_ground_latitude odd lat)).
Proof. exact Ground.sent_ground_zones. Qed.
Print Assumptions C112_sent_ground_zones.

Example C112_closest : let lat := 45.546266 in
  ground_latitude (sent_ground_latitude false lat) /\ ground_latitude (sent_ground_latitude true lat) /\
  zones_at (sent_ground_latitude false lat) 42 /\ zones_at (sent_ground_latitude true lat) 41.
Proof. exact Ground.closest. Qed.
Print Assumptions C112_closest.

Theorem C112_squitters_on_ground : forall m v nicA nicC ca icao tc movement tv track time movement' tv' track' time' lat0 lon0 lat1 lon1 x0 r y0 s n0 n1 (last : bool) even odd,
  sharp m ->
  ground_latitude (sent_ground_latitude false lat0) -> ground_latitude (sent_ground_latitude true lat1) ->
  zones_at (sent_ground_latitude false lat0) n0 -> zones_at (sent_ground_latitude true lat1) n1 ->
  0 <= lat0 <= 89.99 /\ 0 <= lat1 <= 89.99 /\ 0 <= r \/ -90 <= lat0 <= -0.0001 /\ -90 <= lat1 <= -0.0001 /\ r < 0 ->
  Rabs (if last then lon0 else lon1) <= 179.999 ->
  fl x0 r -> fl y0 s -> Rabs ((if last then lon0 else lon1) - s) <= 44.99 ->
  Rabs (lat0 - lat1) <= 0.0126 -> (n0 = n1 -> short_move 90 n0 lon0 lon1) ->
  (0 <= v <= 2)%Z -> (5 <= tc <= 8)%Z ->
  Squitter ca icao (surface_payload tc movement tv track time false (surface_latitude false lat0) (surface_longitude n0 false lon0)) even ->
  Squitter ca icao (surface_payload tc movement' tv' track' time' true (surface_latitude true lat1) (surface_longitude n1 true lon1)) odd ->
  exists p q,
    received v nicA nicC even icao (ASurface p) /\ received v nicA nicC odd icao (ASurface q) /\
    let result := GetCPRSurfaceGlobalPosition (floats m)
      (bds06.SurfacePosition_EncodedLatitude (surface_part p)) (bds06.SurfacePosition_EncodedLongitude (surface_part p))
      (bds06.SurfacePosition_EncodedLatitude (surface_part q)) (bds06.SurfacePosition_EncodedLongitude (surface_part q)) last x0 y0 in
    if (n0 =? n1)%Z then
      exists x y u w, result = Ok (x, y) /\
        fl x u /\ Rabs (u - (if last then lat0 else lat1)) <= half_step 90 (latitude_zones (negb last)) + 1 / 100000000000 /\
        fl y w /\ Rabs (w - (if last then lon0 else lon1)) <= half_step 90 (longitude_zones n0 (negb last)) + 1 / 1000000000
    else exists error, result = Err error.
Proof. exact GroundApi.squitters_on_ground. Qed.
Print Assumptions C112_squitters_on_ground.

Theorem C112_squitter_on_ground : forall m v nicA nicC ca icao tc movement tv track time lat lon x0 r y0 s odd n frame,
  sharp m -> ground_latitude (sent_ground_latitude odd lat) -> zones_at (sent_ground_latitude odd lat) n ->
  (0 <= v <= 2)%Z -> (5 <= tc <= 8)%Z ->
  Squitter ca icao (surface_payload tc movement tv track time odd (surface_latitude odd lat) (surface_longitude n odd lon)) frame ->
  fl x0 r -> Rabs r <= 90 -> fl y0 s -> Rabs s <= 360 ->
  Rabs (lat - r) <= 90 / IZR (latitude_zones odd) / 2 - 1 / 500 ->
  same_angle lon s (90 / IZR (longitude_zones n odd) / 2 - 1 / 500) ->
  exists p x y u w,
    received v nicA nicC frame icao (ASurface p) /\
    bds06.SurfacePosition_CPRFormat (surface_part p) = flag odd /\
    GetCPRSurfaceLocalPosition (floats m)
      (bds06.SurfacePosition_EncodedLatitude (surface_part p)) (bds06.SurfacePosition_EncodedLongitude (surface_part p)) x0 y0 odd
      = (x, y) /\
    fl x u /\ Rabs (u - lat) <= half_step 90 (latitude_zones odd) + 1 / 1000000000 /\
    fl y w /\ same_angle w lon (half_step 90 (longitude_zones n odd) + 1 / 1000000000).
Proof. exact GroundApi.squitter_on_ground. Qed.
Print Assumptions C112_squitter_on_ground.

Example C112_refused_on_ground : exists m x0 y0 even odd, sharp m /\ fl x0 46 /\ fl y0 9 /\
  Squitter 5 0x40621D (surface_payload 7 41 true 0 0 false (surface_latitude false 45.546266) (surface_longitude 42 false 7.7)) even /\
  Squitter 5 0x40621D (surface_payload 7 41 true 0 0 true (surface_latitude true 45.546266) (surface_longitude 41 true 7.7)) odd /\
  zones_at (sent_ground_latitude false 45.546266) 42 /\ zones_at (sent_ground_latitude true 45.546266) 41.
Proof. exact GroundApi.refused_on_ground. Qed.
Print Assumptions C112_refused_on_ground.
