(* Property theorems: Squitter. Generated by tools/mkprops.py; proofs are in theories/Proofs. *)
From Verif Require Import GoBase Bits.
From Verif.Spec Require Import Altitude Identification Floats Adsb AdsbMessages Velocity Squitter.
From Verif.Gen Require bds05 bds06 bds08 bds08_fields bds09 adsb_airborne_velocity adsb_aircraft_identification_and_category.
From Verif.Model Require Import Crc ModesReader AdsbReader Geo.
From Coq Require Import Reals Floats.SpecFloat.
From Flocq Require Import Core.
From Verif.Spec Require Import Binary64 Cpr Geodesy MathLib Track.
From Verif.Proofs Require EndToEnd Moving Squitter.
Local Open Scope R_scope.

Theorem C78_airborne_received : forall v nicA nicC ca icao tc status antenna feet altitude time odd lat lon frame,
  (0 <= v <= 2)%Z -> (9 <= tc <= 18 \/ 20 <= tc <= 22)%Z -> altitude_fields feet altitude ->
  Squitter ca icao (airborne_payload tc status antenna altitude time odd lat lon) frame ->
  exists m, received v nicA nicC frame icao (AAirborne m) /\
    bds05.AirbornePosition_FormatTypeCode (airborne_part m) = tc /\
    bds05.AirbornePosition_SurveillanceStatus (airborne_part m) = status /\
    bds05.AirbornePosition_SingleAntennaFlag (airborne_part m) = antenna /\
    bds05.AirbornePosition_AltitudeInFeet (airborne_part m) = feet /\
    bds05.AirbornePosition_Time (airborne_part m) = time /\
    bds05.AirbornePosition_CPRFormat (airborne_part m) = flag odd /\
    bds05.AirbornePosition_EncodedLatitude (airborne_part m) = lat /\
    bds05.AirbornePosition_EncodedLongitude (airborne_part m) = lon.
Proof. exact Squitter.airborne_received. Qed.
Print Assumptions C78_airborne_received.

Theorem C78_airborne_located : forall m v nicA nicC ca icao tc status antenna feet feet' altitude altitude' time time' lat lon n last even odd,
  accurate m -> clear_of_transitions lat n ->
  (0 <= v <= 2)%Z -> (9 <= tc <= 18 \/ 20 <= tc <= 22)%Z -> altitude_fields feet altitude -> altitude_fields feet' altitude' ->
  Squitter ca icao (airborne_payload tc status antenna altitude time false (airborne_latitude false lat) (airborne_longitude n false lon)) even ->
  Squitter ca icao (airborne_payload tc status antenna altitude' time' true (airborne_latitude true lat) (airborne_longitude n true lon)) odd ->
  exists p q x y u w,
    received v nicA nicC even icao (AAirborne p) /\ received v nicA nicC odd icao (AAirborne q) /\
    bds05.AirbornePosition_AltitudeInFeet (airborne_part p) = feet /\
    bds05.AirbornePosition_AltitudeInFeet (airborne_part q) = feet' /\
    bds05.AirbornePosition_CPRFormat (airborne_part p) = 0%Z /\
    bds05.AirbornePosition_CPRFormat (airborne_part q) = 1%Z /\
    GetCPRAirborneGlobalPosition (floats m)
      (bds05.AirbornePosition_EncodedLatitude (airborne_part p)) (bds05.AirbornePosition_EncodedLongitude (airborne_part p))
      (bds05.AirbornePosition_EncodedLatitude (airborne_part q)) (bds05.AirbornePosition_EncodedLongitude (airborne_part q)) last
      = Ok (x, y) /\
    fl x u /\ Rabs (u - lat) <= half_step 360 (latitude_zones (negb last)) + 1 / 100000000000 /\
    fl y w /\ -180 < w <= 180 /\
    same_angle w lon (half_step 360 (longitude_zones n (negb last)) + 1 / 100000000000).
Proof. exact EndToEnd.airborne_located. Qed.
Print Assumptions C78_airborne_located.

Theorem C78_airborne_located_near : forall m v nicA nicC ca icao tc status antenna feet altitude time lat lon x0 r y0 s odd n frame,
  accurate m -> clear_of_transitions lat n ->
  (0 <= v <= 2)%Z -> (9 <= tc <= 18 \/ 20 <= tc <= 22)%Z -> altitude_fields feet altitude ->
  Squitter ca icao (airborne_payload tc status antenna altitude time odd (airborne_latitude odd lat) (airborne_longitude n odd lon)) frame ->
  fl x0 r -> Rabs r <= 90 -> fl y0 s -> Rabs s <= 360 ->
  Rabs (lat - r) <= 360 / IZR (latitude_zones odd) / 2 - 1 / 500 ->
  same_angle lon s (360 / IZR (longitude_zones n odd) / 2 - 1 / 500) ->
  exists p x y u w,
    received v nicA nicC frame icao (AAirborne p) /\
    bds05.AirbornePosition_AltitudeInFeet (airborne_part p) = feet /\
    bds05.AirbornePosition_CPRFormat (airborne_part p) = flag odd /\
    GetCPRAirborneLocalPosition (floats m)
      (bds05.AirbornePosition_EncodedLatitude (airborne_part p)) (bds05.AirbornePosition_EncodedLongitude (airborne_part p)) x0 y0 odd
      = (x, y) /\
    fl x u /\ Rabs (u - lat) <= half_step 360 (latitude_zones odd) + 1 / 1000000000 /\
    fl y w /\ same_angle w lon (half_step 360 (longitude_zones n odd) + 1 / 1000000000).
Proof. exact EndToEnd.airborne_located_near. Qed.
Print Assumptions C78_airborne_located_near.

Theorem C78_squitter_exists : forall ca icao payload, fits (header ca icao) -> fits payload -> width payload = 56%Z ->
  exists frame, Squitter ca icao payload frame.
Proof. exact Squitter.squitter_exists. Qed.
Print Assumptions C78_squitter_exists.

Example C78_airborne_located_example : exists m even odd, accurate m /\ clear_of_transitions 45 42 /\
  altitude_fields 38000 [(7, 1560 / 16); (1, 1); (4, 1560 mod 16)]%Z /\
  Squitter 5 0x40621D (airborne_payload 11 0 0 [(7, 1560 / 16); (1, 1); (4, 1560 mod 16)]%Z 0 false (airborne_latitude false 45) (airborne_longitude 42 false (-100))) even /\
  Squitter 5 0x40621D (airborne_payload 11 0 0 [(7, 1560 / 16); (1, 1); (4, 1560 mod 16)]%Z 0 true (airborne_latitude true 45) (airborne_longitude 42 true (-100))) odd.
Proof. exact EndToEnd.airborne_located_example. Qed.
Print Assumptions C78_airborne_located_example.

Theorem C79_surface_received : forall v nicA nicC ca icao tc movement track_valid track time odd lat lon frame,
  (0 <= v <= 2)%Z -> (5 <= tc <= 8)%Z ->
  Squitter ca icao (surface_payload tc movement track_valid track time odd lat lon) frame ->
  exists m, received v nicA nicC frame icao (ASurface m) /\
    bds06.SurfacePosition_FormatTypeCode (surface_part m) = tc /\
    is_value (bds06.SurfacePosition_MovementSpeed (surface_part m)) (movement_knots movement) /\
    bds06.SurfacePosition_GroundTrackStatus (surface_part m) = track_valid /\
    is_value (bds06.SurfacePosition_GroundTrack (surface_part m)) (inject_Z track * (360 # 128))%Q /\
    bds06.SurfacePosition_Time (surface_part m) = time /\
    bds06.SurfacePosition_CPRFormat (surface_part m) = flag odd /\
    bds06.SurfacePosition_EncodedLatitude (surface_part m) = lat /\
    bds06.SurfacePosition_EncodedLongitude (surface_part m) = lon.
Proof. exact Squitter.surface_received. Qed.
Print Assumptions C79_surface_received.

Theorem C79_surface_located : forall m v nicA nicC ca icao tc movement tv track time movement' tv' track' time' lat lon x0 r y0 s n last even odd,
  accurate m -> clear_of_transitions lat n ->
  0 <= lat <= 89.99 /\ 0 <= r \/ -90 <= lat <= -0.0001 /\ r < 0 -> Rabs lon <= 179.999 ->
  fl x0 r -> fl y0 s -> Rabs (lon - s) <= 44.99 ->
  (0 <= v <= 2)%Z -> (5 <= tc <= 8)%Z ->
  Squitter ca icao (surface_payload tc movement tv track time false (surface_latitude false lat) (surface_longitude n false lon)) even ->
  Squitter ca icao (surface_payload tc movement' tv' track' time' true (surface_latitude true lat) (surface_longitude n true lon)) odd ->
  exists p q x y u w,
    received v nicA nicC even icao (ASurface p) /\ received v nicA nicC odd icao (ASurface q) /\
    is_value (bds06.SurfacePosition_MovementSpeed (surface_part p)) (movement_knots movement) /\
    is_value (bds06.SurfacePosition_MovementSpeed (surface_part q)) (movement_knots movement') /\
    bds06.SurfacePosition_CPRFormat (surface_part p) = 0%Z /\
    bds06.SurfacePosition_CPRFormat (surface_part q) = 1%Z /\
    GetCPRSurfaceGlobalPosition (floats m)
      (bds06.SurfacePosition_EncodedLatitude (surface_part p)) (bds06.SurfacePosition_EncodedLongitude (surface_part p))
      (bds06.SurfacePosition_EncodedLatitude (surface_part q)) (bds06.SurfacePosition_EncodedLongitude (surface_part q)) last x0 y0
      = Ok (x, y) /\
    fl x u /\ Rabs (u - lat) <= half_step 90 (latitude_zones (negb last)) + 1 / 100000000000 /\
    fl y w /\ Rabs (w - lon) <= half_step 90 (longitude_zones n (negb last)) + 1 / 1000000000.
Proof. exact EndToEnd.surface_located. Qed.
Print Assumptions C79_surface_located.

Theorem C79_surface_located_near : forall m v nicA nicC ca icao tc movement tv track time lat lon x0 r y0 s odd n frame,
  accurate m -> clear_of_transitions lat n ->
  (0 <= v <= 2)%Z -> (5 <= tc <= 8)%Z ->
  Squitter ca icao (surface_payload tc movement tv track time odd (surface_latitude odd lat) (surface_longitude n odd lon)) frame ->
  fl x0 r -> Rabs r <= 90 -> fl y0 s -> Rabs s <= 360 ->
  Rabs (lat - r) <= 90 / IZR (latitude_zones odd) / 2 - 1 / 500 ->
  same_angle lon s (90 / IZR (longitude_zones n odd) / 2 - 1 / 500) ->
  exists p x y u w,
    received v nicA nicC frame icao (ASurface p) /\
    is_value (bds06.SurfacePosition_MovementSpeed (surface_part p)) (movement_knots movement) /\
    bds06.SurfacePosition_CPRFormat (surface_part p) = flag odd /\
    GetCPRSurfaceLocalPosition (floats m)
      (bds06.SurfacePosition_EncodedLatitude (surface_part p)) (bds06.SurfacePosition_EncodedLongitude (surface_part p)) x0 y0 odd
      = (x, y) /\
    fl x u /\ Rabs (u - lat) <= half_step 90 (latitude_zones odd) + 1 / 1000000000 /\
    fl y w /\ same_angle w lon (half_step 90 (longitude_zones n odd) + 1 / 1000000000).
Proof. exact EndToEnd.surface_located_near. Qed.
Print Assumptions C79_surface_located_near.

Example C79_surface_located_example : exists m x0 y0 even odd, accurate m /\ clear_of_transitions 45 42 /\
  fl x0 46 /\ fl y0 9 /\ (0 <= 45 <= 89.99 /\ 0 <= 46) /\ Rabs 7.7 <= 179.999 /\ Rabs (7.7 - 9) <= 44.99 /\
  Squitter 5 0x40621D (surface_payload 7 41 true 0 0 false (surface_latitude false 45) (surface_longitude 42 false 7.7)) even /\
  Squitter 5 0x40621D (surface_payload 7 41 true 0 0 true (surface_latitude true 45) (surface_longitude 42 true 7.7)) odd.
Proof. exact EndToEnd.surface_located_example. Qed.
Print Assumptions C79_surface_located_example.

Theorem C80_identification_received : forall v nicA nicC ca icao tc category codes callsign frame,
  (1 <= tc <= 4)%Z -> len codes = 8%Z -> List.map ia5 codes = List.map Some callsign ->
  Squitter ca icao (identification_payload tc category codes) frame ->
  exists m, received v nicA nicC frame icao (AIdentification m) /\
    let i := adsb_aircraft_identification_and_category.AircraftIdentificationAndCategory_AircraftIdentificationAndCategory m in
    bds08.AircraftIdentificationAndCategory_Identification i = text callsign /\
    bds08.AircraftIdentificationAndCategory_Category i =
      List.nth (Z.to_nat (tc - 1)%Z) [bds08_fields.IAircraftCategory_AircraftCategorySetD category;
        bds08_fields.IAircraftCategory_AircraftCategorySetC category; bds08_fields.IAircraftCategory_AircraftCategorySetB category]
        (bds08_fields.IAircraftCategory_AircraftCategorySetA category).
Proof. exact Squitter.identification_received. Qed.
Print Assumptions C80_identification_received.

Example C80_identification_example :
  Squitter 5 0x4840D6 (identification_payload 4 0 [11; 12; 13; 49; 48; 50; 51; 32]%Z)
    [0x8D;0x48;0x40;0xD6;0x20;0x2C;0xC3;0x71;0xC3;0x2C;0xE0;0x57;0x60;0x98]%Z /\
  List.map Identification.ia5 [11; 12; 13; 49; 48; 50; 51; 32]%Z = List.map Some ["K"; "L"; "M"; "1"; "0"; "2"; "3"; " "]%char.
Proof. exact EndToEnd.identification_example. Qed.
Print Assumptions C80_identification_example.

Theorem C81_velocity_told : forall f v nicA nicC ca icao intent ifr nuc e n source rate difference frame,
  accurate_atan2 f -> (-1021 <= e <= 1021)%Z -> (-1021 <= n <= 1021)%Z ->
  Squitter ca icao (velocity_of 1 intent ifr nuc e n source rate difference) frame ->
  exists m x t r,
    received v nicA nicC frame icao (AVelocity m) /\
    adsb_airborne_velocity.AirborneVelocity_AirborneVelocity m = bds09.IAirborneVelocity_AirborneVelocityGroundSpeedNormal x /\
    bds09.AirborneVelocityGroundSpeedNormal_GetSpeed x = Ok (Z.sqrt (e ^ 2 + n ^ 2)) /\
    bds09.AirborneVelocityGroundSpeedNormal_GetTrack f x = Ok t /\ fl32 t r /\ 0 <= r <= 360 /\
    ((e <> 0 \/ n <> 0)%Z -> r < 360 /\ exists theta, bearing (IZR e) (IZR n) theta /\ Rabs (r - theta) <= 1 / 50000) /\
    bds09.AirborneVelocityGroundSpeedNormal_VerticalRateSource x = source /\
    bds09.AirborneVelocityGroundSpeedNormal_VerticalRate x = (64 * rate)%Z /\
    bds09.AirborneVelocityGroundSpeedNormal_DifferenceAltitudeGNSSBaro x = (25 * difference)%Z.
Proof. exact EndToEnd.velocity_told. Qed.
Print Assumptions C81_velocity_told.

Theorem C81_velocity_told_supersonic : forall f v nicA nicC ca icao intent ifr nuc e n source rate difference frame,
  accurate_atan2 f -> (-1021 <= e <= 1021)%Z -> (-1021 <= n <= 1021)%Z ->
  Squitter ca icao (velocity_of 2 intent ifr nuc e n source rate difference) frame ->
  exists m x t r,
    received v nicA nicC frame icao (AVelocity m) /\
    adsb_airborne_velocity.AirborneVelocity_AirborneVelocity m = bds09.IAirborneVelocity_AirborneVelocityGroundSpeedSupersonic x /\
    bds09.AirborneVelocityGroundSpeedSupersonic_GetSpeed x = Ok (Z.sqrt ((4 * e) ^ 2 + (4 * n) ^ 2)) /\
    bds09.AirborneVelocityGroundSpeedSupersonic_GetTrack f x = Ok t /\ fl32 t r /\ 0 <= r <= 360 /\
    ((e <> 0 \/ n <> 0)%Z -> r < 360 /\ exists theta, bearing (IZR (4 * e)) (IZR (4 * n)) theta /\ Rabs (r - theta) <= 1 / 50000) /\
    bds09.AirborneVelocityGroundSpeedSupersonic_VerticalRateSource x = source /\
    bds09.AirborneVelocityGroundSpeedSupersonic_VerticalRate x = (64 * rate)%Z /\
    bds09.AirborneVelocityGroundSpeedSupersonic_DifferenceAltitudeGNSSBaro x = (25 * difference)%Z.
Proof. exact EndToEnd.velocity_told_supersonic. Qed.
Print Assumptions C81_velocity_told_supersonic.

Example C81_velocity_told_example :
  Squitter 5 0x485020 (velocity_of 1 0 1 0 (-8) (-159) 0 (-13) 22) [0x8D;0x48;0x50;0x20;0x99;0x44;0x09;0x94;0x08;0x38;0x17;0x5B;0x28;0x4F]%Z.
Proof. exact EndToEnd.velocity_told_example. Qed.
Print Assumptions C81_velocity_told_example.

Theorem C92_airborne_located_moving : forall m v nicA nicC ca icao tc status antenna feet feet' altitude altitude' time time' lat0 lon0 lat1 lon1 n last even odd,
  accurate m -> clear_of_transitions lat0 n -> clear_of_transitions lat1 n ->
  Rabs (lat0 - lat1) <= 0.0507 -> short_move 360 n lon0 lon1 ->
  (0 <= v <= 2)%Z -> (9 <= tc <= 18 \/ 20 <= tc <= 22)%Z -> altitude_fields feet altitude -> altitude_fields feet' altitude' ->
  Squitter ca icao (airborne_payload tc status antenna altitude time false (airborne_latitude false lat0) (airborne_longitude n false lon0)) even ->
  Squitter ca icao (airborne_payload tc status antenna altitude' time' true (airborne_latitude true lat1) (airborne_longitude n true lon1)) odd ->
  exists p q x y u w,
    received v nicA nicC even icao (AAirborne p) /\ received v nicA nicC odd icao (AAirborne q) /\
    GetCPRAirborneGlobalPosition (floats m)
      (bds05.AirbornePosition_EncodedLatitude (airborne_part p)) (bds05.AirbornePosition_EncodedLongitude (airborne_part p))
      (bds05.AirbornePosition_EncodedLatitude (airborne_part q)) (bds05.AirbornePosition_EncodedLongitude (airborne_part q)) last
      = Ok (x, y) /\
    fl x u /\ Rabs (u - (if last then lat0 else lat1)) <= half_step 360 (latitude_zones (negb last)) + 1 / 100000000000 /\
    fl y w /\ -180 < w <= 180 /\
    same_angle w (if last then lon0 else lon1) (half_step 360 (longitude_zones n (negb last)) + 1 / 100000000000).
Proof. exact Moving.airborne_located_moving. Qed.
Print Assumptions C92_airborne_located_moving.

Theorem C92_airborne_crossing : forall m v nicA nicC ca icao tc status antenna feet feet' altitude altitude' time time' lat0 lon0 lat1 lon1 n0 n1 last even odd,
  accurate m -> clear_of_transitions lat0 n0 -> clear_of_transitions lat1 n1 -> n0 <> n1 ->
  Rabs (lat0 - lat1) <= 0.0507 ->
  (0 <= v <= 2)%Z -> (9 <= tc <= 18 \/ 20 <= tc <= 22)%Z -> altitude_fields feet altitude -> altitude_fields feet' altitude' ->
  Squitter ca icao (airborne_payload tc status antenna altitude time false (airborne_latitude false lat0) (airborne_longitude n0 false lon0)) even ->
  Squitter ca icao (airborne_payload tc status antenna altitude' time' true (airborne_latitude true lat1) (airborne_longitude n1 true lon1)) odd ->
  exists p q error,
    received v nicA nicC even icao (AAirborne p) /\ received v nicA nicC odd icao (AAirborne q) /\
    GetCPRAirborneGlobalPosition (floats m)
      (bds05.AirbornePosition_EncodedLatitude (airborne_part p)) (bds05.AirbornePosition_EncodedLongitude (airborne_part p))
      (bds05.AirbornePosition_EncodedLatitude (airborne_part q)) (bds05.AirbornePosition_EncodedLongitude (airborne_part q)) last
      = Err error.
Proof. exact Moving.airborne_crossing. Qed.
Print Assumptions C92_airborne_crossing.

Theorem C92_surface_located_moving : forall m v nicA nicC ca icao tc movement tv track time movement' tv' track' time' lat0 lon0 lat1 lon1 x0 r y0 s n (last : bool) even odd,
  accurate m -> clear_of_transitions lat0 n -> clear_of_transitions lat1 n ->
  0 <= lat0 <= 89.99 /\ 0 <= lat1 <= 89.99 /\ 0 <= r \/ -90 <= lat0 <= -0.0001 /\ -90 <= lat1 <= -0.0001 /\ r < 0 ->
  Rabs (if last then lon0 else lon1) <= 179.999 ->
  fl x0 r -> fl y0 s -> Rabs ((if last then lon0 else lon1) - s) <= 44.99 ->
  Rabs (lat0 - lat1) <= 0.0126 -> short_move 90 n lon0 lon1 ->
  (0 <= v <= 2)%Z -> (5 <= tc <= 8)%Z ->
  Squitter ca icao (surface_payload tc movement tv track time false (surface_latitude false lat0) (surface_longitude n false lon0)) even ->
  Squitter ca icao (surface_payload tc movement' tv' track' time' true (surface_latitude true lat1) (surface_longitude n true lon1)) odd ->
  exists p q x y u w,
    received v nicA nicC even icao (ASurface p) /\ received v nicA nicC odd icao (ASurface q) /\
    GetCPRSurfaceGlobalPosition (floats m)
      (bds06.SurfacePosition_EncodedLatitude (surface_part p)) (bds06.SurfacePosition_EncodedLongitude (surface_part p))
      (bds06.SurfacePosition_EncodedLatitude (surface_part q)) (bds06.SurfacePosition_EncodedLongitude (surface_part q)) last x0 y0
      = Ok (x, y) /\
    fl x u /\ Rabs (u - (if last then lat0 else lat1)) <= half_step 90 (latitude_zones (negb last)) + 1 / 100000000000 /\
    fl y w /\ Rabs (w - (if last then lon0 else lon1)) <= half_step 90 (longitude_zones n (negb last)) + 1 / 1000000000.
Proof. exact Moving.surface_located_moving. Qed.
Print Assumptions C92_surface_located_moving.
