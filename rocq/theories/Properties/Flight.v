(* Property theorems: Flight. Generated by tools/mkprops.py; proofs are in theories/Proofs. *)
From Verif Require Import GoBase Bits.
From Verif.Spec Require Import Altitude Identification Floats Adsb AdsbMessages Velocity Squitter Noise.
From Verif.Gen Require bds05 bds06 bds08 bds08_fields bds09 adsb_airborne_velocity adsb_aircraft_identification_and_category.
From Verif.Model Require Import Crc ModesReader AdsbReader Geo.
From Coq Require Import Reals Floats.SpecFloat.
From Flocq Require Import Core.
From Verif.Spec Require Import Binary64 Cpr Geodesy MathLib ZoneTable Precise Sent Flight Track.
From Verif.Proofs Require Flight FlightGround.
Local Open Scope R_scope.

Theorem C108_tracked : forall m version nicA nicC icao turns start first frames last,
  sharp m -> (0 <= version <= 2)%Z ->
  -90 <= r_lat first <= 90 -> (1 <= r_zones first <= 59)%Z -> Rabs (r_lon first + 360 * IZR turns) <= 181 ->
  located turns start first -> heard icao first frames last ->
  located turns (track m version nicA nicC icao start frames) last.
Proof. exact Flight.tracked. Qed.
Print Assumptions C108_tracked.

Theorem C108_tracked_from_pair : forall m version nicA nicC icao even odd frame0 frame1 latest pos frames last,
  sharp m -> (0 <= version <= 2)%Z ->
  r_ground even = false -> r_ground odd = false -> r_odd even = false -> r_odd odd = true -> sends icao even frame0 -> sends icao odd frame1 -> r_zones even = r_zones odd ->
  Rabs (r_lat even - r_lat odd) <= 0.0507 -> short_move 360 (r_zones even) (r_lon even) (r_lon odd) ->
  (exists p q, received version nicA nicC frame0 icao (AAirborne p) /\ received version nicA nicC frame1 icao (AAirborne q) /\
    GetCPRAirborneGlobalPosition (floats m)
      (bds05.AirbornePosition_EncodedLatitude (airborne_part p)) (bds05.AirbornePosition_EncodedLongitude (airborne_part p))
      (bds05.AirbornePosition_EncodedLatitude (airborne_part q)) (bds05.AirbornePosition_EncodedLongitude (airborne_part q)) latest = Ok pos) ->
  heard icao (if latest then even else odd) frames last ->
  exists turns, located turns (track m version nicA nicC icao pos frames) last.
Proof. exact Flight.tracked_from_pair. Qed.
Print Assumptions C108_tracked_from_pair.

Theorem C108_tracked_from_place : forall m version nicA nicC icao x lat y lon first frame frames last,
  sharp m -> (0 <= version <= 2)%Z -> fl x lat -> Rabs lat <= 90 -> fl y lon -> Rabs lon <= 180 ->
  sends icao first frame -> near lat lon first -> Rabs (r_lon first) <= 181 -> heard icao first frames last ->
  located 0 (track m version nicA nicC icao (x, y) (frame :: frames)) last.
Proof. exact Flight.tracked_from_place. Qed.
Print Assumptions C108_tracked_from_place.

Theorem C108_other_address : forall ca icao icao' payload frame, Squitter ca icao' payload frame -> icao' <> icao -> other icao frame.
Proof. exact Flight.other_address. Qed.
Print Assumptions C108_other_address.

Theorem C108_other_format : forall icao frame, bytes frame -> bits 1 5 frame <> 17%Z -> other icao frame.
Proof. exact Flight.other_format. Qed.
Print Assumptions C108_other_format.

Theorem C108_other_type : forall icao ca tc rest frame, Squitter ca icao ((5, tc) :: rest)%Z frame -> ~ airborne_type tc -> ~ surface_type tc -> other icao frame.
Proof. exact Flight.other_type. Qed.
Print Assumptions C108_other_type.

Theorem C108_other_damaged : forall ca icao icao' payload sent frame, Squitter ca icao' payload sent -> damaged sent frame -> other icao frame.
Proof. exact Flight.other_damaged. Qed.
Print Assumptions C108_other_damaged.

Theorem C108_other_without_altitude : forall icao ca tc status antenna time odd lat lon frame, airborne_type tc ->
  Squitter ca icao (airborne_payload tc status antenna [(12, 0)]%Z time odd lat lon) frame -> other icao frame.
Proof. exact Flight.other_without_altitude. Qed.
Print Assumptions C108_other_without_altitude.

Theorem C108_can_send : forall icao odd lat lon, (0 <= icao < 2 ^ 24)%Z -> -90 <= lat <= 90 ->
  exists n frame, sends icao {| r_ground := false; r_odd := odd; r_lat := lat; r_lon := lon; r_zones := n |} frame.
Proof. exact Flight.can_send. Qed.
Print Assumptions C108_can_send.

Theorem C108_can_send_ground : forall icao odd lat lon, (0 <= icao < 2 ^ 24)%Z -> 1 / 10000 <= Rabs lat <= 86.9998 ->
  exists n frame, sends icao {| r_ground := true; r_odd := odd; r_lat := lat; r_lon := lon; r_zones := n |} frame.
Proof. exact Flight.can_send_ground. Qed.
Print Assumptions C108_can_send_ground.

Example C108_antimeridian : exists start first frames last,
  r_lon first = 179 /\ r_lon last = 180.5 /\ r_odd last = true /\ Datatypes.length frames = 4%nat /\
  -90 <= r_lat first <= 90 /\ (1 <= r_zones first <= 59)%Z /\ Rabs (r_lon first + 360 * IZR 0) <= 181 /\
  located 0 start first /\ heard 0x40621D first frames last /\
  forall m version nicA nicC, sharp m -> (0 <= version <= 2)%Z ->
    exists w, fl (snd (track m version nicA nicC 0x40621D start frames)) w /\ 180.49 <= w.
Proof. exact Flight.antimeridian. Qed.
Print Assumptions C108_antimeridian.

Example C108_gate_to_gate : exists x y first frame frames last,
  fl x 45 /\ Rabs 45 <= 90 /\ fl y 7 /\ Rabs 7 <= 180 /\
  r_ground first = true /\ r_ground last = true /\ Datatypes.length frames = 2%nat /\
  sends 0x40621D first frame /\ near 45 7 first /\ Rabs (r_lon first) <= 181 /\ heard 0x40621D first frames last.
Proof. exact Flight.gate_to_gate. Qed.
Print Assumptions C108_gate_to_gate.

Theorem C108_tracked_from_ground : forall m version nicA nicC icao even odd frame0 frame1 (latest : bool) x0 r y0 s pos frames last,
  sharp m -> (0 <= version <= 2)%Z ->
  r_ground even = true -> r_ground odd = true -> r_odd even = false -> r_odd odd = true -> sends icao even frame0 -> sends icao odd frame1 -> r_zones even = r_zones odd ->
  Rabs (r_lat even - r_lat odd) <= 0.0126 -> short_move 90 (r_zones even) (r_lon even) (r_lon odd) ->
  fl x0 r -> (0 <= r_lat even /\ 0 <= r_lat odd /\ 0 <= r \/ r_lat even <= -0.0001 /\ r_lat odd <= -0.0001 /\ r < 0) ->
  fl y0 s -> Rabs (r_lon (if latest then even else odd)) <= 179.999 -> Rabs (r_lon (if latest then even else odd) - s) <= 44.99 ->
  (exists p q, received version nicA nicC frame0 icao (ASurface p) /\ received version nicA nicC frame1 icao (ASurface q) /\
    GetCPRSurfaceGlobalPosition (floats m)
      (bds06.SurfacePosition_EncodedLatitude (surface_part p)) (bds06.SurfacePosition_EncodedLongitude (surface_part p))
      (bds06.SurfacePosition_EncodedLatitude (surface_part q)) (bds06.SurfacePosition_EncodedLongitude (surface_part q)) latest x0 y0 = Ok pos) ->
  heard icao (if latest then even else odd) frames last ->
  located 0 (track m version nicA nicC icao pos frames) last.
Proof. exact FlightGround.tracked_from_ground. Qed.
Print Assumptions C108_tracked_from_ground.

Example C108_from_the_gate : exists m x0 y0 even odd frame0 frame1 p q pos frame last,
  sharp m /\ r_ground even = true /\ r_ground odd = true /\ r_odd even = false /\ r_odd odd = true /\
  sends 0x40621D even frame0 /\ sends 0x40621D odd frame1 /\ r_zones even = r_zones odd /\
  Rabs (r_lat even - r_lat odd) <= 0.0126 /\ short_move 90 (r_zones even) (r_lon even) (r_lon odd) /\
  fl x0 46 /\ 0 <= r_lat even /\ 0 <= r_lat odd /\ fl y0 9 /\ Rabs (r_lon odd) <= 179.999 /\ Rabs (r_lon odd - 9) <= 44.99 /\
  received 2 false false frame0 0x40621D (ASurface p) /\ received 2 false false frame1 0x40621D (ASurface q) /\
  GetCPRSurfaceGlobalPosition (floats m)
    (bds06.SurfacePosition_EncodedLatitude (surface_part p)) (bds06.SurfacePosition_EncodedLongitude (surface_part p))
    (bds06.SurfacePosition_EncodedLatitude (surface_part q)) (bds06.SurfacePosition_EncodedLongitude (surface_part q)) false x0 y0 = Ok pos /\
  heard 0x40621D odd [frame] last /\ r_ground last = false /\ r_lat last = 45.6.
Proof. exact FlightGround.from_the_gate. Qed.
Print Assumptions C108_from_the_gate.
