(* C92: a moving aircraft is located, from its squitters. *)
From Verif.Proofs Require Import Tac.
From Verif.Spec Require Import Altitude Floats Velocity Adsb AdsbMessages Squitter.
From Verif.Gen Require bds05 bds06.
From Verif.Model Require Import Crc ModesReader AdsbReader Geo.
From Verif.Proofs Require Import AdsbApi Squitter.
From Coq Require Import Reals Lra.
From Verif.Spec Require Import Binary64 Cpr Geodesy MathLib Track.
From Verif.Proofs Require Import CprAccurate CprMoving EndToEnd CprGlobal.
Local Open Scope R_scope.

Theorem airborne_located_moving : forall m v nicA nicC ca icao tc status antenna feet feet' altitude altitude' time time' lat0 lon0 lat1 lon1 n last even odd,
  accurate m -> clear_of_transitions lat0 n -> clear_of_transitions lat1 n ->
  Rabs (lat0 - lat1) <= 0.0507 -> short_move 360 n lon0 lon1 ->
  (0 <= v <= 2)%Z -> (9 <= tc <= 18 \/ 20 <= tc <= 22)%Z -> altitude_fields feet altitude -> altitude_fields feet' altitude' ->
  Squitter ca icao (airborne_payload tc status antenna altitude time false (airborne_latitude false lat0) (airborne_longitude n false lon0)) even ->
  Squitter ca icao (airborne_payload tc status antenna altitude' time' true (airborne_latitude true lat1) (airborne_longitude n true lon1)) odd ->
  exists p q x y u w,
    received v nicA nicC even icao (AAirborne p) /\ received v nicA nicC odd icao (AAirborne q) /\
    GetCPRAirborneGlobalPosition (floats m)
      (bds05.AirbornePosition_EncodedLatitude (airborne_part p)) (bds05.AirbornePosition_EncodedLongitude (airborne_part p))
      (bds05.AirbornePosition_EncodedLatitude (airborne_part q)) (bds05.AirbornePosition_EncodedLongitude (airborne_part q)) last
      = Ok (x, y) /\
    fl x u /\ Rabs (u - (if last then lat0 else lat1)) <= half_step 360 (latitude_zones (negb last)) + 1 / 100000000000 /\
    fl y w /\ -180 < w <= 180 /\
    same_angle w (if last then lon0 else lon1) (half_step 360 (longitude_zones n (negb last)) + 1 / 100000000000).
Proof.
  intros m v nicA nicC ca icao tc ss sa feet feet' alt alt' t t' lat0 lon0 lat1 lon1 n last even odd Acc C0 C1 M1 M2 Hv Ht A A' S0 S1.
  destruct (airborne_received v nicA nicC _ _ _ _ _ _ _ _ _ _ _ _ Hv Ht A S0) as (p & Rp & _ & _ & _ & Ap & _ & Fp & Lp & Gp).
  destruct (airborne_received v nicA nicC _ _ _ _ _ _ _ _ _ _ _ _ Hv Ht A' S1) as (q & Rq & _ & _ & _ & Aq & _ & Fq & Lq & Gq).
  destruct (airborne_global_moving m lat0 lon0 lat1 lon1 n last Acc C0 C1 M1 M2) as (x & y & u & w & E & R).
  exists p, q, x, y, u, w. rewrite Lp, Gp, Lq, Gq. auto 12.
Qed.

Theorem airborne_crossing : forall m v nicA nicC ca icao tc status antenna feet feet' altitude altitude' time time' lat0 lon0 lat1 lon1 n0 n1 last even odd,
  accurate m -> clear_of_transitions lat0 n0 -> clear_of_transitions lat1 n1 -> n0 <> n1 ->
  Rabs (lat0 - lat1) <= 0.0507 ->
  (0 <= v <= 2)%Z -> (9 <= tc <= 18 \/ 20 <= tc <= 22)%Z -> altitude_fields feet altitude -> altitude_fields feet' altitude' ->
  Squitter ca icao (airborne_payload tc status antenna altitude time false (airborne_latitude false lat0) (airborne_longitude n0 false lon0)) even ->
  Squitter ca icao (airborne_payload tc status antenna altitude' time' true (airborne_latitude true lat1) (airborne_longitude n1 true lon1)) odd ->
  exists p q error,
    received v nicA nicC even icao (AAirborne p) /\ received v nicA nicC odd icao (AAirborne q) /\
    GetCPRAirborneGlobalPosition (floats m)
      (bds05.AirbornePosition_EncodedLatitude (airborne_part p)) (bds05.AirbornePosition_EncodedLongitude (airborne_part p))
      (bds05.AirbornePosition_EncodedLatitude (airborne_part q)) (bds05.AirbornePosition_EncodedLongitude (airborne_part q)) last
      = Err error.
Proof.
  intros m v nicA nicC ca icao tc ss sa feet feet' alt alt' t t' lat0 lon0 lat1 lon1 n0 n1 last even odd Acc C0 C1 N M1 Hv Ht A A' S0 S1.
  destruct (airborne_received v nicA nicC _ _ _ _ _ _ _ _ _ _ _ _ Hv Ht A S0) as (p & Rp & _ & _ & _ & Ap & _ & Fp & Lp & Gp).
  destruct (airborne_received v nicA nicC _ _ _ _ _ _ _ _ _ _ _ _ Hv Ht A' S1) as (q & Rq & _ & _ & _ & Aq & _ & Fq & Lq & Gq).
  destruct (airborne_global_crossing m lat0 lat1 n0 n1 (airborne_longitude n0 false lon0) (airborne_longitude n1 true lon1) last Acc C0 C1 N)
    as (error & E); [apply encode_code|apply encode_code|exact M1|].
  exists p, q, error. rewrite Lp, Gp, Lq, Gq. auto.
Qed.

Theorem surface_located_moving : forall m v nicA nicC ca icao tc movement tv track time movement' tv' track' time' lat0 lon0 lat1 lon1 x0 r y0 s n (last : bool) even odd,
  accurate m -> clear_of_transitions lat0 n -> clear_of_transitions lat1 n ->
  0 <= lat0 <= 89.99 /\ 0 <= lat1 <= 89.99 /\ 0 <= r \/ -90 <= lat0 <= -0.0001 /\ -90 <= lat1 <= -0.0001 /\ r < 0 ->
  Rabs (if last then lon0 else lon1) <= 179.999 ->
  fl x0 r -> fl y0 s -> Rabs ((if last then lon0 else lon1) - s) <= 44.99 ->
  Rabs (lat0 - lat1) <= 0.0126 -> short_move 90 n lon0 lon1 ->
  (0 <= v <= 2)%Z -> (5 <= tc <= 8)%Z ->
  Squitter ca icao (surface_payload tc movement tv track time false (surface_latitude false lat0) (surface_longitude n false lon0)) even ->
  Squitter ca icao (surface_payload tc movement' tv' track' time' true (surface_latitude true lat1) (surface_longitude n true lon1)) odd ->
  exists p q x y u w,
    received v nicA nicC even icao (ASurface p) /\ received v nicA nicC odd icao (ASurface q) /\
    GetCPRSurfaceGlobalPosition (floats m)
      (bds06.SurfacePosition_EncodedLatitude (surface_part p)) (bds06.SurfacePosition_EncodedLongitude (surface_part p))
      (bds06.SurfacePosition_EncodedLatitude (surface_part q)) (bds06.SurfacePosition_EncodedLongitude (surface_part q)) last x0 y0
      = Ok (x, y) /\
    fl x u /\ Rabs (u - (if last then lat0 else lat1)) <= half_step 90 (latitude_zones (negb last)) + 1 / 100000000000 /\
    fl y w /\ Rabs (w - (if last then lon0 else lon1)) <= half_step 90 (longitude_zones n (negb last)) + 1 / 1000000000.
Proof.
  intros m v nicA nicC ca icao tc mv tv tr t mv' tv' tr' t' lat0 lon0 lat1 lon1 x0 r y0 s n last even odd Acc C0 C1 Hh Hl Fr Fs Hq M1 M2 Hv Ht S0 S1.
  destruct (surface_received v nicA nicC _ _ _ _ _ _ _ _ _ _ _ Hv Ht S0) as (p & Rp & _ & Mp & _ & _ & _ & Fp & Lp & Gp).
  destruct (surface_received v nicA nicC _ _ _ _ _ _ _ _ _ _ _ Hv Ht S1) as (q & Rq & _ & Mq & _ & _ & _ & Fq & Lq & Gq).
  destruct (surface_global_moving m lat0 lon0 lat1 lon1 x0 r y0 s n last Acc C0 C1 Hh Hl Fr Fs Hq M1 M2) as (x & y & u & w & E & R).
  exists p, q, x, y, u, w. rewrite Lp, Gp, Lq, Gq. auto 12.
Qed.
