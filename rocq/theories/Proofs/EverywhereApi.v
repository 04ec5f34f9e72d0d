(* C107: from the squitters to the position, at every latitude. *)
From Verif.Proofs Require Import Tac.
From Verif.Spec Require Import Altitude Floats Velocity Adsb AdsbMessages Squitter.
From Verif.Gen Require bds05.
From Verif.Model Require Import Crc ModesReader AdsbReader Geo.
From Verif.Proofs Require Import AdsbApi Squitter.
From Coq Require Import Reals Lra Psatz List.
From Verif.Spec Require Import Binary64 Cpr Geodesy MathLib ZoneTable Precise Sent.
From Verif.Proofs Require Import FloatR CprAccurate Everywhere EndToEnd.
Local Open Scope R_scope.

Theorem squitters_everywhere : forall m v nicA nicC ca icao tc status antenna feet feet' altitude altitude' time time' lat0 lon0 lat1 lon1 n0 n1 last even odd,
  sharp m -> -90 <= lat0 <= 90 -> -90 <= lat1 <= 90 ->
  zones_at (sent_latitude false lat0) n0 -> zones_at (sent_latitude true lat1) n1 ->
  Rabs (lat0 - lat1) <= 0.0507 -> (n0 = n1 -> short_move 360 n0 lon0 lon1) ->
  (0 <= v <= 2)%Z -> (9 <= tc <= 18 \/ 20 <= tc <= 22)%Z -> altitude_fields feet altitude -> altitude_fields feet' altitude' ->
  Squitter ca icao (airborne_payload tc status antenna altitude time false (airborne_latitude false lat0) (airborne_longitude n0 false lon0)) even ->
  Squitter ca icao (airborne_payload tc status antenna altitude' time' true (airborne_latitude true lat1) (airborne_longitude n1 true lon1)) odd ->
  exists p q,
    received v nicA nicC even icao (AAirborne p) /\ received v nicA nicC odd icao (AAirborne q) /\
    let result := GetCPRAirborneGlobalPosition (floats m)
      (bds05.AirbornePosition_EncodedLatitude (airborne_part p)) (bds05.AirbornePosition_EncodedLongitude (airborne_part p))
      (bds05.AirbornePosition_EncodedLatitude (airborne_part q)) (bds05.AirbornePosition_EncodedLongitude (airborne_part q)) last in
    if (n0 =? n1)%Z then
      exists x y u w, result = Ok (x, y) /\
        fl x u /\ Rabs (u - (if last then lat0 else lat1)) <= half_step 360 (latitude_zones (negb last)) + 1 / 100000000000 /\
        fl y w /\ -180 < w <= 180 /\
        same_angle w (if last then lon0 else lon1) (half_step 360 (longitude_zones n0 (negb last)) + 1 / 100000000000)
    else exists error, result = Err error.
Proof.
  intros m v nicA nicC ca icao tc ss sa feet feet' alt alt' t t' lat0 lon0 lat1 lon1 n0 n1 last even odd Sh B0 B1 Z0 Z1 M1 M2 Hv Ht A A' S0 S1.
  destruct (airborne_received v nicA nicC _ _ _ _ _ _ _ _ _ _ _ _ Hv Ht A S0) as (p & Rp & _ & _ & _ & Ap & _ & Fp & Lp & Gp).
  destruct (airborne_received v nicA nicC _ _ _ _ _ _ _ _ _ _ _ _ Hv Ht A' S1) as (q & Rq & _ & _ & _ & Aq & _ & Fq & Lq & Gq).
  exists p, q. split; [exact Rp|]. split; [exact Rq|]. rewrite Lp, Gp, Lq, Gq.
  exact (airborne_pair_everywhere m lat0 lon0 lat1 lon1 n0 n1 last Sh B0 B1 Z0 Z1 M1 M2).
Qed.

Theorem squitter_everywhere : forall m v nicA nicC ca icao tc status antenna feet altitude time lat lon x0 r y0 s odd n frame,
  sharp m -> -90 <= lat <= 90 -> zones_at (sent_latitude odd lat) n ->
  (0 <= v <= 2)%Z -> (9 <= tc <= 18 \/ 20 <= tc <= 22)%Z -> altitude_fields feet altitude ->
  Squitter ca icao (airborne_payload tc status antenna altitude time odd (airborne_latitude odd lat) (airborne_longitude n odd lon)) frame ->
  fl x0 r -> Rabs r <= 90 -> fl y0 s -> Rabs s <= 360 ->
  Rabs (lat - r) <= 360 / IZR (latitude_zones odd) / 2 - 1 / 500 ->
  same_angle lon s (360 / IZR (longitude_zones n odd) / 2 - 1 / 500) ->
  exists p x y u w,
    received v nicA nicC frame icao (AAirborne p) /\
    bds05.AirbornePosition_CPRFormat (airborne_part p) = flag odd /\
    GetCPRAirborneLocalPosition (floats m)
      (bds05.AirbornePosition_EncodedLatitude (airborne_part p)) (bds05.AirbornePosition_EncodedLongitude (airborne_part p)) x0 y0 odd
      = (x, y) /\
    fl x u /\ Rabs (u - lat) <= half_step 360 (latitude_zones odd) + 1 / 1000000000 /\
    fl y w /\ same_angle w lon (half_step 360 (longitude_zones n odd) + 1 / 1000000000).
Proof.
  intros m v nicA nicC ca icao tc ss sa feet alt t lat lon x0 r y0 s odd n frame Sh B Z Hv Ht A S Fr Br Fs Bs D1 D2.
  destruct (airborne_received v nicA nicC _ _ _ _ _ _ _ _ _ _ _ _ Hv Ht A S) as (p & Rp & _ & _ & _ & Ap & _ & Fp & Lp & Gp).
  destruct (airborne_one_everywhere m lat lon x0 r y0 s odd n Sh B Z Fr Br Fs Bs D1 D2) as (x & y & u & w & E & H).
  exists p, x, y, u, w. rewrite Lp, Gp. auto 12.
Qed.
