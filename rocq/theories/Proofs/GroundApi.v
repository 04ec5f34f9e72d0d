(* C112: from the squitters to the position on the ground, at every latitude. *)
From Verif.Proofs Require Import Tac.
From Verif.Spec Require Import Altitude Floats Velocity Adsb AdsbMessages Squitter.
From Verif.Gen Require bds06.
From Verif.Model Require Import Crc ModesReader AdsbReader Geo.
From Verif.Proofs Require Import AdsbApi Squitter.
From Coq Require Import Reals Lra Psatz List.
From Verif.Spec Require Import Binary64 Cpr Geodesy MathLib ZoneTable Precise Sent.
From Verif.Proofs Require Import FloatR CprAccurate Everywhere EndToEnd Ground.
Local Open Scope R_scope.

Theorem squitters_on_ground : forall m v nicA nicC ca icao tc movement tv track time movement' tv' track' time' lat0 lon0 lat1 lon1 x0 r y0 s n0 n1 (last : bool) even odd,
  sharp m ->
  ground_latitude (sent_ground_latitude false lat0) -> ground_latitude (sent_ground_latitude true lat1) ->
  zones_at (sent_ground_latitude false lat0) n0 -> zones_at (sent_ground_latitude true lat1) n1 ->
  0 <= lat0 <= 89.99 /\ 0 <= lat1 <= 89.99 /\ 0 <= r \/ -90 <= lat0 <= -0.0001 /\ -90 <= lat1 <= -0.0001 /\ r < 0 ->
  Rabs (if last then lon0 else lon1) <= 179.999 ->
  fl x0 r -> fl y0 s -> Rabs ((if last then lon0 else lon1) - s) <= 44.99 ->
  Rabs (lat0 - lat1) <= 0.0126 -> (n0 = n1 -> short_move 90 n0 lon0 lon1) ->
  (0 <= v <= 2)%Z -> (5 <= tc <= 8)%Z ->
  Squitter ca icao (surface_payload tc movement tv track time false (surface_latitude false lat0) (surface_longitude n0 false lon0)) even ->
  Squitter ca icao (surface_payload tc movement' tv' track' time' true (surface_latitude true lat1) (surface_longitude n1 true lon1)) odd ->
  exists p q,
    received v nicA nicC even icao (ASurface p) /\ received v nicA nicC odd icao (ASurface q) /\
    let result := GetCPRSurfaceGlobalPosition (floats m)
      (bds06.SurfacePosition_EncodedLatitude (surface_part p)) (bds06.SurfacePosition_EncodedLongitude (surface_part p))
      (bds06.SurfacePosition_EncodedLatitude (surface_part q)) (bds06.SurfacePosition_EncodedLongitude (surface_part q)) last x0 y0 in
    if (n0 =? n1)%Z then
      exists x y u w, result = Ok (x, y) /\
        fl x u /\ Rabs (u - (if last then lat0 else lat1)) <= half_step 90 (latitude_zones (negb last)) + 1 / 100000000000 /\
        fl y w /\ Rabs (w - (if last then lon0 else lon1)) <= half_step 90 (longitude_zones n0 (negb last)) + 1 / 1000000000
    else exists error, result = Err error.
Proof.
  intros m v nicA nicC ca icao tc mv tv tr t mv' tv' tr' t' lat0 lon0 lat1 lon1 x0 r y0 s n0 n1 last even odd Sh B0 B1 Z0 Z1 Hl Ho Fx Fy Hs M1 M2 Hv Ht S0 S1.
  destruct (surface_received v nicA nicC _ _ _ _ _ _ _ _ _ _ _ Hv Ht S0) as (p & Rp & _ & Mp & _ & _ & _ & Fp & Lp & Gp).
  destruct (surface_received v nicA nicC _ _ _ _ _ _ _ _ _ _ _ Hv Ht S1) as (q & Rq & _ & Mq & _ & _ & _ & Fq & Lq & Gq).
  exists p, q. split; [exact Rp|]. split; [exact Rq|]. rewrite Lp, Gp, Lq, Gq.
  exact (surface_pair_everywhere m lat0 lon0 lat1 lon1 x0 r y0 s n0 n1 last Sh B0 B1 Z0 Z1 Hl Ho Fx Fy Hs M1 M2).
Qed.

Theorem squitter_on_ground : forall m v nicA nicC ca icao tc movement tv track time lat lon x0 r y0 s odd n frame,
  sharp m -> ground_latitude (sent_ground_latitude odd lat) -> zones_at (sent_ground_latitude odd lat) n ->
  (0 <= v <= 2)%Z -> (5 <= tc <= 8)%Z ->
  Squitter ca icao (surface_payload tc movement tv track time odd (surface_latitude odd lat) (surface_longitude n odd lon)) frame ->
  fl x0 r -> Rabs r <= 90 -> fl y0 s -> Rabs s <= 360 ->
  Rabs (lat - r) <= 90 / IZR (latitude_zones odd) / 2 - 1 / 500 ->
  same_angle lon s (90 / IZR (longitude_zones n odd) / 2 - 1 / 500) ->
  exists p x y u w,
    received v nicA nicC frame icao (ASurface p) /\
    bds06.SurfacePosition_CPRFormat (surface_part p) = flag odd /\
    GetCPRSurfaceLocalPosition (floats m)
      (bds06.SurfacePosition_EncodedLatitude (surface_part p)) (bds06.SurfacePosition_EncodedLongitude (surface_part p)) x0 y0 odd
      = (x, y) /\
    fl x u /\ Rabs (u - lat) <= half_step 90 (latitude_zones odd) + 1 / 1000000000 /\
    fl y w /\ same_angle w lon (half_step 90 (longitude_zones n odd) + 1 / 1000000000).
Proof.
  intros m v nicA nicC ca icao tc mv tv tr t lat lon x0 r y0 s odd n frame Sh B Z Hv Ht S Fr Br Fs Bs D1 D2.
  destruct (surface_received v nicA nicC _ _ _ _ _ _ _ _ _ _ _ Hv Ht S) as (p & Rp & _ & Mp & _ & _ & _ & Fp & Lp & Gp).
  destruct (surface_one_everywhere m lat lon x0 r y0 s odd n Sh B Z Fr Br Fs Bs D1 D2) as (x & y & u & w & E & H).
  exists p, x, y, u, w. rewrite Lp, Gp. auto 12.
Qed.

(* an aircraft on the ground where 42 zones become 41, whose even and odd messages use different numbers of zones: the
   pair is refused, whatever the rest of the messages *)
Example refused_on_ground : exists m x0 y0 even odd, sharp m /\ fl x0 46 /\ fl y0 9 /\
  Squitter 5 0x40621D (surface_payload 7 41 true 0 0 false (surface_latitude false 45.546266) (surface_longitude 42 false 7.7)) even /\
  Squitter 5 0x40621D (surface_payload 7 41 true 0 0 true (surface_latitude true 45.546266) (surface_longitude 41 true 7.7)) odd /\
  zones_at (sent_ground_latitude false 45.546266) 42 /\ zones_at (sent_ground_latitude true 45.546266) 41.
Proof.
  destruct sharp_exists as [m A]. exists m.
  assert (Fh : fits (header 5 0x40621D)) by (repeat (constructor; [cbn; lia|]); constructor).
  assert (X : forall b k, exists frame, Squitter 5 0x40621D (surface_payload 7 41 true 0 0 b (surface_latitude b 45.546266) (surface_longitude k b 7.7)) frame).
  { intros b k. apply squitter_exists; [exact Fh| |reflexivity].
    unfold surface_payload. do 8 one_fits. constructor. }
  destruct (X false 42%Z) as [even E]. destruct (X true 41%Z) as [odd O]. exists (f64_of_Z 46), (f64_of_Z 9), even, odd.
  split; [exact A|]. split; [apply fl_of_Z; lia|]. split; [apply fl_of_Z; lia|]. split; [exact E|]. split; [exact O|].
  split; apply closest.
Qed.
