(* C106: the aircraft is located from its squitters, the equator included, moving or not. *)
From Verif.Proofs Require Import Tac.
From Verif.Spec Require Import Altitude Floats Velocity Adsb AdsbMessages Squitter.
From Verif.Gen Require bds05.
From Verif.Model Require Import Crc ModesReader AdsbReader Geo.
From Verif.Proofs Require Import AdsbApi Squitter.
From Coq Require Import Reals Lra Psatz List.
From Verif.Spec Require Import Binary64 Cpr Geodesy MathLib ZoneTable Precise.
From Verif.Proofs Require Import FloatR CprAccurate Equator EndToEnd.
Local Open Scope R_scope.

Theorem airborne_located_everywhere : forall m v nicA nicC ca icao tc status antenna feet feet' altitude altitude' time time' lat0 lon0 lat1 lon1 n last even odd,
  precise m -> clear_of_changes lat0 n -> clear_of_changes lat1 n ->
  Rabs (lat0 - lat1) <= 0.0507 -> short_move 360 n lon0 lon1 ->
  (0 <= v <= 2)%Z -> (9 <= tc <= 18 \/ 20 <= tc <= 22)%Z -> altitude_fields feet altitude -> altitude_fields feet' altitude' ->
  Squitter ca icao (airborne_payload tc status antenna altitude time false (airborne_latitude false lat0) (airborne_longitude n false lon0)) even ->
  Squitter ca icao (airborne_payload tc status antenna altitude' time' true (airborne_latitude true lat1) (airborne_longitude n true lon1)) odd ->
  exists p q x y u w,
    received v nicA nicC even icao (AAirborne p) /\ received v nicA nicC odd icao (AAirborne q) /\
    bds05.AirbornePosition_CPRFormat (airborne_part p) = 0%Z /\
    bds05.AirbornePosition_CPRFormat (airborne_part q) = 1%Z /\
    GetCPRAirborneGlobalPosition (floats m)
      (bds05.AirbornePosition_EncodedLatitude (airborne_part p)) (bds05.AirbornePosition_EncodedLongitude (airborne_part p))
      (bds05.AirbornePosition_EncodedLatitude (airborne_part q)) (bds05.AirbornePosition_EncodedLongitude (airborne_part q)) last
      = Ok (x, y) /\
    fl x u /\ Rabs (u - (if last then lat0 else lat1)) <= half_step 360 (latitude_zones (negb last)) + 1 / 100000000000 /\
    fl y w /\ -180 < w <= 180 /\
    same_angle w (if last then lon0 else lon1) (half_step 360 (longitude_zones n (negb last)) + 1 / 100000000000).
Proof.
  intros m v nicA nicC ca icao tc ss sa feet feet' alt alt' t t' lat0 lon0 lat1 lon1 n last even odd Acc C0 C1 M1 M2 Hv Ht A A' S0 S1.
  destruct (airborne_received v nicA nicC _ _ _ _ _ _ _ _ _ _ _ _ Hv Ht A S0) as (p & Rp & _ & _ & _ & Ap & _ & Fp & Lp & Gp).
  destruct (airborne_received v nicA nicC _ _ _ _ _ _ _ _ _ _ _ _ Hv Ht A' S1) as (q & Rq & _ & _ & _ & Aq & _ & Fq & Lq & Gq).
  destruct (airborne_moving_everywhere m lat0 lon0 lat1 lon1 n last Acc C0 C1 M1 M2) as (x & y & u & w & E & R).
  exists p, q, x, y, u, w. rewrite Lp, Gp, Lq, Gq. auto 12.
Qed.

Theorem airborne_near_everywhere : forall m v nicA nicC ca icao tc status antenna feet altitude time lat lon x0 r y0 s odd n frame,
  precise m -> clear_of_changes lat n ->
  (0 <= v <= 2)%Z -> (9 <= tc <= 18 \/ 20 <= tc <= 22)%Z -> altitude_fields feet altitude ->
  Squitter ca icao (airborne_payload tc status antenna altitude time odd (airborne_latitude odd lat) (airborne_longitude n odd lon)) frame ->
  fl x0 r -> Rabs r <= 90 -> fl y0 s -> Rabs s <= 360 ->
  Rabs (lat - r) <= 360 / IZR (latitude_zones odd) / 2 - 1 / 500 ->
  same_angle lon s (360 / IZR (longitude_zones n odd) / 2 - 1 / 500) ->
  exists p x y u w,
    received v nicA nicC frame icao (AAirborne p) /\
    bds05.AirbornePosition_CPRFormat (airborne_part p) = flag odd /\
    GetCPRAirborneLocalPosition (floats m)
      (bds05.AirbornePosition_EncodedLatitude (airborne_part p)) (bds05.AirbornePosition_EncodedLongitude (airborne_part p)) x0 y0 odd
      = (x, y) /\
    fl x u /\ Rabs (u - lat) <= half_step 360 (latitude_zones odd) + 1 / 1000000000 /\
    fl y w /\ same_angle w lon (half_step 360 (longitude_zones n odd) + 1 / 1000000000).
Proof.
  intros m v nicA nicC ca icao tc ss sa feet alt t lat lon x0 r y0 s odd n frame Acc Cl Hv Ht A S Fr Br Fs Bs D1 D2.
  destruct (airborne_received v nicA nicC _ _ _ _ _ _ _ _ _ _ _ _ Hv Ht A S) as (p & Rp & _ & _ & _ & Ap & _ & Fp & Lp & Gp).
  destruct (airborne_local_everywhere m lat lon x0 r y0 s odd n Acc Cl Fr Br Fs Bs D1 D2) as (x & y & u & w & E & H).
  exists p, x, y, u, w. rewrite Lp, Gp. auto 12.
Qed.

(* the tropics have 59 zones *)
Lemma tropics : forall lat, Rabs lat <= 10 -> clear_of_changes lat 59.
Proof.
  intros lat B. apply changes_by_table; [lra| |split; [lia|]]; intros k t H; unfold degrees; pose proof (Rabs_pos lat) as B0.
  - cbn [nl_table In] in H. set (a := Rabs lat) in *. clearbody a.
    repeat (destruct H as [H|H]; [inversion H; subst k t; unfold Rabs; destruct (Rcase_abs _); lra|]). destruct H.
  - cbn [nl_table In] in H.
    repeat (destruct H as [H|H]; [inversion H; subst k t; split; intros; first [lra|lia]|]). destruct H.
Qed.

(* an aircraft crossing the equator, next to 179 degrees west, northwards *)
Example equator_crossing : clear_of_changes (-0.01) 59 /\ clear_of_changes 0.02 59 /\
  Rabs (-0.01 - 0.02) <= 0.0507 /\ short_move 360 59 (-179) (-179.03).
Proof.
  split; [|split; [|split]]; try (apply tropics); try (apply Rabs_le; lra).
  right. exists 0%Z. change (59 * (59 - 1))%Z with 3422%Z. apply Rabs_le. lra.
Qed.
