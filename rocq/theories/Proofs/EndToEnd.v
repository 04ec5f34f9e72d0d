(* C78, C79, C81: from the aircraft to the user of the library. *)
From Verif.Proofs Require Import Tac.
From Verif.Spec Require Import Altitude Floats Velocity Adsb AdsbMessages Squitter.
From Verif.Gen Require bds05 bds06 bds09 adsb_airborne_velocity.
From Verif.Model Require Import Crc ModesReader AdsbReader Geo.
From Verif.Proofs Require Import AdsbApi Squitter.
From Coq Require Import Reals Lra Psatz.
From Flocq Require Import Core.
From Verif.Spec Require Import Binary64 Cpr Geodesy MathLib Track.
From Verif.Proofs Require Import FloatR CprAccurate GroundSpeed Track.
Local Open Scope R_scope.

Theorem airborne_located : forall m v nicA nicC ca icao tc status antenna feet feet' altitude altitude' time time' lat lon n last even odd,
  accurate m -> clear_of_transitions lat n ->
  (0 <= v <= 2)%Z -> (9 <= tc <= 18 \/ 20 <= tc <= 22)%Z -> altitude_fields feet altitude -> altitude_fields feet' altitude' ->
  Squitter ca icao (airborne_payload tc status antenna altitude time false (airborne_latitude false lat) (airborne_longitude n false lon)) even ->
  Squitter ca icao (airborne_payload tc status antenna altitude' time' true (airborne_latitude true lat) (airborne_longitude n true lon)) odd ->
  exists p q x y u w,
    received v nicA nicC even icao (AAirborne p) /\ received v nicA nicC odd icao (AAirborne q) /\
    bds05.AirbornePosition_AltitudeInFeet (airborne_part p) = feet /\
    bds05.AirbornePosition_AltitudeInFeet (airborne_part q) = feet' /\
    bds05.AirbornePosition_CPRFormat (airborne_part p) = 0%Z /\
    bds05.AirbornePosition_CPRFormat (airborne_part q) = 1%Z /\
    GetCPRAirborneGlobalPosition (floats m)
      (bds05.AirbornePosition_EncodedLatitude (airborne_part p)) (bds05.AirbornePosition_EncodedLongitude (airborne_part p))
      (bds05.AirbornePosition_EncodedLatitude (airborne_part q)) (bds05.AirbornePosition_EncodedLongitude (airborne_part q)) last
      = Ok (x, y) /\
    fl x u /\ Rabs (u - lat) <= half_step 360 (latitude_zones (negb last)) + 1 / 100000000000 /\
    fl y w /\ -180 < w <= 180 /\
    same_angle w lon (half_step 360 (longitude_zones n (negb last)) + 1 / 100000000000).
Proof.
  intros m v nicA nicC ca icao tc ss sa feet feet' alt alt' t t' lat lon n last even odd Acc Cl Hv Ht A A' S0 S1.
  destruct (airborne_received v nicA nicC _ _ _ _ _ _ _ _ _ _ _ _ Hv Ht A S0) as (p & Rp & _ & _ & _ & Ap & _ & Fp & Lp & Gp).
  destruct (airborne_received v nicA nicC _ _ _ _ _ _ _ _ _ _ _ _ Hv Ht A' S1) as (q & Rq & _ & _ & _ & Aq & _ & Fq & Lq & Gq).
  destruct (airborne_global_accurate m lat lon n last Acc Cl) as (x & y & u & w & E & H).
  exists p, q, x, y, u, w. rewrite Lp, Gp, Lq, Gq. auto 12.
Qed.

Theorem airborne_located_near : forall m v nicA nicC ca icao tc status antenna feet altitude time lat lon x0 r y0 s odd n frame,
  accurate m -> clear_of_transitions lat n ->
  (0 <= v <= 2)%Z -> (9 <= tc <= 18 \/ 20 <= tc <= 22)%Z -> altitude_fields feet altitude ->
  Squitter ca icao (airborne_payload tc status antenna altitude time odd (airborne_latitude odd lat) (airborne_longitude n odd lon)) frame ->
  fl x0 r -> Rabs r <= 90 -> fl y0 s -> Rabs s <= 360 ->
  Rabs (lat - r) <= 360 / IZR (latitude_zones odd) / 2 - 1 / 500 ->
  same_angle lon s (360 / IZR (longitude_zones n odd) / 2 - 1 / 500) ->
  exists p x y u w,
    received v nicA nicC frame icao (AAirborne p) /\
    bds05.AirbornePosition_AltitudeInFeet (airborne_part p) = feet /\
    bds05.AirbornePosition_CPRFormat (airborne_part p) = flag odd /\
    GetCPRAirborneLocalPosition (floats m)
      (bds05.AirbornePosition_EncodedLatitude (airborne_part p)) (bds05.AirbornePosition_EncodedLongitude (airborne_part p)) x0 y0 odd
      = (x, y) /\
    fl x u /\ Rabs (u - lat) <= half_step 360 (latitude_zones odd) + 1 / 1000000000 /\
    fl y w /\ same_angle w lon (half_step 360 (longitude_zones n odd) + 1 / 1000000000).
Proof.
  intros m v nicA nicC ca icao tc ss sa feet alt t lat lon x0 r y0 s odd n frame Acc Cl Hv Ht A S Fr Br Fs Bs D1 D2.
  destruct (airborne_received v nicA nicC _ _ _ _ _ _ _ _ _ _ _ _ Hv Ht A S) as (p & Rp & _ & _ & _ & Ap & _ & Fp & Lp & Gp).
  destruct (airborne_local_accurate m lat lon x0 r y0 s odd n Acc Cl Fr Br Fs Bs D1 D2) as (x & y & u & w & E & H).
  exists p, x, y, u, w. rewrite Lp, Gp. auto 12.
Qed.

Theorem surface_located : forall m v nicA nicC ca icao tc movement tv track time movement' tv' track' time' lat lon x0 r y0 s n last even odd,
  accurate m -> clear_of_transitions lat n ->
  0 <= lat <= 89.99 /\ 0 <= r \/ -90 <= lat <= -0.0001 /\ r < 0 -> Rabs lon <= 179.999 ->
  fl x0 r -> fl y0 s -> Rabs (lon - s) <= 44.99 ->
  (0 <= v <= 2)%Z -> (5 <= tc <= 8)%Z ->
  Squitter ca icao (surface_payload tc movement tv track time false (surface_latitude false lat) (surface_longitude n false lon)) even ->
  Squitter ca icao (surface_payload tc movement' tv' track' time' true (surface_latitude true lat) (surface_longitude n true lon)) odd ->
  exists p q x y u w,
    received v nicA nicC even icao (ASurface p) /\ received v nicA nicC odd icao (ASurface q) /\
    is_value (bds06.SurfacePosition_MovementSpeed (surface_part p)) (movement_knots movement) /\
    is_value (bds06.SurfacePosition_MovementSpeed (surface_part q)) (movement_knots movement') /\
    bds06.SurfacePosition_CPRFormat (surface_part p) = 0%Z /\
    bds06.SurfacePosition_CPRFormat (surface_part q) = 1%Z /\
    GetCPRSurfaceGlobalPosition (floats m)
      (bds06.SurfacePosition_EncodedLatitude (surface_part p)) (bds06.SurfacePosition_EncodedLongitude (surface_part p))
      (bds06.SurfacePosition_EncodedLatitude (surface_part q)) (bds06.SurfacePosition_EncodedLongitude (surface_part q)) last x0 y0
      = Ok (x, y) /\
    fl x u /\ Rabs (u - lat) <= half_step 90 (latitude_zones (negb last)) + 1 / 100000000000 /\
    fl y w /\ Rabs (w - lon) <= half_step 90 (longitude_zones n (negb last)) + 1 / 1000000000.
Proof.
  intros m v nicA nicC ca icao tc mv tv tr t mv' tv' tr' t' lat lon x0 r y0 s n last even odd Acc Cl Hh Hl Fr Fs Hq Hv Ht S0 S1.
  destruct (surface_received v nicA nicC _ _ _ _ _ _ _ _ _ _ _ Hv Ht S0) as (p & Rp & _ & Mp & _ & _ & _ & Fp & Lp & Gp).
  destruct (surface_received v nicA nicC _ _ _ _ _ _ _ _ _ _ _ Hv Ht S1) as (q & Rq & _ & Mq & _ & _ & _ & Fq & Lq & Gq).
  destruct (surface_global_accurate m lat lon x0 r y0 s n last Acc Cl Hh Hl Fr Fs Hq) as (x & y & u & w & E & H).
  exists p, q, x, y, u, w. rewrite Lp, Gp, Lq, Gq. auto 12.
Qed.

Theorem surface_located_near : forall m v nicA nicC ca icao tc movement tv track time lat lon x0 r y0 s odd n frame,
  accurate m -> clear_of_transitions lat n ->
  (0 <= v <= 2)%Z -> (5 <= tc <= 8)%Z ->
  Squitter ca icao (surface_payload tc movement tv track time odd (surface_latitude odd lat) (surface_longitude n odd lon)) frame ->
  fl x0 r -> Rabs r <= 90 -> fl y0 s -> Rabs s <= 360 ->
  Rabs (lat - r) <= 90 / IZR (latitude_zones odd) / 2 - 1 / 500 ->
  same_angle lon s (90 / IZR (longitude_zones n odd) / 2 - 1 / 500) ->
  exists p x y u w,
    received v nicA nicC frame icao (ASurface p) /\
    is_value (bds06.SurfacePosition_MovementSpeed (surface_part p)) (movement_knots movement) /\
    bds06.SurfacePosition_CPRFormat (surface_part p) = flag odd /\
    GetCPRSurfaceLocalPosition (floats m)
      (bds06.SurfacePosition_EncodedLatitude (surface_part p)) (bds06.SurfacePosition_EncodedLongitude (surface_part p)) x0 y0 odd
      = (x, y) /\
    fl x u /\ Rabs (u - lat) <= half_step 90 (latitude_zones odd) + 1 / 1000000000 /\
    fl y w /\ same_angle w lon (half_step 90 (longitude_zones n odd) + 1 / 1000000000).
Proof.
  intros m v nicA nicC ca icao tc mv tv tr t lat lon x0 r y0 s odd n frame Acc Cl Hv Ht S Fr Br Fs Bs D1 D2.
  destruct (surface_received v nicA nicC _ _ _ _ _ _ _ _ _ _ _ Hv Ht S) as (p & Rp & _ & Mp & _ & _ & _ & Fp & Lp & Gp).
  destruct (surface_local_accurate m lat lon x0 r y0 s odd n Acc Cl Fr Br Fs Bs D1 D2) as (x & y & u & w & E & H).
  exists p, x, y, u, w. rewrite Lp, Gp. auto 12.
Qed.

(* ---- velocities ---- *)
Lemma component_sign : forall e step c, c = (Z.abs e + 1)%Z -> component (e <? 0)%Z step c = IZR (step * e).
Proof.
  intros e step c ->. rewrite component_Z. f_equal. destruct (Z.ltb_spec e 0); nia.
Qed.

Lemma regular_abs : forall e, (-1021 <= e <= 1021)%Z -> regular (Z.abs e + 1).
Proof. intros e H. unfold regular. lia. Qed.

Lemma nonzero_IZR : forall step e n, (0 < step)%Z -> (e <> 0 \/ n <> 0)%Z -> IZR (step * e) <> 0 \/ IZR (step * n) <> 0.
Proof. intros step e n Hs [H|H]; [left|right]; apply IZR_neq; nia. Qed.

Theorem velocity_told : forall f v nicA nicC ca icao intent ifr nuc e n source rate difference frame,
  accurate_atan2 f -> (-1021 <= e <= 1021)%Z -> (-1021 <= n <= 1021)%Z ->
  Squitter ca icao (velocity_of 1 intent ifr nuc e n source rate difference) frame ->
  exists m x t r,
    received v nicA nicC frame icao (AVelocity m) /\
    adsb_airborne_velocity.AirborneVelocity_AirborneVelocity m = bds09.IAirborneVelocity_AirborneVelocityGroundSpeedNormal x /\
    bds09.AirborneVelocityGroundSpeedNormal_GetSpeed x = Ok (Z.sqrt (e ^ 2 + n ^ 2)) /\
    bds09.AirborneVelocityGroundSpeedNormal_GetTrack f x = Ok t /\ fl32 t r /\ 0 <= r <= 360 /\
    ((e <> 0 \/ n <> 0)%Z -> r < 360 /\ exists theta, bearing (IZR e) (IZR n) theta /\ Rabs (r - theta) <= 1 / 50000) /\
    bds09.AirborneVelocityGroundSpeedNormal_VerticalRateSource x = source /\
    bds09.AirborneVelocityGroundSpeedNormal_VerticalRate x = (64 * rate)%Z /\
    bds09.AirborneVelocityGroundSpeedNormal_DifferenceAltitudeGNSSBaro x = (25 * difference)%Z.
Proof.
  intros f v nicA nicC ca icao intent ifr nuc e n source rate diff frame A He Hn S.
  destruct (velocity_kind _ _ _ _ _ _ _ _ _ _ _ _ S) as (me & Hb & Hl & B1 & B2 & B3 & B4 & B5 & B6 & B7 & B8 & B9 & B10 & B11 & d & R & C & E).
  assert (K : KindOf me KVelocity) by (apply k_velocity; exact B1).
  destruct (velocity_ok v nicA nicC me Hb Hl K ltac:(lia)) as (x & V & Rm).
  destruct V as [| Q | ? Q | ? Q]; [|exfalso; lia|exfalso; lia|exfalso; lia].
  pose proof (regular_abs e He) as Ge. pose proof (regular_abs n Hn) as Gn. rewrite <- B4 in Ge. rewrite <- B6 in Gn.
  pose proof (normal_track f me A) as (T & _). specialize (T Ge Gn). destruct T as (t & r & T & F & Br & Q).
  pose proof (normal_speed me) as (Sp & _). specialize (Sp Ge Gn).
  eexists. eexists. exists t, r. split; [exists d; rewrite E; split; [exact R|]; split; [exact C|exact Rm]|]. split; [reflexivity|].
  split. { rewrite Sp, B4, B6. f_equal. f_equal. destruct (Z.abs_spec e) as [[_ ->]|[_ ->]]; destruct (Z.abs_spec n) as [[_ ->]|[_ ->]]; ring. }
  split; [exact T|]. split; [exact F|]. split; [exact Br|].
  rewrite B3, B5 in Q. rewrite (component_sign e 1 _ B4), (component_sign n 1 _ B6) in Q. rewrite !Z.mul_1_l in Q.
  split. { intros N. apply Q. destruct (nonzero_IZR 1 e n eq_refl N) as [N'|N']; rewrite Z.mul_1_l in N'; auto. }
  split; [exact B7|]. cbn [ground_speed_normal bds09.AirborneVelocityGroundSpeedNormal_VerticalRate bds09.AirborneVelocityGroundSpeedNormal_DifferenceAltitudeGNSSBaro].
  rewrite B8, B10. split; apply signed_magnitude; lia || assumption.
Qed.

Theorem velocity_told_supersonic : forall f v nicA nicC ca icao intent ifr nuc e n source rate difference frame,
  accurate_atan2 f -> (-1021 <= e <= 1021)%Z -> (-1021 <= n <= 1021)%Z ->
  Squitter ca icao (velocity_of 2 intent ifr nuc e n source rate difference) frame ->
  exists m x t r,
    received v nicA nicC frame icao (AVelocity m) /\
    adsb_airborne_velocity.AirborneVelocity_AirborneVelocity m = bds09.IAirborneVelocity_AirborneVelocityGroundSpeedSupersonic x /\
    bds09.AirborneVelocityGroundSpeedSupersonic_GetSpeed x = Ok (Z.sqrt ((4 * e) ^ 2 + (4 * n) ^ 2)) /\
    bds09.AirborneVelocityGroundSpeedSupersonic_GetTrack f x = Ok t /\ fl32 t r /\ 0 <= r <= 360 /\
    ((e <> 0 \/ n <> 0)%Z -> r < 360 /\ exists theta, bearing (IZR (4 * e)) (IZR (4 * n)) theta /\ Rabs (r - theta) <= 1 / 50000) /\
    bds09.AirborneVelocityGroundSpeedSupersonic_VerticalRateSource x = source /\
    bds09.AirborneVelocityGroundSpeedSupersonic_VerticalRate x = (64 * rate)%Z /\
    bds09.AirborneVelocityGroundSpeedSupersonic_DifferenceAltitudeGNSSBaro x = (25 * difference)%Z.
Proof.
  intros f v nicA nicC ca icao intent ifr nuc e n source rate diff frame A He Hn S.
  destruct (velocity_kind _ _ _ _ _ _ _ _ _ _ _ _ S) as (me & Hb & Hl & B1 & B2 & B3 & B4 & B5 & B6 & B7 & B8 & B9 & B10 & B11 & d & R & C & E).
  assert (K : KindOf me KVelocity) by (apply k_velocity; exact B1).
  destruct (velocity_ok v nicA nicC me Hb Hl K ltac:(lia)) as (x & V & Rm).
  destruct V as [Q| | ? Q | ? Q]; [exfalso; lia| |exfalso; lia|exfalso; lia].
  pose proof (regular_abs e He) as Ge. pose proof (regular_abs n Hn) as Gn. rewrite <- B4 in Ge. rewrite <- B6 in Gn.
  pose proof (supersonic_track f me A) as (T & _). specialize (T Ge Gn). destruct T as (t & r & T & F & Br & Q).
  pose proof (supersonic_speed me) as (Sp & _). specialize (Sp Ge Gn).
  eexists. eexists. exists t, r. split; [exists d; rewrite E; split; [exact R|]; split; [exact C|exact Rm]|]. split; [reflexivity|].
  split. { rewrite Sp, B4, B6. f_equal. f_equal. destruct (Z.abs_spec e) as [[_ ->]|[_ ->]]; destruct (Z.abs_spec n) as [[_ ->]|[_ ->]]; ring. }
  split; [exact T|]. split; [exact F|]. split; [exact Br|].
  rewrite B3, B5 in Q. rewrite (component_sign e 4 _ B4), (component_sign n 4 _ B6) in Q.
  split. { intros N. apply Q. exact (nonzero_IZR 4 e n eq_refl N). }
  split; [exact B7|]. cbn [ground_speed_supersonic bds09.AirborneVelocityGroundSpeedSupersonic_VerticalRate bds09.AirborneVelocityGroundSpeedSupersonic_DifferenceAltitudeGNSSBaro].
  rewrite B8, B10. split; apply signed_magnitude; lia || assumption.
Qed.

(* ---- such squitters exist ---- *)
Lemma encode_fits : forall Nb zone x, (0 <= encode Nb zone x < 2 ^ 17)%Z.
Proof. intros. unfold encode. apply Z.mod_pos_bound. lia. Qed.

Lemma fits_cons : forall w v l, (0 <= w)%Z -> (0 <= v < 2 ^ w)%Z -> fits l -> fits ((w, v) :: l).
Proof. intros w v l H1 H2 F. constructor; [split; assumption|exact F]. Qed.
Lemma flag_fits : forall b, (0 <= flag b < 2 ^ 1)%Z.
Proof. intros []; cbn; lia. Qed.
Ltac one_fits := apply fits_cons; [lia|
  match goal with
  | |- (0 <= flag ?b < _)%Z => apply flag_fits
  | |- (0 <= airborne_latitude _ _ < _)%Z => unfold airborne_latitude; apply encode_fits
  | |- (0 <= airborne_longitude _ _ _ < _)%Z => unfold airborne_longitude; apply encode_fits
  | |- (0 <= surface_latitude _ _ < _)%Z => unfold surface_latitude; apply encode_fits
  | |- (0 <= surface_longitude _ _ _ < _)%Z => unfold surface_longitude; apply encode_fits
  | |- _ => first [lia | split; [discriminate|reflexivity]]
  end|].

(* an aircraft at 45 N, 100 W and 38000 ft, address 40621D: its two squitters exist, and meet the hypotheses *)
Example airborne_located_example : exists m even odd, accurate m /\ clear_of_transitions 45 42 /\
  altitude_fields 38000 [(7, 1560 / 16); (1, 1); (4, 1560 mod 16)]%Z /\
  Squitter 5 0x40621D (airborne_payload 11 0 0 [(7, 1560 / 16); (1, 1); (4, 1560 mod 16)]%Z 0 false (airborne_latitude false 45) (airborne_longitude 42 false (-100))) even /\
  Squitter 5 0x40621D (airborne_payload 11 0 0 [(7, 1560 / 16); (1, 1); (4, 1560 mod 16)]%Z 0 true (airborne_latitude true 45) (airborne_longitude 42 true (-100))) odd.
Proof.
  destruct accurate_exists as [m A]. exists m.
  assert (Fh : fits (header 5 0x40621D)) by (repeat (constructor; [cbn; lia|]); constructor).
  assert (X : forall b, exists frame, Squitter 5 0x40621D (airborne_payload 11 0 0 [(7, 1560 / 16); (1, 1); (4, 1560 mod 16)]%Z 0 b (airborne_latitude b 45) (airborne_longitude 42 b (-100))) frame).
  { intros b. apply squitter_exists; [exact Fh| |reflexivity].
    unfold airborne_payload. cbn [app]. do 10 one_fits. constructor. }
  destruct (X false) as [even E]. destruct (X true) as [odd O]. exists even, odd.
  split; [exact A|]. split; [exact clear_45|]. split; [apply (altitude_25 1560); lia|]. split; [exact E|exact O].
Qed.

(* and on the ground, at 45.0 N 7.7 E *)
Example surface_located_example : exists m x0 y0 even odd, accurate m /\ clear_of_transitions 45 42 /\
  fl x0 46 /\ fl y0 9 /\ (0 <= 45 <= 89.99 /\ 0 <= 46) /\ Rabs 7.7 <= 179.999 /\ Rabs (7.7 - 9) <= 44.99 /\
  Squitter 5 0x40621D (surface_payload 7 41 true 0 0 false (surface_latitude false 45) (surface_longitude 42 false 7.7)) even /\
  Squitter 5 0x40621D (surface_payload 7 41 true 0 0 true (surface_latitude true 45) (surface_longitude 42 true 7.7)) odd.
Proof.
  destruct accurate_exists as [m A]. exists m.
  assert (Fh : fits (header 5 0x40621D)) by (repeat (constructor; [cbn; lia|]); constructor).
  assert (X : forall b, exists frame, Squitter 5 0x40621D (surface_payload 7 41 true 0 0 b (surface_latitude b 45) (surface_longitude 42 b 7.7)) frame).
  { intros b. apply squitter_exists; [exact Fh| |reflexivity].
    unfold surface_payload. do 8 one_fits. constructor. }
  destruct (X false) as [even E]. destruct (X true) as [odd O]. exists (f64_of_Z 46), (f64_of_Z 9), even, odd.
  split; [exact A|]. split; [exact clear_45|]. split; [apply fl_of_Z; lia|]. split; [apply fl_of_Z; lia|]. split; [lra|].
  split; [apply Rabs_le; lra|]. split; [apply Rabs_le; lra|]. split; [exact E|exact O].
Qed.

(* the squitter of a published example: 8 kt to the west, 159 kt to the south, 832 ft/min down *)
Example velocity_told_example :
  Squitter 5 0x485020 (velocity_of 1 0 1 0 (-8) (-159) 0 (-13) 22) [0x8D;0x48;0x50;0x20;0x99;0x44;0x09;0x94;0x08;0x38;0x17;0x5B;0x28;0x4F]%Z.
Proof.
  split; [repeat (constructor; [cbn; lia|]); constructor|]. split; [repeat (constructor; [cbn; lia|]); constructor|].
  split; [reflexivity|]. exists 0x5B284F%Z. split; [|reflexivity].
  apply CrcReader.parity_is_remainder; [apply message_bytes|vm_compute; discriminate|vm_compute; reflexivity].
Qed.

(* KLM1023 *)
Example identification_example :
  Squitter 5 0x4840D6 (identification_payload 4 0 [11; 12; 13; 49; 48; 50; 51; 32]%Z)
    [0x8D;0x48;0x40;0xD6;0x20;0x2C;0xC3;0x71;0xC3;0x2C;0xE0;0x57;0x60;0x98]%Z /\
  List.map Identification.ia5 [11; 12; 13; 49; 48; 50; 51; 32]%Z = List.map Some ["K"; "L"; "M"; "1"; "0"; "2"; "3"; " "]%char.
Proof.
  split; [|reflexivity].
  split; [repeat (constructor; [cbn; lia|]); constructor|]. split; [repeat (constructor; [cbn; lia|]); constructor|].
  split; [reflexivity|]. exists 0x576098%Z. split; [|reflexivity].
  apply CrcReader.parity_is_remainder; [apply message_bytes|vm_compute; discriminate|vm_compute; reflexivity].
Qed.
