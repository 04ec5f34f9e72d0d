(* C51, C54: the number of longitude zones and the ground distance, in exact arithmetic. *)
From Verif Require Import GoBase.
From Verif.Model Require Import Geo GeoReal.
From Coq Require Import ZArith Reals Lia Lra Psatz.
From Flocq Require Import Core.
From Verif.Spec Require Import Geodesy.
Local Open Scope R_scope.

Lemma sin_half_sq : forall x, sin (x / 2) * sin (x / 2) = (1 - cos x) / 2.
Proof.
  intros x. replace (cos x) with (cos (2 * (x / 2))) by (f_equal; lra). rewrite cos_2a_sin. lra.
Qed.

Lemma cos_half_sq : forall x, cos (x / 2) * cos (x / 2) = (1 + cos x) / 2.
Proof.
  intros x. replace (cos x) with (cos (2 * (x / 2))) by (f_equal; lra). rewrite cos_2a_cos. lra.
Qed.

Lemma sc1 : forall x, sin x * sin x + cos x * cos x = 1.
Proof. intros x. pose proof (sin2_cos2 x) as H. unfold Rsqr in H. exact H. Qed.

Lemma unit_point : forall lat lon, dot (point lat lon) (point lat lon) = 1.
Proof.
  intros lat lon. unfold dot, point. rewrite <- (sc1 (rad lat)). rewrite <- (Rmult_1_r (cos (rad lat) * cos (rad lat))).
  rewrite <- (sc1 (rad lon)). ring.
Qed.

Lemma dot_bound : forall u v, dot u u = 1 -> dot v v = 1 -> -1 <= dot u v <= 1.
Proof.
  intros [[a b] c] [[x y] z] U V. unfold dot in *.
  assert (Q : forall r, 0 <= r * r) by (intros r; apply Rle_0_sqr).
  assert (0 <= (a - x) * (a - x) + (b - y) * (b - y) + (c - z) * (c - z)) by (pose proof (Q (a - x)); pose proof (Q (b - y)); pose proof (Q (c - z)); lra).
  assert (0 <= (a + x) * (a + x) + (b + y) * (b + y) + (c + z) * (c + z)) by (pose proof (Q (a + x)); pose proof (Q (b + y)); pose proof (Q (c + z)); lra). split; lra.
Qed.

Lemma dot_comm : forall u v, dot u v = dot v u.
Proof. intros [[a b] c] [[x y] z]. unfold dot. ring. Qed.

Lemma haversine : forall d, -1 <= d <= 1 ->
  2 * Ratan2 (sqrt ((1 - d) / 2)) (sqrt (1 - (1 - d) / 2)) = acos d.
Proof.
  intros d Hd. pose proof (acos_bound d) as B. set (t := acos d) in *.
  assert (C : cos t = d) by (apply cos_acos; exact Hd).
  pose proof PI_RGT_0 as P.
  assert (S0 : 0 <= sin (t / 2)) by (apply sin_ge_0; lra).
  assert (C0 : 0 <= cos (t / 2)) by (apply cos_ge_0; lra).
  replace ((1 - d) / 2) with (sin (t / 2) * sin (t / 2)) by (rewrite sin_half_sq, C; reflexivity).
  replace (1 - sin (t / 2) * sin (t / 2)) with (cos (t / 2) * cos (t / 2)) by (pose proof (sc1 (t / 2)); lra).
  rewrite !sqrt_square by assumption. unfold Ratan2.
  destruct (Rlt_bool_spec 0 (cos (t / 2))) as [L|L].
  - change (sin (t / 2) / cos (t / 2)) with (tan (t / 2)). rewrite atan_tan; [lra|].
    split; [lra|]. apply Rnot_le_lt. intros G. assert (E : t = PI) by lra. rewrite E, cos_PI2 in L. lra.
  - assert (E : t = PI).
    { apply Rle_antisym; [lra|]. apply Rnot_lt_le. intros G.
      assert (0 < cos (t / 2)) by (apply cos_gt_0; lra). lra. }
    rewrite E, cos_PI2, sin_PI2. rewrite Rlt_bool_false by lra. rewrite Rlt_bool_true by lra. lra.
Qed.

Theorem ground_distance : forall lat1 lon1 lat2 lon2,
  ComputeGroundDistance reals lat1 lon1 lat2 lon2 = earth_radius * angle (point lat1 lon1) (point lat2 lon2).
Proof.
  intros lat1 lon1 lat2 lon2. unfold angle.
  rewrite <- haversine by (apply dot_bound; apply unit_point).
  unfold ComputeGroundDistance, reals, earth_radius.
  cbn [num of_Z lit litpi add sub mul div ltb leb eqb floor abs max Geo.sqrt Geo.cos Geo.sin Geo.acos Geo.atan2 Geo.pow].
  replace (6371000 / 1) with 6371000 by lra. replace (2 / 1) with 2 by lra. replace (1 / 1) with 1 by lra.
  replace (180 / 1) with 180 by lra. rewrite !Rmult_1_r.
  replace (lat1 * PI / 180) with (rad lat1) by (unfold rad; lra).
  replace (lat2 * PI / 180) with (rad lat2) by (unfold rad; lra).
  replace ((lat2 - lat1) * PI / 180) with (rad lat2 - rad lat1) by (unfold rad; lra).
  replace ((lon2 - lon1) * PI / 180) with (rad lon2 - rad lon1) by (unfold rad; lra).
  rewrite !sin_half_sq.
  replace ((1 - cos (rad lat2 - rad lat1)) / 2 + cos (rad lat1) * cos (rad lat2) * ((1 - cos (rad lon2 - rad lon1)) / 2))
    with ((1 - dot (point lat1 lon1) (point lat2 lon2)) / 2).
  - reflexivity.
  - rewrite !cos_minus. unfold dot, point. lra.
Qed.

Lemma angle_bound : forall u v, 0 <= angle u v <= PI.
Proof. intros. apply acos_bound. Qed.

Theorem distance_bounds : forall lat1 lon1 lat2 lon2,
  0 <= ComputeGroundDistance reals lat1 lon1 lat2 lon2 <= PI * 6371000.
Proof.
  intros. rewrite ground_distance. unfold earth_radius.
  pose proof (angle_bound (point lat1 lon1) (point lat2 lon2)). lra.
Qed.

Theorem distance_symmetric : forall lat1 lon1 lat2 lon2,
  ComputeGroundDistance reals lat1 lon1 lat2 lon2 = ComputeGroundDistance reals lat2 lon2 lat1 lon1.
Proof. intros. rewrite !ground_distance. unfold angle. rewrite dot_comm. reflexivity. Qed.

Lemma dot_one : forall u v, dot u u = 1 -> dot v v = 1 -> dot u v = 1 -> u = v.
Proof.
  intros [[a b] c] [[x y] z] U V W. unfold dot in *.
  assert (S : (a - x) * (a - x) + (b - y) * (b - y) + (c - z) * (c - z) = 0) by nra.
  assert (Rsqr (a - x) = 0 /\ Rsqr (b - y) = 0 /\ Rsqr (c - z) = 0).
  { pose proof (Rle_0_sqr (a - x)). pose proof (Rle_0_sqr (b - y)). pose proof (Rle_0_sqr (c - z)). unfold Rsqr in *. lra. }
  destruct H as (H1 & H2 & H3). apply Rsqr_0_uniq in H1, H2, H3.
  replace a with x by lra. replace b with y by lra. replace c with z by lra. reflexivity.
Qed.

Theorem distance_zero : forall lat1 lon1 lat2 lon2,
  ComputeGroundDistance reals lat1 lon1 lat2 lon2 = 0 <-> point lat1 lon1 = point lat2 lon2.
Proof.
  intros. rewrite ground_distance. unfold earth_radius. split; intros H.
  - apply dot_one; [apply unit_point|apply unit_point|].
    assert (A : angle (point lat1 lon1) (point lat2 lon2) = 0) by lra. unfold angle in A.
    rewrite <- (cos_acos (dot (point lat1 lon1) (point lat2 lon2))) by (apply dot_bound; apply unit_point).
    rewrite A. apply cos_0.
  - rewrite H. unfold angle. rewrite unit_point, acos_1. lra.
Qed.

(* the triangle inequality *)
Lemma gram : forall u v w, dot u u = 1 -> dot v v = 1 -> dot w w = 1 ->
  (dot u w - dot u v * dot v w) * (dot u w - dot u v * dot v w) <= (1 - dot u v * dot u v) * (1 - dot v w * dot v w).
Proof.
  intros [[a b] c] [[x y] z] [[p q] r] U V W. unfold dot in *.
  set (D := a * (y * r - z * q) - b * (x * r - z * p) + c * (x * q - y * p)).
  assert (E : (a * a + b * b + c * c) * (x * x + y * y + z * z) * (p * p + q * q + r * r)
     + 2 * (a * x + b * y + c * z) * (x * p + y * q + z * r) * (a * p + b * q + c * r)
     - (a * a + b * b + c * c) * ((x * p + y * q + z * r) * (x * p + y * q + z * r))
     - (x * x + y * y + z * z) * ((a * p + b * q + c * r) * (a * p + b * q + c * r))
     - (p * p + q * q + r * r) * ((a * x + b * y + c * z) * (a * x + b * y + c * z)) = D * D) by (unfold D; ring).
  rewrite U, V, W in E. pose proof (Rle_0_sqr D) as S. unfold Rsqr in S.
  set (i := a * x + b * y + c * z) in *. set (j := x * p + y * q + z * r) in *. set (k := a * p + b * q + c * r) in *.
  nra.
Qed.

Lemma acos_le : forall x t, -1 <= x <= 1 -> 0 <= t <= PI -> cos t <= x -> acos x <= t.
Proof.
  intros x t Hx Ht H. pose proof (acos_bound x). apply Rnot_lt_le. intros L.
  assert (cos (acos x) < cos t) by (apply cos_decreasing_1; lra). rewrite cos_acos in H1 by exact Hx. lra.
Qed.

Lemma angle_triangle : forall u v w, dot u u = 1 -> dot v v = 1 -> dot w w = 1 -> angle u w <= angle u v + angle v w.
Proof.
  intros u v w U V W. pose proof (angle_bound u v) as B1. pose proof (angle_bound v w) as B2. pose proof (angle_bound u w) as B3.
  destruct (Rle_lt_dec PI (angle u v + angle v w)) as [L|L]; [lra|].
  unfold angle at 1. pose proof (dot_bound u v U V) as D1. pose proof (dot_bound v w V W) as D2. pose proof (dot_bound u w U W) as D3.
  apply acos_le; [exact D3|lra|].
  rewrite cos_plus. unfold angle. rewrite !cos_acos, !sin_acos by assumption. unfold Rsqr.
  set (x := dot u v) in *. set (y := dot v w) in *. set (z := dot u w) in *.
  pose proof (gram u v w U V W) as G. fold x y z in G.
  assert (Q : 0 <= (1 - x * x)) by nra. assert (Q' : 0 <= (1 - y * y)) by nra.
  rewrite <- sqrt_mult by assumption.
  apply sqrt_le_1_alt in G. change ((z - x * y) * (z - x * y)) with (Rsqr (z - x * y)) in G. rewrite sqrt_Rsqr_abs in G.
  apply Rabs_le_inv in G. lra.
Qed.

Theorem distance_triangle : forall lat1 lon1 lat2 lon2 lat3 lon3,
  ComputeGroundDistance reals lat1 lon1 lat3 lon3 <=
  ComputeGroundDistance reals lat1 lon1 lat2 lon2 + ComputeGroundDistance reals lat2 lon2 lat3 lon3.
Proof.
  intros. rewrite !ground_distance. unfold earth_radius.
  pose proof (angle_triangle (point lat1 lon1) (point lat2 lon2) (point lat3 lon3)
    (unit_point _ _) (unit_point _ _) (unit_point _ _)). lra.
Qed.

(* a quarter of a great circle *)
Example distance_quarter : ComputeGroundDistance reals 0 0 0 90 = 6371000 * (PI / 2).
Proof.
  rewrite ground_distance. unfold angle, earth_radius, dot, point.
  replace (rad 0) with 0 by (unfold rad; lra). replace (rad 90) with (PI / 2) by (unfold rad; lra).
  rewrite cos_0, sin_0, cos_PI2. rewrite <- acos_0. do 2 f_equal. lra.
Qed.

(* ---- the number of longitude zones ---- *)

Lemma cos_pos_deg : forall x, 0 <= x < 90 -> 0 < cos (rad x).
Proof. intros x Hx. pose proof PI_RGT_0. apply cos_gt_0; unfold rad; nra. Qed.

Lemma rad_abs_cos : forall x, cos (rad (Rabs x)) = cos (rad x).
Proof.
  intros x. unfold Rabs. destruct (Rcase_abs x); [|reflexivity].
  replace (rad (- x)) with (- rad x) by (unfold rad; lra). apply cos_neg.
Qed.

Lemma cos_87 : cos (rad 87) * cos (rad 87) * 2 = 1 - cos (PI / 30).
Proof.
  replace (rad 87) with ((PI - PI / 30) / 2) by (unfold rad; lra). rewrite cos_half_sq.
  replace (cos (PI - PI / 30)) with (- cos (PI / 30)) by (rewrite Rtrigo_facts.cos_pi_minus; reflexivity). lra.
Qed.

Lemma a_pos : 0 < 1 - cos (PI / 30).
Proof. pose proof PI_RGT_0. assert (cos (PI / 30) < cos 0) by (apply cos_decreasing_1; lra). rewrite cos_0 in *. lra. Qed.

Lemma two_pi_n : forall k, (2 <= k <= 60)%Z -> PI / 30 <= 2 * PI / IZR k <= PI.
Proof.
  intros k Hk. pose proof PI_RGT_0 as P. assert (K : 2 <= IZR k <= 60) by (split; apply IZR_le; lia).
  assert (E : 2 * PI / IZR k * IZR k = 2 * PI) by (field; lra). set (q := 2 * PI / IZR k) in *. split; nra.
Qed.

Lemma acos_ge : forall x t, -1 <= x <= 1 -> 0 <= t <= PI -> x <= cos t -> t <= acos x.
Proof.
  intros x t Hx Ht H. pose proof (acos_bound x). apply Rnot_lt_le. intros L.
  assert (cos t < cos (acos x)) by (apply cos_decreasing_1; lra). rewrite cos_acos in H1 by exact Hx. lra.
Qed.

(* between the equator and 87 degrees *)
Lemma zones_formula : forall x, 0 < x < 87 ->
  let b := cos (rad x) * cos (rad x) in
  let q := 2 * PI / acos (1 - (1 - cos (PI / 30)) / b) in
  2 <= q < 60 /\ forall k, (2 <= k <= 60)%Z -> (IZR k <= q <-> 1 - cos (PI / 30) <= b * (1 - cos (2 * PI / IZR k))).
Proof.
  intros x Hx b q. pose proof PI_RGT_0 as P. pose proof a_pos as A0. pose proof cos_87 as C87.
  assert (Cx : cos (rad 87) < cos (rad x)) by (apply cos_decreasing_1; unfold rad; nra).
  assert (Cx1 : cos (rad x) < 1) by (rewrite <- cos_0; apply cos_decreasing_1; unfold rad; nra).
  assert (C0 : 0 < cos (rad 87)) by (apply cos_pos_deg; lra).
  set (a := 1 - cos (PI / 30)) in *.
  assert (Bb : a < 2 * b /\ 0 < b < 1) by (unfold b; nra).
  assert (D : a / b * b = a) by (field; lra).
  set (arg := 1 - a / b) in *.
  assert (Ba : -1 < arg < cos (PI / 30)).
  { unfold arg. assert (a < a / b < 2) by (split; nra). unfold a in *. lra. }
  assert (C30 : cos (PI / 30) < 1) by (unfold a in A0; lra).
  pose proof (acos_bound_lt arg ltac:(lra)) as Bt. set (t := acos arg) in *.
  assert (Ct : cos t = arg) by (apply cos_acos; lra).
  assert (T30 : PI / 30 < t).
  { apply Rnot_le_lt. intros G. assert (cos (PI / 30) <= cos t); [|lra].
    destruct (Rle_lt_or_eq_dec _ _ G) as [G'|G']; [|rewrite G'; lra].
    left. apply cos_decreasing_1; lra. }
  assert (Q : q * t = 2 * PI) by (unfold q; field; lra).
  split; [split; nra|].
  intros k Hk. pose proof (two_pi_n k Hk) as Bk. assert (K : 2 <= IZR k <= 60) by (split; apply IZR_le; lia).
  assert (E : 2 * PI / IZR k * IZR k = 2 * PI) by (field; lra). set (s := 2 * PI / IZR k) in *.
  assert (Iff : IZR k <= q <-> t <= s) by (split; intros; nra).
  rewrite Iff. assert (Iff2 : t <= s <-> cos s <= arg).
  { split; intros H.
    - rewrite <- Ct. destruct (Rle_lt_or_eq_dec _ _ H) as [G|G]; [|rewrite G; lra]. left. apply cos_decreasing_1; lra.
    - apply acos_le; lra. }
  rewrite Iff2. unfold arg. split; intros; nra.
Qed.

Lemma zones_polar : forall lat k, 87 < Rabs lat <= 90 -> (2 <= k <= 59)%Z -> ~ within_transition k lat.
Proof.
  intros lat k Hl Hk W. unfold within_transition in W. rewrite <- rad_abs_cos in W. rewrite <- cos_87 in W.
  pose proof PI_RGT_0 as P.
  assert (cos (rad (Rabs lat)) < cos (rad 87)) by (apply cos_decreasing_1; unfold rad; nra).
  assert (0 <= cos (rad (Rabs lat))) by (apply cos_ge_0; unfold rad; nra).
  pose proof (COS_bound (2 * PI / IZR k)).
  assert (cos (rad (Rabs lat)) * cos (rad (Rabs lat)) < cos (rad 87) * cos (rad 87)) by nra. nra.
Qed.

Theorem number_of_zones : forall lat, Rabs lat <= 90 ->
  exists n, getNumberOfLongitude reals lat = IZR n /\ zones_at lat n.
Proof.
  intros lat Hl. unfold getNumberOfLongitude, reals.
  cbn [num of_Z lit litpi add sub mul div ltb leb eqb floor abs max Geo.sqrt Geo.cos Geo.sin Geo.acos Geo.atan2 Geo.pow].
  replace (0 / 1) with 0 by lra. replace (87 / 1) with 87 by lra. replace (59 / 1) with 59 by lra.
  replace (2 / 1) with 2 by lra. replace (1 / 1) with 1 by lra.
  destruct (Req_bool_spec lat 0) as [->|N0].
  { exists 59%Z. split; [reflexivity|]. split; [lia|]. intros k Hk. split; [intros _|lia].
    unfold within_transition. replace (rad 0) with 0 by (unfold rad; lra). rewrite cos_0.
    pose proof (two_pi_n k ltac:(lia)) as B. pose proof PI_RGT_0.
    assert (cos (2 * PI / IZR k) <= cos (PI / 30)); [|lra].
    destruct (Rle_lt_or_eq_dec _ _ (proj1 B)) as [G|G]; [|rewrite G; lra]. left. apply cos_decreasing_1; lra. }
  destruct (Req_bool_spec (Rabs lat) 87) as [E|N87].
  { exists 2%Z. split; [reflexivity|]. split; [lia|]. intros k Hk.
    unfold within_transition. rewrite <- rad_abs_cos, E, <- cos_87. pose proof PI_RGT_0.
    assert (0 < cos (rad 87)) by (apply cos_pos_deg; lra).
    pose proof (two_pi_n k ltac:(lia)) as B. split; intros H1.
    - replace k with 2%Z by lia. replace (2 * PI / 2) with PI by lra. rewrite cos_PI. lra.
    - assert (k < 3)%Z; [|lia]. apply Znot_ge_lt. intros G.
      assert (3 <= IZR k) by (apply IZR_le; lia).
      assert (EK : 2 * PI / IZR k * IZR k = 2 * PI) by (field; lra).
      assert (2 * PI / IZR k < PI) by nra.
      assert (cos PI < cos (2 * PI / IZR k)) by (apply cos_decreasing_1; lra). rewrite cos_PI in *.
      assert (0 < cos (rad 87) * cos (rad 87)) by nra. nra. }
  destruct (Rlt_bool_spec 87 (Rabs lat)) as [G|G].
  { exists 1%Z. split; [reflexivity|]. split; [lia|]. intros k Hk. split; [lia|]. intros W. exfalso. revert W. apply zones_polar; [lra|lia]. }
  assert (X : 0 < Rabs lat < 87) by (split; [apply Rabs_pos_lt; exact N0|lra]).
  destruct (zones_formula (Rabs lat) X) as [B F].
  replace (PI * (1 / 180) * Rabs lat) with (rad (Rabs lat)) by (unfold rad; lra).
  replace (PI * (1 / 30)) with (PI / 30) by lra. replace (PI * 2) with (2 * PI) by lra.
  set (q := 2 * PI / _) in *. exists (Zfloor q). split; [reflexivity|]. split.
  - split; [assert (2 <= Zfloor q)%Z by (apply Zfloor_lub; lra); lia|].
    assert (Zfloor q < 60)%Z; [|lia]. apply lt_IZR. pose proof (Zfloor_lb q). lra.
  - intros k Hk. unfold within_transition. rewrite <- rad_abs_cos. rewrite <- (F k ltac:(lia)). split; intros H.
    + apply Rle_trans with (IZR (Zfloor q)); [apply IZR_le; lia|apply Zfloor_lb].
    + apply Zfloor_lub. exact H.
Qed.

Lemma zones_unique : forall lat n n', zones_at lat n -> zones_at lat n' -> n = n'.
Proof.
  intros lat n n' [B H] [B' H']. destruct (Z.lt_trichotomy n n') as [L|[L|L]]; [|exact L|]; exfalso.
  - assert (n' <= n)%Z; [|lia]. apply H; [lia|]. apply H'; lia.
  - assert (n <= n')%Z; [|lia]. apply H'; [lia|]. apply H; lia.
Qed.

Theorem zones_symmetric : forall lat n, zones_at lat n <-> zones_at (- lat) n.
Proof.
  assert (W : forall k lat, within_transition k (- lat) <-> within_transition k lat).
  { intros k lat. unfold within_transition. replace (rad (- lat)) with (- rad lat) by (unfold rad; lra). rewrite cos_neg. tauto. }
  intros lat n. unfold zones_at. split; intros [B H]; (split; [exact B|]); intros k Hk; rewrite (H k Hk), W; tauto.
Qed.

Theorem zones_decreasing : forall lat lat' n n', Rabs lat <= Rabs lat' <= 90 -> zones_at lat n -> zones_at lat' n' ->
  (n' <= n)%Z.
Proof.
  intros lat lat' n n' L [B H] [B' H']. destruct (Z.eq_dec n' 1) as [->|N]; [lia|].
  apply H; [lia|]. assert (W : within_transition n' lat') by (apply H'; lia). unfold within_transition in *.
  rewrite <- rad_abs_cos in W |- *. pose proof PI_RGT_0 as P. pose proof (Rabs_pos lat) as L0.
  assert (C : cos (rad (Rabs lat')) <= cos (rad (Rabs lat))).
  { destruct (Rle_lt_or_eq_dec _ _ (proj1 L)) as [G|G]; [|rewrite G; lra]. left. apply cos_decreasing_1; unfold rad; nra. }
  assert (0 <= cos (rad (Rabs lat'))) by (apply cos_ge_0; unfold rad; nra).
  apply Rle_trans with (1 := W). pose proof (COS_bound (2 * PI / IZR n')).
  apply Rmult_le_compat_r; [lra|]. nra.
Qed.
