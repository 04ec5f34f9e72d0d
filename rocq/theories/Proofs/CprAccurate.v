(* C49-C53: the round trips of compact position reporting in binary64, for every accurate library. *)
From Verif Require Import GoBase.
From Verif.Model Require Import Geo.
From Coq Require Import ZArith Reals Lia Lra Psatz.
From Coq Require Import Floats.SpecFloat.
From Flocq Require Import Core BinarySingleNaN.
From Verif.Spec Require Import Binary64 Cpr Geodesy MathLib.
From Verif.Proofs Require Import FloatR FloatOps CprFloat CprGlobal CprLocal CprSurface GeoReals ZonesReal ZonesFloat.
Local Open Scope R_scope.

Lemma clear_range : forall lat n, clear_of_transitions lat n -> (1 <= n <= 59)%Z.
Proof. intros lat n [_ Z]. apply (Z lat). rewrite Rminus_diag_eq, Rabs_R0 by reflexivity. lra. Qed.

Lemma clear_zones : forall m lat n, accurate m -> clear_of_transitions lat n ->
  forall x v, fl x v -> Rabs (v - lat) <= 1 / 30000 -> fl (getNumberOfLongitude (floats m) x) (IZR n).
Proof. intros m lat n Acc [B Z]. apply zones_binary64; assumption. Qed.

Theorem airborne_global_accurate : forall m lat lon n last,
  accurate m -> clear_of_transitions lat n ->
  exists x y v w,
    GetCPRAirborneGlobalPosition (floats m) (airborne_latitude false lat) (airborne_longitude n false lon)
      (airborne_latitude true lat) (airborne_longitude n true lon) last = Ok (x, y) /\
    fl x v /\ Rabs (v - lat) <= half_step 360 (latitude_zones (negb last)) + 1 / 100000000000 /\
    fl y w /\ -180 < w <= 180 /\
    same_angle w lon (half_step 360 (longitude_zones n (negb last)) + 1 / 100000000000).
Proof.
  intros m lat lon n last Acc C. apply airborne_global.
  - destruct C as [B _]. apply Rabs_le_inv. lra.
  - apply (clear_range lat n C).
  - apply clear_zones; assumption.
Qed.

Theorem airborne_local_accurate : forall m lat lon x r y s odd n,
  accurate m -> clear_of_transitions lat n ->
  fl x r -> Rabs r <= 90 -> fl y s -> Rabs s <= 360 ->
  Rabs (lat - r) <= 360 / IZR (latitude_zones odd) / 2 - 1 / 500 ->
  same_angle lon s (360 / IZR (longitude_zones n odd) / 2 - 1 / 500) ->
  exists X Y v w,
    GetCPRAirborneLocalPosition (floats m) (airborne_latitude odd lat) (airborne_longitude n odd lon) x y odd = (X, Y) /\
    fl X v /\ Rabs (v - lat) <= half_step 360 (latitude_zones odd) + 1 / 1000000000 /\
    fl Y w /\ same_angle w lon (half_step 360 (longitude_zones n odd) + 1 / 1000000000).
Proof.
  intros m lat lon x r y s odd n Acc C Fx Hr Fy Hs H1 H2. apply airborne_local with (r := r) (s := s); try assumption.
  - apply (clear_range lat n C).
  - apply clear_zones; assumption.
Qed.

Theorem surface_local_accurate : forall m lat lon x r y s odd n,
  accurate m -> clear_of_transitions lat n ->
  fl x r -> Rabs r <= 90 -> fl y s -> Rabs s <= 360 ->
  Rabs (lat - r) <= 90 / IZR (latitude_zones odd) / 2 - 1 / 500 ->
  same_angle lon s (90 / IZR (longitude_zones n odd) / 2 - 1 / 500) ->
  exists X Y v w,
    GetCPRSurfaceLocalPosition (floats m) (surface_latitude odd lat) (surface_longitude n odd lon) x y odd = (X, Y) /\
    fl X v /\ Rabs (v - lat) <= half_step 90 (latitude_zones odd) + 1 / 1000000000 /\
    fl Y w /\ same_angle w lon (half_step 90 (longitude_zones n odd) + 1 / 1000000000).
Proof.
  intros m lat lon x r y s odd n Acc C Fx Hr Fy Hs H1 H2. apply surface_local with (r := r) (s := s); try assumption.
  - apply (clear_range lat n C).
  - apply clear_zones; assumption.
Qed.

Theorem surface_global_accurate : forall m lat lon x r y s n last,
  accurate m -> clear_of_transitions lat n ->
  0 <= lat <= 89.99 /\ 0 <= r \/ -90 <= lat <= -0.0001 /\ r < 0 -> Rabs lon <= 179.999 ->
  fl x r -> fl y s -> Rabs (lon - s) <= 44.99 ->
  exists X Y v w,
    GetCPRSurfaceGlobalPosition (floats m) (surface_latitude false lat) (surface_longitude n false lon)
      (surface_latitude true lat) (surface_longitude n true lon) last x y = Ok (X, Y) /\
    fl X v /\ Rabs (v - lat) <= half_step 90 (latitude_zones (negb last)) + 1 / 100000000000 /\
    fl Y w /\ Rabs (w - lon) <= half_step 90 (longitude_zones n (negb last)) + 1 / 1000000000.
Proof.
  intros m lat lon x r y s n last Acc C Hh Hl Fx Fy Hq. apply surface_global with (r := r) (s := s); try assumption.
  - apply (clear_range lat n C).
  - apply clear_zones; assumption.
Qed.

(* ---- the hypotheses can be met ---- *)

(* a library: the exact value, rounded to 50 bits after the point *)
Definition near50 (r : R) : f64 := f64_div (f64_of_Z (Zfloor (r * 1125899906842624))) (f64_of_Z 1125899906842624).

Lemma near50_about : forall r, Rabs r <= 4 -> about (near50 r) r tolerance.
Proof.
  intros r H. apply Rabs_le_inv in H. unfold near50, tolerance. set (z := Zfloor (r * 1125899906842624)).
  pose proof (Zfloor_lb (r * 1125899906842624)) as L. pose proof (Zfloor_ub (r * 1125899906842624)) as U. fold z in L, U.
  assert (Bz : (-4503599627370497 <= z <= 4503599627370496)%Z).
  { split; [|apply le_IZR; lra]. assert (-4503599627370497 < z)%Z; [|lia]. apply lt_IZR. lra. }
  pose proof (fl_of_Z z ltac:(lia)) as Fz. pose proof (fl_of_Z 1125899906842624 ltac:(lia)) as Fd.
  assert (Q : IZR z / 1125899906842624 * 1125899906842624 = IZR z) by (field).
  pose proof (fl_div _ _ _ _ Fz Fd ltac:(lra) ltac:(apply big_le, Rabs_le; lra)) as F.
  pose proof (rnd_err 3 (IZR z / 1125899906842624) ltac:(lia) ltac:(apply Rabs_le; cbn; lra)) as R.
  change (3 - 53)%Z with (-50)%Z in R. cbn in R. apply Rabs_le_inv in R.
  eexists. split; [exact F|]. apply Rabs_le. lra.
Qed.

Definition exact_library : mathlib :=
  mkMathlib (fun x => near50 (cos (SF2R radix2 x))) (fun x => near50 (sin (SF2R radix2 x)))
            (fun x => near50 (acos (SF2R radix2 x))) (fun y x => near50 0)
            (fun x _ => near50 (SF2R radix2 x * SF2R radix2 x)).

Example accurate_exists : exists m, accurate m.
Proof.
  assert (V : forall x v, fl x v -> SF2R radix2 x = v) by (intros x v (b & -> & _ & <-); apply SF2R_B2SF).
  exists exact_library. unfold accurate, exact_library. cbn [m_cos m_pow m_acos].
  repeat split; intros x v Fx H; rewrite (V _ _ Fx); apply near50_about; apply Rabs_le_inv in H; apply Rabs_le.
  - pose proof (COS_bound v). lra.
  - split; nra.
  - pose proof (acos_bound v). pose proof PI_tight. lra.
Qed.

(* at 45 degrees there are 42 zones *)
Example clear_45 : clear_of_transitions 45 42.
Proof.
  split; [rewrite Rabs_pos_eq; lra|]. intros lat' H. apply Rabs_le_inv in H.
  destruct (number_of_zones lat' ltac:(rewrite Rabs_pos_eq; lra)) as (n & _ & Z). replace 42%Z with n; [exact Z|].
  pose proof PI_tight as P. pose proof (ratio_mul lat' ltac:(lra)) as M. pose proof (cos_deg lat' ltac:(lra)) as C.
  pose proof a_bounds as A.
  assert (B : 0.4999 <= cos (rad lat') * cos (rad lat') <= 0.5001).
  { pose proof (cos_lip (rad lat') (PI / 4)) as L.
    assert (Rabs (rad lat' - PI / 4) <= 0.000002) by (replace (rad lat' - PI / 4) with (PI * (lat' - 45) / 180) by (unfold rad; field); apply Rabs_le; split; nra).
    assert (L' : Rabs (cos (rad lat') - cos (PI / 4)) <= 0.000002) by lra. apply Rabs_le_inv in L'.
    assert (S : cos (PI / 4) * cos (PI / 4) = 1 / 2).
    { replace (PI / 4) with (PI / 2 / 2) by lra. rewrite cos_half_sq, cos_PI2. lra. }
    pose proof (COS_bound (PI / 4)). set (c := cos (rad lat')) in *. set (d := cos (PI / 4)) in *. split; nra. }
  assert (Cn : forall k x, 2 * PI / k = x -> 0 < x < 0.2 -> x * x / 2 - x * x / 2 * (x * x / 12) <= 1 - cos (2 * PI / k) <= x * x / 2).
  { intros k x -> Hx. pose proof (cos_low x ltac:(lra)). pose proof (cos_high x ltac:(lra)). lra. }
  destruct Z as [Bn Z].
  assert (42 <= n)%Z.
  { apply Z; [lia|]. unfold within_transition. pose proof (Cn 42 (2 * PI / 42) eq_refl ltac:(lra)) as D.
    set (x := 2 * PI / 42) in *. assert (0.1495 <= x <= 0.1497) by (unfold x; lra). assert (0.02235 <= x * x <= 0.0225) by nra. nra. }
  assert (~ (43 <= n)%Z); [|lia].
  intros G. apply Z in G; [|lia]. unfold within_transition in G. pose proof (Cn 43 (2 * PI / 43) eq_refl ltac:(lra)) as D.
  set (x := 2 * PI / 43) in *. assert (0.146 <= x <= 0.1462) by (unfold x; lra). assert (0.0213 <= x * x <= 0.0214) by nra. nra.
Qed.
