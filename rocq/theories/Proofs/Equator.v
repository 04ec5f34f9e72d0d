(* C106: airborne positions at every latitude away from the transitions, the equator included, for every precise library. *)
From Verif Require Import GoBase.
From Verif.Model Require Import Geo.
From Coq Require Import ZArith Reals Lia Lra Psatz.
From Coq Require Import Floats.SpecFloat.
From Flocq Require Import Core BinarySingleNaN.
From Verif.Spec Require Import Binary64 Cpr Geodesy MathLib ZoneTable Precise.
From Verif.Proofs Require Import FloatR FloatOps CprFloat CprGlobal CprLocal GeoReals ZonesReal ZonesFloat CprAccurate CprMoving ZoneTable.
Local Open Scope R_scope.

Lemma precise_accurate : forall m, precise m -> accurate m.
Proof.
  intros m (C & P & A). split; [|split; [|exact A]]; intros x v Fx Hv.
  - apply about_weaken with fine; [auto|]. unfold fine, tolerance. lra.
  - apply about_weaken with fine; [auto|]. unfold fine, tolerance. lra.
Qed.

Lemma pi30_fine : about (f64_litpi 1 30) (PI / 30) 0.0000000000000001.
Proof.
  pose proof PI_tight. eexists. split; [eapply litpi_about; [vm_compute; reflexivity|reflexivity]|].
  apply Rabs_le. cbn. lra.
Qed.

Lemma a_fine : forall m, precise m ->
  about (f64_sub (f64_lit 1 1) (m_cos m (f64_litpi 1 30))) (1 - cos (PI / 30)) 0.000000000000001102.
Proof.
  intros m [Cos _]. destruct pi30_fine as (p & Fp & Ep). pose proof PI_tight. apply Rabs_le_inv in Ep.
  destruct (Cos _ _ Fp ltac:(apply Rabs_le; lra)) as (c & Fc & Ec).
  pose proof (cos_lip p (PI / 30)) as L.
  assert (Rabs (p - PI / 30) <= 0.0000000000000001) by (apply Rabs_le; lra).
  unfold fine in Ec. apply Rabs_le_inv in Ec. assert (L' : Rabs (cos p - cos (PI / 30)) <= 0.0000000000000001) by lra.
  apply Rabs_le_inv in L'. pose proof a_bounds as A.
  pose proof (fl_sub _ _ _ _ lit1 Fc ltac:(apply big_le, Rabs_le; lra)) as F.
  pose proof (rnd_err (-7) (1 - c) ltac:(lia) ltac:(apply Rabs_le; cbn; lra)) as R. change (-7 - 53)%Z with (-60)%Z in R. cbn in R.
  apply Rabs_le_inv in R. eexists. split; [exact F|]. apply Rabs_le. lra.
Qed.

Lemma b_fine : forall m x w, precise m -> fl x w -> 0.000045775 <= w <= 0.0011 ->
  exists b, fl (m_pow m (m_cos m (f64_mul (f64_litpi 1 180) x)) (f64_lit 2 1)) b /\ 0.99999 <= b <= 1 - 0.000000000000634.
Proof.
  intros m x w (Cos & Pow & _) Fx Hw. destruct pi180 as (p & Fp & Ep). pose proof PI_tight as P. apply Rabs_le_inv in Ep.
  assert (B : 0.00000079892 <= p * w <= 0.00002) by nra.
  pose proof (fl_mul _ _ _ _ Fp Fx ltac:(apply big_le, Rabs_le; lra)) as F.
  pose proof (rnd_err (-15) (p * w) ltac:(lia) ltac:(apply Rabs_le; cbn; lra)) as R. change (-15 - 53)%Z with (-68)%Z in R. cbn in R.
  apply Rabs_le_inv in R. set (l := rnd (p * w)) in *.
  assert (Bl : 0.00000079891 <= l <= 0.00002001) by lra.
  pose proof (cos_low l ltac:(lra)) as C1. pose proof (cos_high l ltac:(lra)) as C2.
  assert (L2 : 0.00000000000063825 <= l * l <= 0.00000000041) by nra.
  assert (L4 : l * l * l * l / 24 <= l * l * 0.0000000001).
  { replace (l * l * l * l / 24) with (l * l * (l * l / 24)) by field. apply Rmult_le_compat_l; lra. }
  destruct (Cos _ _ F ltac:(apply Rabs_le; lra)) as (c & Fc & Ec). unfold fine in Ec. apply Rabs_le_inv in Ec.
  assert (Bc : 0.999999 <= c <= 1 - 0.0000000000003181) by lra.
  destruct (Pow _ _ Fc ltac:(apply Rabs_le; lra)) as (b & Fb & Eb). unfold fine in Eb. apply Rabs_le_inv in Eb.
  exists b. split; [exact Fb|]. clear - Bc Eb. split; nra.
Qed.

Lemma cos_step : forall s h, 0 <= h -> 0 <= s -> s + h <= 1 -> cos s - cos (s + h) <= (s + h / 2) * h.
Proof.
  intros s h Hh Hs H1.
  assert (E : cos s - cos (s + h) = 2 * (sin (s + h / 2) * sin (h / 2))).
  { replace s with ((s + h / 2) - h / 2) at 1 by lra. replace (s + h) with ((s + h / 2) + h / 2) by lra. rewrite cos_plus, cos_minus. ring. }
  rewrite E. pose proof PI_tight.
  pose proof (sin_high (s + h / 2) ltac:(lra)). pose proof (sin_high (h / 2) ltac:(lra)).
  assert (0 <= sin (s + h / 2)) by (apply sin_ge_0; lra). assert (0 <= sin (h / 2)) by (apply sin_ge_0; lra).
  assert (sin (s + h / 2) * sin (h / 2) <= (s + h / 2) * (h / 2)) by (apply Rmult_le_compat; assumption). lra.
Qed.

(* the zones next to the equator *)
Lemma zones_equator : forall m x v, precise m -> fl x v -> v = 0 \/ 0.000045775 <= Rabs v -> Rabs v <= 0.0011 ->
  fl (getNumberOfLongitude (floats m) x) 59.
Proof.
  intros m x v Pr Fx H0 H1. set (w := Rabs v) in *. pose proof (fl_abs _ _ Fx) as Fw. fold w in Fw.
  assert (F0 : fl (f64_lit 0 1) 0) by flc. assert (F87 : fl (f64_lit 87 1) 87) by flc.
  unfold getNumberOfLongitude.
  cbn [floats num of_Z lit litpi add sub mul div ltb leb eqb floor abs max sqrt cos sin acos atan2 pow].
  rewrite (fl_eqb_R _ _ _ _ Fx F0), (fl_eqb_R _ _ _ _ Fw F87), (fl_ltb_R _ _ _ _ F87 Fw).
  destruct (Req_bool_spec v 0) as [V0|V0]; [flc|]. destruct H0 as [H0|H0]; [contradiction|].
  rewrite Req_bool_false by lra. rewrite Rlt_bool_false by lra.
  destruct (a_fine m Pr) as (a & Fa & Ea). destruct (b_fine m _ w Pr Fw ltac:(lra)) as (b & Fb & Bb).
  apply Rabs_le_inv in Ea. pose proof a_bounds as A. pose proof PI_tight as P.
  assert (Q : a / b * b = a) by (field; lra).
  pose proof (fl_div _ _ _ _ Fa Fb ltac:(lra)) as Fq. set (q := a / b) in *.
  assert (Bq : a + 0.000000000000003467 <= q <= 0.0055) by (clear - Ea A Bb Q; split; nra).
  specialize (Fq ltac:(apply big_le, Rabs_le; lra)).
  pose proof (rnd_err (-7) q ltac:(lia) ltac:(apply Rabs_le; cbn; lra)) as Rq. change (-7 - 53)%Z with (-60)%Z in Rq. cbn in Rq.
  apply Rabs_le_inv in Rq. set (q' := rnd q) in *.
  pose proof (fl_sub _ _ _ _ lit1 Fq ltac:(apply big_le, Rabs_le; lra)) as Fy.
  pose proof (rnd_err 0 (1 - q') ltac:(lia) ltac:(apply Rabs_le; cbn; lra)) as Ry. change (0 - 53)%Z with (-53)%Z in Ry. cbn in Ry.
  apply Rabs_le_inv in Ry. set (y := rnd (1 - q')) in *.
  assert (Ey : 0.9944 <= y <= cos (PI / 30) - 0.0000000000000022) by lra.
  destruct Pr as (_ & _ & Acos).
  destruct (Acos _ _ Fy ltac:(apply Rabs_le; lra)) as (z & Fz & Ez). unfold tolerance in Ez. apply Rabs_le_inv in Ez.
  assert (H2 : PI / 30 + 0.00000000000002 <= acos y).
  { apply acos_ge; [lra|lra|]. pose proof (cos_step (PI / 30) 0.00000000000002 ltac:(lra) ltac:(lra) ltac:(lra)). lra. }
  assert (H3 : acos y <= 2 * PI / 59 - 0.00001).
  { apply acos_shift_le; [lra|lra|lra|]. pose proof (cos_high (2 * PI / 59) ltac:(lra)) as C.
    set (s := 2 * PI / 59) in *. assert (0.106494 <= s <= 0.106495) by (unfold s; lra).
    assert (0.0113409 <= s * s <= 0.0113412) by nra. replace (s * s * s * s) with (s * s * (s * s)) in C by ring.
    set (t := s * s) in *. assert (t * t <= 0.00013) by nra. lra. }
  destruct pi2 as (p & Fp & Ep). apply Rabs_le_inv in Ep.
  assert (Q2 : p / z * z = p) by (field; lra).
  pose proof (fl_div _ _ _ _ Fp Fz ltac:(lra)) as Fr. set (r := p / z) in *.
  assert (L1 : 59 <= r) by (clear - Q2 Ez H2 H3 Ep P; nra).
  assert (L2 : r <= 60 - 0.000000000001).
  { apply Rnot_lt_le. intros G. assert (0 <= z <= 0.2) by lra. assert (60 * z - p <= 0.000000000001 * 0.2); [|lra].
    rewrite <- Q2. replace (60 * z - r * z) with ((60 - r) * z) by ring. clear - G H L1. nra. }
  specialize (Fr ltac:(apply big_le, Rabs_le; lra)).
  pose proof (fl_floor _ _ Fr) as Ff. replace (Zfloor (rnd r)) with 59%Z in Ff; [exact Ff|].
  symmetry. apply Zfloor_imp. change (59 + 1)%Z with 60%Z. split.
  - rewrite <- (rnd_IZR 59) by lia. apply rnd_le. exact L1.
  - pose proof (rnd_err 6 r ltac:(lia) ltac:(apply Rabs_le; cbn; lra)) as R. change (6 - 53)%Z with (-47)%Z in R. cbn in R.
    apply Rabs_le_inv in R. lra.
Qed.

(* next to the equator, there are 59 zones *)
Lemma equator_59 : forall lat n, Rabs lat < 1 / 1000 -> zones_at lat n -> n = 59%Z.
Proof.
  intros lat n B [R Z]. assert (59 <= n)%Z; [|lia]. apply Z; [lia|]. unfold within_transition.
  pose proof a_bounds as A. pose proof PI_tight as P. apply Rabs_lt_inv in B.
  assert (Br : -0.00002 <= rad lat <= 0.00002) by (unfold rad; split; nra).
  pose proof (cos_low (rad lat) ltac:(lra)) as C1.
  assert (C2 : 0.999999 <= cos (rad lat)) by (set (x := rad lat) in *; clear - C1 Br; nra).
  pose proof (cos_high (2 * PI / 59) ltac:(lra)) as C.
  change (IZR 59) with 59. set (s := 2 * PI / 59) in *. assert (0.106494 <= s <= 0.106495) by (unfold s; lra).
  assert (0.0113409 <= s * s <= 0.0113412) by nra. replace (s * s * s * s) with (s * s * (s * s)) in C by ring.
  set (t := s * s) in *. assert (t * t <= 0.00013) by nra.
  assert (0.00565 <= 1 - cos s) by lra. assert (0.99999 <= cos (rad lat) * cos (rad lat)) by (clear - C2; nra).
  clear - A H2 H3. nra.
Qed.

Lemma changes_range : forall lat n, clear_of_changes lat n -> (1 <= n <= 59)%Z.
Proof. intros lat n [_ Z]. apply (Z lat). rewrite Rminus_diag_eq, Rabs_R0 by reflexivity. lra. Qed.

Lemma changes_zones : forall m lat n, precise m -> clear_of_changes lat n ->
  forall x v, fl x v -> Rabs (v - lat) <= 1 / 30000 -> on_grid 360 v -> fl (getNumberOfLongitude (floats m) x) (IZR n).
Proof.
  intros m lat n Pr [B Z] x v Fx Hv G. destruct (Rle_lt_dec (1 / 1000) (Rabs lat)) as [L|L].
  - apply (zones_binary64 m lat n (precise_accurate m Pr) (conj L B) Z x v Fx Hv).
  - rewrite (equator_59 lat n L) by (apply Z; rewrite Rminus_diag_eq, Rabs_R0 by reflexivity; lra).
    apply zones_equator with v; auto.
    + destruct G as [G|G]; [left; exact G|right; lra].
    + pose proof (Rabs_triang_inv v lat). lra.
Qed.

Theorem airborne_global_everywhere : forall m lat lon n last,
  precise m -> clear_of_changes lat n ->
  exists x y v w,
    GetCPRAirborneGlobalPosition (floats m) (airborne_latitude false lat) (airborne_longitude n false lon)
      (airborne_latitude true lat) (airborne_longitude n true lon) last = Ok (x, y) /\
    fl x v /\ Rabs (v - lat) <= half_step 360 (latitude_zones (negb last)) + 1 / 100000000000 /\
    fl y w /\ -180 < w <= 180 /\
    same_angle w lon (half_step 360 (longitude_zones n (negb last)) + 1 / 100000000000).
Proof.
  intros m lat lon n last Pr C. apply airborne_global_grid.
  - destruct C as [B _]. apply Rabs_le_inv. lra.
  - apply (changes_range lat n C).
  - apply changes_zones; assumption.
Qed.

Theorem airborne_local_everywhere : forall m lat lon x r y s odd n,
  precise m -> clear_of_changes lat n ->
  fl x r -> Rabs r <= 90 -> fl y s -> Rabs s <= 360 ->
  Rabs (lat - r) <= 360 / IZR (latitude_zones odd) / 2 - 1 / 500 ->
  same_angle lon s (360 / IZR (longitude_zones n odd) / 2 - 1 / 500) ->
  exists X Y v w,
    GetCPRAirborneLocalPosition (floats m) (airborne_latitude odd lat) (airborne_longitude n odd lon) x y odd = (X, Y) /\
    fl X v /\ Rabs (v - lat) <= half_step 360 (latitude_zones odd) + 1 / 1000000000 /\
    fl Y w /\ same_angle w lon (half_step 360 (longitude_zones n odd) + 1 / 1000000000).
Proof.
  intros m lat lon x r y s odd n Pr C Fx Hr Fy Hs H1 H2. apply airborne_local_grid with (r := r) (s := s); try assumption.
  - apply (changes_range lat n C).
  - apply changes_zones; assumption.
Qed.

Theorem airborne_moving_everywhere : forall m lat0 lon0 lat1 lon1 n last,
  precise m -> clear_of_changes lat0 n -> clear_of_changes lat1 n ->
  Rabs (lat0 - lat1) <= 0.0507 -> short_move 360 n lon0 lon1 ->
  exists x y v w,
    GetCPRAirborneGlobalPosition (floats m) (airborne_latitude false lat0) (airborne_longitude n false lon0)
      (airborne_latitude true lat1) (airborne_longitude n true lon1) last = Ok (x, y) /\
    fl x v /\ Rabs (v - (if last then lat0 else lat1)) <= half_step 360 (latitude_zones (negb last)) + 1 / 100000000000 /\
    fl y w /\ -180 < w <= 180 /\
    same_angle w (if last then lon0 else lon1) (half_step 360 (longitude_zones n (negb last)) + 1 / 100000000000).
Proof.
  intros m lat0 lon0 lat1 lon1 n last Pr C0 C1 Hm Hl. apply airborne_moving_grid; auto.
  - destruct C0 as [B _]; apply Rabs_le_inv; lra.
  - destruct C1 as [B _]; apply Rabs_le_inv; lra.
  - exact (changes_range lat0 n C0).
  - apply changes_zones; assumption.
  - apply changes_zones; assumption.
Qed.

(* the hypothesis, from the published table *)
Theorem changes_by_table : forall lat n, Rabs lat <= 90 -> away (1 / 9000) lat -> tabulated lat n -> clear_of_changes lat n.
Proof.
  intros lat n B A T. split; [exact B|]. intros lat' D.
  destruct (tabulated_side (1 / 9000) lat lat' A ltac:(lra)) as [A' T'].
  apply zones_tabulated_wide.
  - replace lat' with ((lat' - lat) + lat) by ring. eapply Rle_trans; [apply Rabs_triang|]. lra.
  - intros k t H. specialize (A' k t H). lra.
  - apply T'. exact T.
Qed.

(* ---- the hypotheses can be met: the equator itself, and a library ---- *)

Example clear_equator : clear_of_changes 0 59.
Proof.
  split; [rewrite Rabs_R0; lra|]. intros lat' H. rewrite Rminus_0_r in H.
  destruct (number_of_zones lat' ltac:(lra)) as (n & _ & Z). rewrite <- (equator_59 lat' n); [exact Z| |exact Z]. lra.
Qed.

(* the exact value, rounded to 51 bits after the point *)
Definition near51 (r : R) : f64 :=
  f64_div (f64_of_Z (Z.max (-9007199254740991) (Z.min 9007199254740991 (Zfloor (r * 2251799813685248))))) (f64_of_Z 2251799813685248).

Lemma near51_about : forall r, Rabs r <= 4 -> about (near51 r) r fine.
Proof.
  intros r H. apply Rabs_le_inv in H. unfold near51, fine. set (f := Zfloor (r * 2251799813685248)).
  pose proof (Zfloor_lb (r * 2251799813685248)) as L. pose proof (Zfloor_ub (r * 2251799813685248)) as U. fold f in L, U.
  set (z := Z.max (-9007199254740991) (Z.min 9007199254740991 f)).
  assert (Bz : (-9007199254740991 <= z <= 9007199254740991)%Z) by lia.
  assert (Bf : (-9007199254740992 <= f <= 9007199254740992)%Z).
  { split; [|apply le_IZR; lra]. assert (-9007199254740993 < f)%Z; [|lia]. apply lt_IZR. lra. }
  assert (D : -1 <= IZR z - r * 2251799813685248 <= 1).
  { assert (C : (z = f \/ f = 9007199254740992 /\ z = 9007199254740991 \/ f = -9007199254740992 /\ z = -9007199254740991)%Z) by lia.
    destruct C as [->|[[E ->]|[E ->]]]; try rewrite E in *; lra. }
  assert (BR : -9007199254740991 <= IZR z <= 9007199254740991) by (split; apply IZR_le; lia).
  pose proof (fl_of_Z z ltac:(lia)) as Fz. pose proof (fl_of_Z 2251799813685248 ltac:(lia)) as Fd.
  pose proof (fl_div _ _ _ _ Fz Fd ltac:(lra) ltac:(apply big_le, Rabs_le; lra)) as F.
  pose proof (rnd_err 2 (IZR z / 2251799813685248) ltac:(lia)) as R.
  change (2 - 53)%Z with (-51)%Z in R. cbn in R. specialize (R ltac:(apply Rabs_le; lra)). apply Rabs_le_inv in R.
  eexists. split; [exact F|]. apply Rabs_le. lra.
Qed.

Example precise_exists : exists m, precise m.
Proof.
  assert (V : forall x v, fl x v -> SF2R radix2 x = v) by (intros x v (b & -> & _ & <-); apply SF2R_B2SF).
  exists (mkMathlib (fun x => near51 (Rtrigo_def.cos (SF2R radix2 x))) (fun x => near51 0) (fun x => near51 (Ratan.acos (SF2R radix2 x)))
            (fun y x => near51 0) (fun x _ => near51 (SF2R radix2 x * SF2R radix2 x))).
  unfold precise. cbn [m_cos m_pow m_acos]. split; [|split]; intros x v Fx H; rewrite (V _ _ Fx); apply Rabs_le_inv in H.
  - apply near51_about, Rabs_le. pose proof (COS_bound v). lra.
  - apply near51_about, Rabs_le. split; nra.
  - apply about_weaken with fine; [|unfold fine, tolerance; lra]. apply near51_about, Rabs_le.
    pose proof (acos_bound v). pose proof PI_tight. lra.
Qed.

(* ---- accuracy alone is not enough next to the equator: at the first latitude that a surface message can give,
   which is 90 / 60 / 131072 degrees, a library within the tolerance makes the number of zones 60 ---- *)
Definition biased : mathlib :=
  mkMathlib (fun x => near51 (Rtrigo_def.cos (SF2R radix2 x) + (if Rle_bool (1 / 100) (SF2R radix2 x) then 8 / 1000000000000000 else 0)))
            (fun x => near51 0) (fun x => near51 (Ratan.acos (SF2R radix2 x)))
            (fun y x => near51 0) (fun x _ => near51 (SF2R radix2 x * SF2R radix2 x)).

Lemma biased_accurate : accurate biased.
Proof.
  assert (V : forall x v, fl x v -> SF2R radix2 x = v) by (intros x v (b & -> & _ & <-); apply SF2R_B2SF).
  unfold accurate, biased. cbn [m_cos m_pow m_acos]. split; [|split]; intros x v Fx H; rewrite (V _ _ Fx); apply Rabs_le_inv in H.
  - set (d := if Rle_bool (1 / 100) v then 8 / 1000000000000000 else 0). assert (B : 0 <= d <= 8 / 1000000000000000) by (unfold d; destruct (Rle_bool (1 / 100) v); lra).
    pose proof (COS_bound v). destruct (near51_about (Rtrigo_def.cos v + d)) as (c & Fc & Ec); [apply Rabs_le; lra|].
    exists c. split; [exact Fc|]. unfold fine in Ec. unfold tolerance. apply Rabs_le_inv in Ec. apply Rabs_le. lra.
  - apply about_weaken with fine; [|unfold fine, tolerance; lra]. apply near51_about, Rabs_le. split; nra.
  - apply about_weaken with fine; [|unfold fine, tolerance; lra]. apply near51_about, Rabs_le.
    pose proof (acos_bound v). pose proof PI_tight. lra.
Qed.

Lemma sixty_zones : forall x, fl x (90 / 60 / 131072) -> fl (getNumberOfLongitude (floats biased) x) 60.
Proof.
  intros x Fx. set (w := 90 / 60 / 131072) in *. assert (Bw : 0.0000114 <= w <= 0.0000115) by (unfold w; lra).
  assert (V : forall x v, fl x v -> SF2R radix2 x = v) by (intros ? v (b & -> & _ & <-); apply SF2R_B2SF).
  pose proof (fl_abs _ _ Fx) as Fw. rewrite (Rabs_pos_eq w) in Fw by lra.
  assert (F0 : fl (f64_lit 0 1) 0) by flc. assert (F87 : fl (f64_lit 87 1) 87) by flc.
  unfold getNumberOfLongitude.
  cbn [floats num of_Z lit litpi add sub mul div ltb leb eqb floor abs max sqrt cos sin acos atan2 pow Geo.cos Geo.acos Geo.pow Geo.floor Geo.sin biased m_cos m_pow m_acos].
  rewrite (fl_eqb_R _ _ _ _ Fx F0), (fl_eqb_R _ _ _ _ Fw F87), (fl_ltb_R _ _ _ _ F87 Fw).
  rewrite !Req_bool_false by lra. rewrite Rlt_bool_false by lra.
  pose proof a_bounds as A. pose proof PI_tight as P.
  (* a *)
  destruct pi30_fine as (p & Fp & Ep). apply Rabs_le_inv in Ep. rewrite (V _ _ Fp). rewrite (Rle_bool_true (1 / 100) p) by lra.
  pose proof (cos_lip p (PI / 30)) as L. assert (Rabs (p - PI / 30) <= 0.0000000000000001) by (apply Rabs_le; lra).
  assert (L' : Rabs (Rtrigo_def.cos p - Rtrigo_def.cos (PI / 30)) <= 0.0000000000000001) by lra. apply Rabs_le_inv in L'.
  destruct (near51_about (Rtrigo_def.cos p + 8 / 1000000000000000)) as (c & Fc & Ec); [apply Rabs_le; lra|].
  unfold fine in Ec. apply Rabs_le_inv in Ec.
  pose proof (fl_sub _ _ _ _ lit1 Fc ltac:(apply big_le, Rabs_le; lra)) as Fa.
  pose proof (rnd_err (-7) (1 - c) ltac:(lia) ltac:(apply Rabs_le; cbn; lra)) as Ra. change (-7 - 53)%Z with (-60)%Z in Ra. cbn in Ra.
  apply Rabs_le_inv in Ra. set (a := rnd (1 - c)) in *.
  assert (Ba : 1 - Rtrigo_def.cos (PI / 30) - 0.00000000000001 <= a <= 1 - Rtrigo_def.cos (PI / 30) - 0.000000000000006898) by lra.
  (* b *)
  destruct pi180 as (p8 & Fp8 & Ep8). apply Rabs_le_inv in Ep8.
  assert (B8 : 0 <= p8 * w <= 0.000000201) by (clear - Ep8 Bw P; split; nra).
  pose proof (fl_mul _ _ _ _ Fp8 Fw ltac:(apply big_le, Rabs_le; lra)) as Fl.
  pose proof (rnd_err (-15) (p8 * w) ltac:(lia) ltac:(apply Rabs_le; cbn; lra)) as Rl. change (-15 - 53)%Z with (-68)%Z in Rl. cbn in Rl.
  apply Rabs_le_inv in Rl. set (l := rnd (p8 * w)) in *. rewrite (V _ _ Fl). rewrite (Rle_bool_false (1 / 100) l) by lra. rewrite Rplus_0_r.
  pose proof (cos_low l ltac:(lra)) as C1. pose proof (COS_bound l) as C2.
  assert (Bl : -0.00000000001 <= l <= 0.00000020101) by lra. assert (L2 : l * l <= 0.0000000000000405) by (clear - Bl; nra).
  destruct (near51_about (Rtrigo_def.cos l)) as (d & Fd & Ed); [apply Rabs_le; lra|]. unfold fine in Ed. apply Rabs_le_inv in Ed.
  rewrite (V _ _ Fd). assert (Bd : 1 - 0.000000000000023 <= d <= 1 + 0.000000000000001) by lra.
  assert (Bdd : 1 - 0.000000000000046 <= d * d <= 1 + 0.000000000000003) by (clear - Bd; split; nra).
  destruct (near51_about (d * d)) as (b & Fb & Eb); [apply Rabs_le; lra|]. unfold fine in Eb. apply Rabs_le_inv in Eb.
  assert (Q : a / b * b = a) by (field; lra).
  pose proof (fl_div _ _ _ _ Fa Fb ltac:(lra)) as Fq. set (q := a / b) in *.
  assert (Bq : a - 0.0000000000001 <= q <= a + 0.0000000000000003) by (clear - Ba A Bdd Eb Q; split; nra).
  specialize (Fq ltac:(apply big_le, Rabs_le; lra)).
  pose proof (rnd_err (-7) q ltac:(lia) ltac:(apply Rabs_le; cbn; lra)) as Rq. change (-7 - 53)%Z with (-60)%Z in Rq. cbn in Rq.
  apply Rabs_le_inv in Rq. set (q' := rnd q) in *.
  pose proof (fl_sub _ _ _ _ lit1 Fq ltac:(apply big_le, Rabs_le; lra)) as Fy.
  pose proof (rnd_err 0 (1 - q') ltac:(lia) ltac:(apply Rabs_le; cbn; lra)) as Ry. change (0 - 53)%Z with (-53)%Z in Ry. cbn in Ry.
  apply Rabs_le_inv in Ry. set (y := rnd (1 - q')) in *. rewrite (V _ _ Fy).
  set (s := PI / 30) in *. assert (Bs : 0.1047 <= s <= 0.1048) by (unfold s; lra).
  assert (Ey : Rtrigo_def.cos s + 0.0000000000000064 <= y <= Rtrigo_def.cos s + 0.0000000000002) by lra.
  assert (H2 : Ratan.acos y <= s - 0.00000000000006).
  { apply acos_le; [lra|lra|]. pose proof (cos_step (s - 0.00000000000006) 0.00000000000006 ltac:(lra) ltac:(lra) ltac:(lra)) as C.
    replace (s - 0.00000000000006 + 0.00000000000006) with s in C by ring. lra. }
  assert (H3 : s - 0.0001 <= Ratan.acos y).
  { apply acos_ge; [lra|lra|]. pose proof (sin_low (s - 0.00005) ltac:(lra)) as S1. pose proof (sin_low 0.00005 ltac:(lra)) as S2.
    assert (E : Rtrigo_def.cos (s - 0.0001) - Rtrigo_def.cos s = 2 * (Rtrigo_def.sin (s - 0.00005) * Rtrigo_def.sin 0.00005)).
    { replace (s - 0.0001) with ((s - 0.00005) - 0.00005) by lra. replace s with ((s - 0.00005) + 0.00005) at 2 by lra.
      rewrite cos_plus, cos_minus. ring. }
    set (u := s - 0.00005) in *. assert (0.104 <= u <= 0.105) by (unfold u; lra).
    assert (0.1 <= Rtrigo_def.sin u) by (clear - S1 H0; nra). assert (0.00004 <= Rtrigo_def.sin 0.00005) by lra.
    assert (0.1 * 0.00004 <= Rtrigo_def.sin u * Rtrigo_def.sin 0.00005) by (apply Rmult_le_compat; lra). lra. }
  destruct (near51_about (Ratan.acos y)) as (z & Fz & Ez); [apply Rabs_le; lra|]. unfold fine in Ez. apply Rabs_le_inv in Ez.
  destruct pi2 as (p2 & Fp2 & Ep2). apply Rabs_le_inv in Ep2.
  assert (Q2 : p2 / z * z = p2) by (field; lra).
  pose proof (fl_div _ _ _ _ Fp2 Fz ltac:(lra)) as Fr. set (r := p2 / z) in *.
  assert (P30 : s = PI / 30) by reflexivity. clearbody s.
  assert (L1 : 60 <= r) by (clear - Q2 Ez H2 H3 Ep2 P P30; nra).
  assert (L3 : r <= 60.5) by (clear - Q2 Ez H2 H3 Ep2 P P30; nra).
  specialize (Fr ltac:(apply big_le, Rabs_le; lra)).
  pose proof (fl_floor _ _ Fr) as Ff. replace (Zfloor (rnd r)) with 60%Z in Ff; [exact Ff|].
  symmetry. apply Zfloor_imp. change (60 + 1)%Z with 61%Z. split.
  - rewrite <- (rnd_IZR 60) by lia. apply rnd_le. exact L1.
  - pose proof (rnd_err 6 r ltac:(lia) ltac:(apply Rabs_le; cbn; lra)) as R. change (6 - 53)%Z with (-47)%Z in R. cbn in R.
    apply Rabs_le_inv in R. lra.
Qed.

(* while there are 59 zones there *)
Theorem accuracy_refuted : exists m x lat, accurate m /\ fl x lat /\ 0 < lat < 1 / 1000 /\
  (forall n, zones_at lat n -> n = 59%Z) /\ fl (getNumberOfLongitude (floats m) x) 60.
Proof.
  exists biased, (f64_lit 3 262144), (90 / 60 / 131072). split; [exact biased_accurate|].
  assert (F : fl (f64_lit 3 262144) (90 / 60 / 131072)).
  { assert (E : f64_lit 3 262144 = S754_finite false 6755399441055744 (-69)) by (vm_compute; reflexivity). rewrite E.
    replace (90 / 60 / 131072) with (IZR (Zpos 6755399441055744) * bpow radix2 (-69)) by (cbn; lra).
    apply (fl_literal false). reflexivity. }
  split; [exact F|]. split; [lra|]. split; [|apply sixty_zones, F].
  intros n. apply equator_59. rewrite Rabs_pos_eq; lra.
Qed.
