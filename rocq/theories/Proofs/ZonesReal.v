(* Away from the transition latitudes, the quantity from which the number of longitude zones is computed
   is away from the values where that number changes. Real analysis only. *)
From Coq Require Import ZArith Reals Lia Lra Psatz Machin.
From Flocq Require Import Core.
From Verif.Spec Require Import Geodesy.
From Verif.Proofs Require Import GeoReals.
Local Open Scope R_scope.

Lemma PI_tight : 3.141592653589793 <= PI <= 3.141592653589794.
Proof.
  pose proof (PI_2_3_7_ineq 8) as H.
  cbn [Nat.mul Nat.add] in H. unfold tg_alt, PI_2_3_7_tg, Ratan_seq in H. cbn [sum_f_R0 pow] in H.
  rewrite !INR_IZR_INZ in H. cbn [pow Nat.mul Nat.add Z.of_nat Pos.of_succ_nat Pos.succ] in H. lra.
Qed.

Lemma cos_low : forall x, -2 <= x <= 2 -> 1 - x * x / 2 <= cos x.
Proof.
  intros x H. destruct (pre_cos_bound x 0 ltac:(lra) ltac:(lra)) as [L _].
  unfold cos_approx, cos_term in L. cbn [sum_f_R0 Nat.mul Nat.add pow fact] in L.
  rewrite !INR_IZR_INZ in L. cbn in L. lra.
Qed.

Lemma cos_high : forall x, -2 <= x <= 2 -> cos x <= 1 - x * x / 2 + x * x * x * x / 24.
Proof.
  intros x H. destruct (pre_cos_bound x 0 ltac:(lra) ltac:(lra)) as [_ L].
  unfold cos_approx, cos_term in L. cbn [sum_f_R0 Nat.mul Nat.add pow fact] in L.
  rewrite !INR_IZR_INZ in L. cbn in L. lra.
Qed.

Lemma sin_low : forall x, 0 <= x <= 4 -> x - x * x * x / 6 <= sin x.
Proof.
  intros x H. destruct (pre_sin_bound x 0 ltac:(lra) ltac:(lra)) as [L _].
  unfold sin_approx, sin_term in L. cbn [sum_f_R0 Nat.mul Nat.add pow fact] in L.
  rewrite !INR_IZR_INZ in L. cbn in L. lra.
Qed.

Lemma sin_high : forall x, 0 <= x -> sin x <= x.
Proof. intros x [H|<-]; [left; apply sin_lt_x; exact H|rewrite sin_0; lra]. Qed.

(* a = 1 - cos (PI / 30) *)
Lemma a_bounds : 0.00547 <= 1 - cos (PI / 30) <= 0.00549.
Proof.
  pose proof PI_tight. pose proof (cos_low (PI / 30) ltac:(lra)). pose proof (cos_high (PI / 30) ltac:(lra)).
  set (x := PI / 30) in *. assert (0.104719 <= x <= 0.10472) by (unfold x; lra).
  assert (0.010966 <= x * x <= 0.0109663) by nra.
  assert (E : x * x * x * x = (x * x) * (x * x)) by ring. rewrite E in *. set (y := x * x) in *. nra.
Qed.

Lemma sin_tenth : forall y, 0.104 <= y <= PI - 0.104 -> 0.1 <= sin y.
Proof.
  assert (S : forall y, 0.104 <= y <= PI / 2 -> 0.1 <= sin y).
  { intros y Hy. pose proof PI_tight. pose proof (sin_low 0.104 ltac:(lra)).
    assert (sin 0.104 <= sin y) by (apply sin_incr_1; lra). lra. }
  intros y Hy. pose proof PI_tight. destruct (Rle_lt_dec y (PI / 2)); [apply S; lra|].
  rewrite <- sin_PI_x. apply S. lra.
Qed.

(* six hundred-thousandths of a degree *)
Definition step : R := 0.00006.

Lemma step_bounds : 0.00000104 <= rad step <= 0.00000105.
Proof. unfold rad, step. pose proof PI_tight. lra. Qed.

Lemma sin_step : 0.000001 <= sin (rad step).
Proof.
  pose proof step_bounds as B. pose proof (sin_low (rad step) ltac:(lra)). set (x := rad step) in *.
  assert (x * x <= 0.01) by nra. assert (x * x * x <= 0.01 * x) by nra. lra.
Qed.

Lemma cos_sq_diff : forall x y, cos x * cos x - cos y * cos y = sin (x + y) * sin (y - x).
Proof.
  intros x y. rewrite sin_plus, sin_minus. pose proof (sc1 x). pose proof (sc1 y).
  replace ((sin x * cos y + cos x * sin y) * (sin y * cos x - cos y * sin x))
    with (cos x * cos x * (sin y * sin y) - cos y * cos y * (sin x * sin x)) by ring.
  replace (sin x * sin x) with (1 - cos x * cos x) by lra.
  replace (sin y * sin y) with (1 - cos y * cos y) by lra. ring.
Qed.

(* the quantity compared to 1 - cos (2 * PI / n) *)
Definition ratio (w : R) : R := (1 - cos (PI / 30)) / (cos (rad w) * cos (rad w)).

Lemma cos_deg : forall x, 0 <= x <= 87 -> 0.05 <= cos (rad x) <= 1.
Proof.
  intros x Hx. pose proof PI_tight. split; [|apply COS_bound].
  assert (0.05 <= cos (rad 87)).
  { rewrite <- sin_shift. assert (PI / 2 - rad 87 = PI / 60) by (unfold rad; lra). rewrite H0.
    pose proof (sin_low (PI / 60) ltac:(lra)). set (y := PI / 60) in *. assert (0.0523 <= y <= 0.0524) by (unfold y; lra).
    assert (y * y <= 0.01) by nra. assert (y * y * y <= 0.01 * y) by nra. lra. }
  destruct (Rle_lt_or_eq_dec _ _ (proj2 Hx)) as [L|L]; [|rewrite L; exact H0].
  assert (cos (rad 87) < cos (rad x)); [|lra]. apply cos_decreasing_1; unfold rad; nra.
Qed.

Lemma ratio_mul : forall w, 0 <= w <= 87 -> ratio w * (cos (rad w) * cos (rad w)) = 1 - cos (PI / 30).
Proof. intros w Hw. unfold ratio. pose proof (cos_deg w Hw). field. nra. Qed.

Lemma ratio_diff : forall w w', 0 <= w <= 87 -> 0 <= w' <= 87 ->
  ratio w' - ratio w = ratio w * (sin (rad w + rad w') * sin (rad w' - rad w)) / (cos (rad w') * cos (rad w')).
Proof.
  intros w w' H H'. rewrite <- cos_sq_diff. unfold ratio. pose proof (cos_deg w H). pose proof (cos_deg w' H'). field. nra.
Qed.

Lemma ratio_low : forall w, 0 <= w <= 87 -> 1 - cos (PI / 30) <= ratio w.
Proof.
  intros w H. pose proof (ratio_mul w H) as M. pose proof (cos_deg w H) as C. pose proof a_bounds.
  set (c := cos (rad w)) in *. assert (0 < c * c <= 1) by nra. nra.
Qed.

(* a step further from the equator, from 5 degrees on *)
Lemma ratio_step : forall w w', 4.99 <= w -> w' = w + step -> w' <= 87 -> 0.0000000005 <= ratio w' - ratio w.
Proof.
  intros w w' H -> H'. unfold step in *. rewrite ratio_diff by lra.
  pose proof (ratio_low w ltac:(lra)). pose proof a_bounds.
  pose proof (cos_deg (w + 0.00006) ltac:(lra)) as C. pose proof PI_tight.
  replace (rad (w + 0.00006) - rad w) with (rad step) by (unfold rad, step; lra).
  assert (S : 0.1 <= sin (rad w + rad (w + 0.00006))) by (apply sin_tenth; unfold rad; split; nra).
  pose proof sin_step. set (s := sin (rad w + _)) in *. set (t := sin (rad step)) in *.
  set (c := cos (rad (w + 0.00006))) in *. assert (0 < c * c <= 1) by nra.
  assert (0.0000001 <= s * t) by nra. assert (0.0000000005 <= ratio w * (s * t)) by nra.
  set (p := ratio w * (s * t)) in *. assert (E : p / (c * c) * (c * c) = p) by (field; lra). set (q := p / (c * c)) in *. nra.
Qed.

Lemma zone_cos : forall n, (2 <= n <= 60)%Z -> 1 - cos (2 * PI / IZR n) <= 2.
Proof. intros n _. pose proof (COS_bound (2 * PI / IZR n)). lra. Qed.

(* below 5 degrees there are 59 zones *)
Lemma c59 : 0.00566 <= 1 - cos (2 * PI / 59) <= 0.00568.
Proof.
  pose proof PI_tight. pose proof (cos_low (2 * PI / 59) ltac:(lra)). pose proof (cos_high (2 * PI / 59) ltac:(lra)).
  set (x := 2 * PI / 59) in *. assert (0.106494 <= x <= 0.106495) by (unfold x; lra).
  assert (0.0113409 <= x * x <= 0.0113412) by nra.
  assert (E : x * x * x * x = (x * x) * (x * x)) by ring. rewrite E in *. set (y := x * x) in *. nra.
Qed.

Lemma low_ratio : forall w, 0 <= w <= 5 -> ratio w <= 1 - cos (2 * PI / 59) - 0.00001.
Proof.
  intros w H. pose proof (ratio_mul w ltac:(lra)) as M. pose proof a_bounds. pose proof c59. pose proof PI_tight.
  assert (R : 0 <= rad w <= 0.0873) by (unfold rad; split; nra).
  pose proof (cos_low (rad w) ltac:(lra)). pose proof (COS_bound (rad w)).
  assert (0.996 <= cos (rad w)) by (set (x := rad w) in *; nra).
  set (c := cos (rad w)) in *. assert (0.992 <= c * c <= 1) by nra. nra.
Qed.

Lemma low_zones : forall w n, 0 <= w <= 5 -> zones_at w n -> n = 59%Z.
Proof.
  intros w n H [B Z]. assert (59 <= n)%Z; [|lia]. apply Z; [lia|]. unfold within_transition.
  pose proof (low_ratio w H) as L. pose proof (ratio_mul w ltac:(lra)) as M. pose proof (cos_deg w ltac:(lra)) as C.
  rewrite <- M. set (c := cos (rad w)) in *. replace (IZR 59) with 59 by reflexivity. assert (0 < c * c) by nra. nra.
Qed.

Lemma within_ratio : forall k w, 0 <= w <= 87 -> (within_transition k w <-> ratio w <= 1 - cos (2 * PI / IZR k)).
Proof.
  intros k w H. unfold within_transition. pose proof (ratio_mul w H) as M. pose proof (cos_deg w H) as C.
  rewrite <- M. set (c := cos (rad w)) in *. assert (0 < c * c) by nra. set (d := 1 - cos (2 * PI / IZR k)). split; intros; nra.
Qed.

Lemma zones_polar' : forall w k, 87 < w <= 91 -> (2 <= k <= 59)%Z -> ~ within_transition k w.
Proof.
  intros w k H Hk W. destruct (Rle_lt_dec w 90) as [L|L].
  - revert W. apply zones_polar; [rewrite Rabs_pos_eq; lra|exact Hk].
  - apply (zones_polar (180 - w) k); [rewrite Rabs_pos_eq; lra|exact Hk|]. unfold within_transition in *.
    replace (rad (180 - w)) with (PI - rad w) by (unfold rad; lra). rewrite Rtrigo_facts.cos_pi_minus. lra.
Qed.

Lemma ratio_2 : forall w, 0 <= w <= 87 -> ratio w <= 1 - cos (2 * PI / 2).
Proof.
  intros w H. replace (2 * PI / 2) with PI by lra. rewrite cos_PI. unfold ratio. rewrite <- cos_87. pose proof PI_tight.
  assert (C : cos (rad 87) <= cos (rad w)).
  { destruct (Rle_lt_or_eq_dec _ _ (proj2 H)) as [L| ->]; [|lra]. left. apply cos_decreasing_1; unfold rad; nra. }
  pose proof (cos_deg 87 ltac:(lra)). pose proof (cos_deg w H). set (c := cos (rad w)) in *. set (d := cos (rad 87)) in *.
  apply Rmult_le_reg_r with (c * c); [nra|]. replace (d * d * 2 / (c * c) * (c * c)) with (d * d * 2) by (field; nra). nra.
Qed.

(* the margins *)
Theorem zone_margin : forall w n, 0.00096 <= w < 87 -> zones_at (w - step) n -> zones_at (w + step) n ->
  exists M, (2 <= n <= 59)%Z /\ 0.00000000000100 <= M <= 0.000000001 /\
    0.00000000000008 / (cos (rad w) * cos (rad w)) <= M / 10 /\
    1 - cos (2 * PI / IZR (n + 1)) + M <= ratio w <= 1 - cos (2 * PI / IZR n) - M /\
    0.005 <= ratio w <= 2 - 0.00006.
Proof.
  intros w n Hw Z1 Z2. pose proof PI_tight as P. pose proof a_bounds as A. unfold step in *.
  assert (N2 : (2 <= n)%Z).
  { destruct Z1 as [B Z]. apply Z; [lia|]. apply within_ratio; [lra|]. replace (2 * PI / 2) with PI by lra. rewrite cos_PI.
    unfold ratio. rewrite <- cos_87. assert (C : cos (rad 87) <= cos (rad (w - 0.00006))).
    { left. apply cos_decreasing_1; unfold rad; nra. }
    pose proof (cos_deg 87 ltac:(lra)). pose proof (cos_deg (w - 0.00006) ltac:(lra)).
    set (c := cos (rad (w - 0.00006))) in *. set (d := cos (rad 87)) in *.
    apply Rmult_le_reg_r with (c * c); [nra|]. replace (d * d * 2 / (c * c) * (c * c)) with (d * d * 2) by (field; nra). nra. }
  assert (W87 : w + 0.00006 <= 87).
  { apply Rnot_lt_le. intros G. destruct Z2 as [B Z]. apply (zones_polar (w + 0.00006) 2); [|lia|].
    - rewrite Rabs_pos_eq by lra. split; [exact G|]. lra.
    - apply Z; lia. }
  assert (Up : ratio (w + 0.00006) <= 1 - cos (2 * PI / IZR n)).
  { apply within_ratio; [lra|]. apply Z2; [|lia]. destruct Z2. lia. }
  pose proof (zone_cos n ltac:(destruct Z1; lia)) as C2.
  pose proof (ratio_low w ltac:(lra)) as RL.
  pose proof (cos_deg w ltac:(lra)) as C. pose proof (cos_deg (w + 0.00006) ltac:(lra)) as C'.
  pose proof (ratio_mul w ltac:(lra)) as RM.
  (* far from 2 *)
  assert (Far : ratio w <= 2 - 0.00006).
  { destruct (Rle_lt_dec (ratio w) 1.9) as [G|G]; [lra|].
    pose proof (ratio_diff w (w + 0.00006) ltac:(lra) ltac:(lra)) as D.
    replace (rad (w + 0.00006) - rad w) with (rad step) in D by (unfold rad, step; lra).
    set (c := cos (rad w)) in *. set (c' := cos (rad (w + 0.00006))) in *.
    assert (c * c <= 0.0029) by nra. assert (c <= 0.054) by nra.
    assert (LE : c' <= c).
    { left. apply cos_decreasing_1; unfold rad; nra. }
    assert (S0 : 0 <= sin (rad w)) by (apply sin_ge_0; unfold rad; nra).
    assert (S0' : sin (rad w) <= sin (rad (w + 0.00006))) by (left; apply sin_increasing_1; unfold rad; nra).
    pose proof (sc1 (rad w)) as SC. fold c in SC. assert (S1 : 0.99 <= sin (rad w)) by nra.
    rewrite sin_plus in D. fold c c' in D. pose proof sin_step as ST. set (t := sin (rad step)) in *.
    set (s := sin (rad w)) in *. set (s' := sin (rad (w + 0.00006))) in *.
    assert (SS : 1.98 * c' <= s * c' + c * s') by nra.
    assert (0.00000198 * c' <= (s * c' + c * s') * t) by nra.
    assert (0.00000376 * c' <= ratio w * ((s * c' + c * s') * t)) by nra.
    set (p := ratio w * ((s * c' + c * s') * t)) in *.
    assert (E : p / (c' * c') * (c' * c') = p) by (field; lra). set (q := p / (c' * c')) in *.
    assert (0.00000376 <= q * c') by nra. assert (0.00006 <= q) by nra. lra. }
  destruct (Z.eq_dec n 59) as [->|N59].
  - exists 0.000000000001. split; [lia|]. split; [lra|].
    assert (Hs : 1 - cos (2 * PI / 59) <= 0.00568) by apply c59.
    assert (RU : ratio w <= 1 - cos (2 * PI / 59) - 0.000000000001).
    { destruct (Rle_lt_dec w 4.99) as [G|G].
      - pose proof (low_ratio w ltac:(lra)). lra.
      - pose proof (ratio_step w (w + 0.00006) ltac:(lra) ltac:(unfold step; lra) ltac:(lra)). lra. }
    set (c := cos (rad w)) in *. assert (CC : 0.9 <= c * c <= 1) by nra.
    split.
    { apply Rmult_le_reg_r with (c * c); [lra|].
      replace (0.00000000000008 / (c * c) * (c * c)) with 0.00000000000008 by (field; lra). lra. }
    split; [|split; [lra|lra]]. split; [|exact RU].
    change (IZR (59 + 1)) with 60. replace (2 * PI / 60) with (PI / 30) by lra.
    assert (RW : 0.0000167 <= rad w <= 1.6) by (unfold rad; nra).
    assert (SW : 0.00001669 <= sin (rad w)).
    { destruct (Rle_lt_dec (rad w) 0.1) as [G|G].
      - pose proof (sin_low (rad w) ltac:(lra)). set (x := rad w) in *.
        assert (H1 : sin 0.0000167 <= sin x) by (apply sin_incr_1; lra). pose proof (sin_low 0.0000167 ltac:(lra)). lra.
      - assert (sin 0.1 <= sin (rad w)) by (apply sin_incr_1; unfold rad in *; nra).
        pose proof (sin_low 0.1 ltac:(lra)). lra. }
    pose proof (sc1 (rad w)) as SC. fold c in SC. set (s := sin (rad w)) in *.
    assert (0.000000000278 <= s * s) by nra. nra.
  - assert (W5 : 5 < w - 0.00006).
    { apply Rnot_le_lt. intros G. apply N59. apply (low_zones (w - 0.00006)); [lra|exact Z1]. }
    exists 0.0000000004. split; [destruct Z1; lia|]. split; [lra|]. split.
    { set (c := cos (rad w)) in *. assert (0.0025 <= c * c) by nra.
      apply Rmult_le_reg_r with (c * c); [lra|].
      replace (0.00000000000008 / (c * c) * (c * c)) with 0.00000000000008 by (field; lra). lra. }
    split; [|split; [lra|lra]].
    assert (Lo : 1 - cos (2 * PI / IZR (n + 1)) < ratio (w - 0.00006)).
    { apply Rnot_le_lt. intros G. apply <- within_ratio in G; [|lra]. apply Z1 in G; [lia|]. destruct Z1; lia. }
    pose proof (ratio_step w (w + 0.00006) ltac:(lra) ltac:(unfold step; lra) ltac:(lra)).
    pose proof (ratio_step (w - 0.00006) w ltac:(lra) ltac:(unfold step; lra) ltac:(lra)). lra.
Qed.
