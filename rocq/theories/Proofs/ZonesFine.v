(* C107: the number of longitude zones computed in binary64 is the exact one down to 3.5e-8 degree of the latitudes
   where it changes; and no latitude an airborne position message stands for is closer than that, but 87 degrees itself. *)
From Verif Require Import GoBase.
From Verif.Model Require Import Geo.
From Coq Require Import ZArith Reals Lia Lra Psatz List.
From Coq Require Import Floats.SpecFloat.
From Flocq Require Import Core.
From Verif.Spec Require Import Binary64 Cpr Geodesy MathLib ZoneTable Precise Sent.
From Verif.Proofs Require Import FloatR FloatOps CprFloat CprLocal GeoReals ZonesReal ZonesFloat ZoneTable.
Import ListNotations.
Local Open Scope R_scope.

Definition dd : R := 0.000000035.

Lemma sin_dd : 0.00000000061 <= sin (rad dd).
Proof.
  pose proof PI_tight. assert (B : 0.00000000061086 <= rad dd <= 0.00000000062) by (unfold rad, dd; lra).
  pose proof (sin_low (rad dd) ltac:(lra)). set (x := rad dd) in *.
  assert (x * x <= 0.000001) by nra. assert (x * x * x <= 0.000001 * x) by nra. lra.
Qed.

Lemma low_ratio10 : forall w, 0 <= w <= 10 -> ratio w <= 1 - cos (2 * PI / 59) - 0.000005.
Proof.
  intros w H. pose proof (ratio_mul w ltac:(lra)) as M. pose proof PI_tight as P.
  assert (A : 1 - cos (PI / 30) <= 0.0054784).
  { pose proof (cos_low (PI / 30) ltac:(lra)) as C0. pose proof (cos_high (PI / 30) ltac:(lra)) as C.
    assert (L : forall x, 0 <= x <= 1 -> 1 - x * x / 2 + x * x * x * x / 24 - x * x * x * x * x * x / 720 <= cos x).
    { intros x Hx. destruct (pre_cos_bound x 1 ltac:(lra) ltac:(lra)) as [L _].
      unfold cos_approx, cos_term in L. cbn [sum_f_R0 Nat.mul Nat.add pow fact] in L. rewrite !INR_IZR_INZ in L. cbn in L. lra. }
    specialize (L (PI / 30) ltac:(lra)). set (x := PI / 30) in *. assert (0.1047197 <= x <= 0.1047198) by (unfold x; lra).
    assert (0.0109662 <= x * x <= 0.0109663) by nra.
    replace (x * x * x * x * x * x) with (x * x * (x * x) * (x * x)) in L by ring.
    replace (x * x * x * x) with (x * x * (x * x)) in L by ring. set (y := x * x) in *.
    assert (0.00012 <= y * y <= 0.0001203) by nra. assert (0 <= y * y * y <= 0.0000014) by nra. lra. }
  assert (C59 : 0.005665 <= 1 - cos (2 * PI / 59)).
  { pose proof (cos_high (2 * PI / 59) ltac:(lra)) as C. set (x := 2 * PI / 59) in *. assert (0.1064946 <= x <= 0.1064947) by (unfold x; lra).
    assert (0.01134109 <= x * x <= 0.01134113) by nra. replace (x * x * x * x) with (x * x * (x * x)) in C by ring. set (y := x * x) in *.
    assert (y * y <= 0.0001287) by nra. lra. }
  assert (R : 0 <= rad w <= 0.174533) by (unfold rad; split; nra).
  pose proof (cos_low (rad w) ltac:(lra)). pose proof (COS_bound (rad w)).
  assert (0.984769 <= cos (rad w)) by (set (x := rad w) in *; nra).
  set (c := cos (rad w)) in *. assert (0.96976 <= c * c <= 1) by nra. nra.
Qed.

Lemma low_zones10 : forall w n, 0 <= w <= 10 -> zones_at w n -> n = 59%Z.
Proof.
  intros w n H [B Z]. assert (59 <= n)%Z; [|lia]. apply Z; [lia|]. unfold within_transition.
  pose proof (low_ratio10 w H) as L. pose proof (ratio_mul w ltac:(lra)) as M. pose proof (cos_deg w ltac:(lra)) as C.
  rewrite <- M. set (c := cos (rad w)) in *. replace (IZR 59) with 59 by reflexivity. assert (0 < c * c) by nra. nra.
Qed.

(* a small step further from the equator, from 10 degrees on *)
Lemma fine_step : forall w w', 9.9 <= w -> w' = w + dd -> w' <= 87 ->
  0.00000000000114 <= (ratio w' - ratio w) * (cos (rad w') * cos (rad w')) /\ 0 < cos (rad w') <= cos (rad w).
Proof.
  intros w w' H -> H'. unfold dd in *. rewrite ratio_diff by lra.
  pose proof (ratio_mul w ltac:(lra)) as RM. pose proof a_bounds as A. pose proof PI_tight as P.
  pose proof (cos_deg (w + 0.000000035) ltac:(lra)) as C'. pose proof (cos_deg w ltac:(lra)) as C.
  replace (rad (w + 0.000000035) - rad w) with (rad dd) by (unfold rad, dd; lra).
  assert (LE : cos (rad (w + 0.000000035)) <= cos (rad w)) by (left; apply cos_decreasing_1; unfold rad; nra).
  assert (S0 : 0.1718 <= sin (rad w)).
  { pose proof (sin_low 0.1727 ltac:(lra)). assert (sin 0.1727 <= sin (rad w)); [|lra]. left. apply sin_increasing_1; unfold rad; nra. }
  assert (S1 : sin (rad w) <= sin (rad (w + 0.000000035))) by (left; apply sin_increasing_1; unfold rad; nra).
  assert (LI : cos (rad w) - cos (rad (w + 0.000000035)) <= 0.000000001).
  { pose proof (cos_lip (rad w) (rad (w + 0.000000035))) as L. pose proof (Rle_abs (cos (rad w) - cos (rad (w + 0.000000035)))).
    replace (rad w - rad (w + 0.000000035)) with (- (rad 0.000000035)) in L by (unfold rad; field).
    rewrite Rabs_Ropp, (Rabs_pos_eq (rad 0.000000035)) in L by (unfold rad; nra). assert (rad 0.000000035 <= 0.000000001) by (unfold rad; lra). lra. }
  rewrite sin_plus. pose proof sin_dd as D. set (t := sin (rad dd)) in *. set (c := cos (rad w)) in *. set (c' := cos (rad (w + 0.000000035))) in *.
  set (s := sin (rad w)) in *. set (s' := sin (rad (w + 0.000000035))) in *. set (q := ratio w) in *.
  replace (q * ((s * c' + c * s') * t) / (c' * c') * (c' * c')) with (q * (s * c' + c * s') * t) by (field; lra).
  clearbody t c c' s s' q. split; [|lra].
  assert (K : 0.999 * c <= c') by lra.
  assert (Q : 0.00546 <= q * c').
  { assert (0 < q) by nra. assert (q * c * 0.999 <= q * c') by nra. assert (0.00547 <= q * c) by nra. lra. }
  assert (Q2 : 2 * s * (q * c') <= q * (s * c' + c * s')) by (assert (0 < q) by nra; assert (s * c' <= c * s') by nra; nra).
  assert (Q3 : 0.00187 <= q * (s * c' + c * s')) by nra. nra.
Qed.

(* the margins *)
Lemma fine_margin : forall w n, 0.00096 <= w <= 87 - 0.000012 -> zones_at (w - dd) n -> zones_at (w + dd) n ->
  exists M, (2 <= n <= 59)%Z /\ 0.000000000001 <= M <= 0.000000001 /\
    0.00000000000008 / (cos (rad w) * cos (rad w)) <= M / 10 /\
    1 - cos (2 * PI / IZR (n + 1)) + M <= ratio w <= 1 - cos (2 * PI / IZR n) - M /\
    0.005 <= ratio w <= 2 - 0.000012.
Proof.
  intros w n Hw Z1 Z2. pose proof PI_tight as P. pose proof a_bounds as A. unfold dd in *.
  assert (N2 : (2 <= n)%Z).
  { destruct Z1 as [B Z]. apply Z; [lia|]. apply within_ratio; [lra|]. apply ratio_2. lra. }
  assert (Up : ratio (w + 0.000000035) <= 1 - cos (2 * PI / IZR n)).
  { apply within_ratio; [lra|]. apply Z2; [|lia]. destruct Z2. lia. }
  pose proof (zone_cos n ltac:(destruct Z1; lia)) as C2.
  pose proof (ratio_low w ltac:(lra)) as RL.
  pose proof (cos_deg w ltac:(lra)) as C. pose proof (cos_deg 87 ltac:(lra)) as C'.
  pose proof (ratio_mul w ltac:(lra)) as RM.
  (* far from 2 *)
  assert (Far : ratio w <= 2 - 0.000012).
  { destruct (Rle_lt_dec (ratio w) 1.99) as [G|G]; [lra|].
    assert (R87 : ratio 87 = 2).
    { pose proof (ratio_mul 87 ltac:(lra)) as R. rewrite <- cos_87 in R. set (c := cos (rad 87)) in *.
      assert (0 < c * c) by nra. assert ((ratio 87 - 2) * (c * c) = 0) by lra. nra. }
    pose proof (ratio_diff w 87 ltac:(lra) ltac:(lra)) as D. rewrite R87 in D.
    assert (ST : 0.000000209 <= sin (rad 87 - rad w)).
    { replace (rad 87 - rad w) with (rad (87 - w)) by (unfold rad; field).
      assert (B : 0.0000002094 <= rad (87 - w)) by (unfold rad; nra). assert (B2 : rad (87 - w) <= PI / 2) by (unfold rad; nra).
      pose proof (sin_low 0.0000002094 ltac:(lra)). assert (sin 0.0000002094 <= sin (rad (87 - w))) by (apply sin_incr_1; lra). lra. }
    set (c := cos (rad w)) in *. set (c' := cos (rad 87)) in *.
    assert (CC : c' * c' * 2 = 1 - cos (PI / 30)) by apply cos_87.
    assert (c * c <= 0.00276) by nra. assert (c <= 0.053) by nra. assert (c' <= 0.0524) by nra.
    assert (LE : c' <= c) by (left; apply cos_decreasing_1; unfold rad; nra).
    assert (S0 : 0 <= sin (rad w)) by (apply sin_ge_0; unfold rad; nra).
    assert (S0' : sin (rad w) <= sin (rad 87)) by (left; apply sin_increasing_1; unfold rad; nra).
    pose proof (sc1 (rad w)) as SC. fold c in SC. assert (S1 : 0.99 <= sin (rad w)) by nra.
    rewrite sin_plus in D. fold c c' in D. set (t := sin (rad 87 - rad w)) in *.
    set (s := sin (rad w)) in *. set (s' := sin (rad 87)) in *.
    assert (SS : 1.98 * c' <= s * c' + c * s') by nra.
    assert (0.000000413 * c' <= (s * c' + c * s') * t) by nra.
    assert (0.00000082 * c' <= ratio w * ((s * c' + c * s') * t)) by nra.
    set (p := ratio w * ((s * c' + c * s') * t)) in *.
    assert (E : p / (c' * c') * (c' * c') = p) by (field; lra). set (q := p / (c' * c')) in *.
    assert (0.00000082 <= q * c') by nra. assert (0.000015 <= q) by nra. lra. }
  destruct (Z.eq_dec n 59) as [->|N59].
  - exists 0.000000000001. split; [lia|]. split; [lra|].
    assert (Hs : 1 - cos (2 * PI / 59) <= 0.00568) by apply c59.
    assert (RU : ratio w <= 1 - cos (2 * PI / 59) - 0.000000000001).
    { destruct (Rle_lt_dec w 10) as [G|G].
      - pose proof (low_ratio10 w ltac:(lra)). lra.
      - destruct (fine_step w (w + 0.000000035) ltac:(lra) ltac:(unfold dd; lra) ltac:(lra)) as [F1 F2].
        set (c := cos (rad (w + 0.000000035))) in *. set (d := ratio (w + 0.000000035) - ratio w) in *.
        assert (D1 : 0 < c * c <= 1) by (pose proof (COS_bound (rad (w + 0.000000035))); unfold c in *; split; nra).
        assert (D2 : 0.00000000000114 <= d) by nra. unfold d in D2. lra. }
    set (c := cos (rad w)) in *. assert (CC : 0.9 <= c * c <= 1) by nra.
    split.
    { apply Rmult_le_reg_r with (c * c); [lra|].
      replace (0.00000000000008 / (c * c) * (c * c)) with 0.00000000000008 by (field; lra). lra. }
    split; [|split; [lra|lra]]. split; [|exact RU].
    change (IZR (59 + 1)) with 60. replace (2 * PI / 60) with (PI / 30) by lra.
    assert (RW : 0.0000167 <= rad w <= 1.6) by (unfold rad; nra).
    assert (SW : 0.00001669 <= sin (rad w)).
    { destruct (Rle_lt_dec (rad w) 0.1) as [G|G].
      - pose proof (sin_low (rad w) ltac:(lra)). set (x := rad w) in *.
        assert (H1 : sin 0.0000167 <= sin x) by (apply sin_incr_1; lra). pose proof (sin_low 0.0000167 ltac:(lra)). lra.
      - assert (sin 0.1 <= sin (rad w)) by (apply sin_incr_1; unfold rad in *; nra).
        pose proof (sin_low 0.1 ltac:(lra)). lra. }
    pose proof (sc1 (rad w)) as SC. fold c in SC. set (s := sin (rad w)) in *.
    assert (0.000000000278 <= s * s) by nra. nra.
  - assert (W5 : 10 < w - 0.000000035).
    { apply Rnot_le_lt. intros G. apply N59. apply (low_zones10 (w - 0.000000035)); [lra|exact Z1]. }
    assert (Lo : 1 - cos (2 * PI / IZR (n + 1)) < ratio (w - 0.000000035)).
    { apply Rnot_le_lt. intros G. apply <- within_ratio in G; [|lra]. apply Z1 in G; [lia|]. destruct Z1; lia. }
    destruct (fine_step w (w + 0.000000035) ltac:(lra) ltac:(unfold dd; lra) ltac:(lra)) as [F1 F2].
    destruct (fine_step (w - 0.000000035) w ltac:(lra) ltac:(unfold dd; lra) ltac:(lra)) as [F3 _].
    set (c' := cos (rad (w + 0.000000035))) in *. set (c := cos (rad w)) in *.
    assert (CC : 0.0025 <= c * c <= 1) by nra. assert (CL : c' * c' <= c * c) by nra.
    exists (0.0000000000011 / (c * c)).
    assert (EM : 0.0000000000011 / (c * c) * (c * c) = 0.0000000000011) by (field; lra).
    assert (EK : 0.00000000000008 / (c * c) * (c * c) = 0.00000000000008) by (field; lra).
    set (M := 0.0000000000011 / (c * c)) in *. set (k := 0.00000000000008 / (c * c)) in *.
    assert (BM : 0.000000000001 <= M <= 0.000000001) by (split; nra).
    split; [destruct Z1; lia|]. split; [exact BM|]. split; [nra|].
    assert (D1 : M <= ratio (w + 0.000000035) - ratio w).
    { set (d := ratio (w + 0.000000035) - ratio w) in *. clearbody d.
      assert (C0 : 0 < c' * c') by nra. assert (D0 : 0 <= d) by (clear - F1 C0; nra).
      apply Rmult_le_reg_r with (c * c); [lra|]. rewrite EM. apply Rle_trans with (d * (c' * c')); [lra|]. apply Rmult_le_compat_l; assumption. }
    assert (D2 : M <= ratio w - ratio (w - 0.000000035)).
    { set (d := ratio w - ratio (w - 0.000000035)) in *. clearbody d. apply Rmult_le_reg_r with (c * c); lra. }
    split; [split; lra|split; lra].
Qed.

Lemma sharp_precise : forall m, sharp m -> precise m.
Proof. intros m (C & P & A). split; [exact C|]. split; [exact P|]. intros x v F B. apply A; [exact F|]. lra. Qed.

Lemma sharp_accurate : forall m, sharp m -> accurate m.
Proof.
  intros m (C & P & A). split; [|split]; intros x v Fx Hv.
  - apply about_weaken with fine; [auto|]. unfold fine, tolerance. lra.
  - apply about_weaken with fine; [auto|]. unfold fine, tolerance. lra.
  - apply A; [exact Fx|]. lra.
Qed.

(* what the margins of a latitude must be *)
Definition margins (w : R) (n : Z) : Prop :=
  exists M, (2 <= n <= 59)%Z /\ 0.000000000001 <= M <= 0.000000001 /\
    0.00000000000008 / (cos (rad w) * cos (rad w)) <= M / 10 /\
    1 - cos (2 * PI / IZR (n + 1)) + M <= ratio w <= 1 - cos (2 * PI / IZR n) - M /\
    0.005 <= ratio w <= 2 - 0.000012.

(* the zones between the equator and 87 degrees *)
Lemma zones_margins : forall m x w n, sharp m -> fl x w -> 0.00096 <= w <= 87 - 0.000012 -> margins w n ->
  fl (f64_floor (f64_div (f64_litpi 2 1) (m_acos m (f64_sub (f64_lit 1 1)
       (f64_div (f64_sub (f64_lit 1 1) (m_cos m (f64_litpi 1 30)))
                (m_pow m (m_cos m (f64_mul (f64_litpi 1 180) x)) (f64_lit 2 1))))))) (IZR n).
Proof.
  intros m x w n Sh Fx Hw (M & Hn & BM & EM & Rn & Rb). pose proof (sharp_accurate m Sh) as Acc.
  destruct (a_float m Acc) as (a & Fa & Ea). destruct (b_float m x w Acc Fx ltac:(lra)) as (b & Fb & Eb).
  pose proof (cos_deg w ltac:(lra)) as C. pose proof (ratio_mul w ltac:(lra)) as RM. pose proof a_bounds as A.
  set (b0 := cos (rad w) * cos (rad w)) in *. set (a0 := 1 - cos (PI / 30)) in *. set (t := ratio w) in *.
  assert (Bb : 0.0025 <= b0 <= 1) by (unfold b0; nra). clearbody b0 a0.
  apply Rabs_le_inv in Ea, Eb.
  (* a / b *)
  assert (Eq : 0.00000000000008 / b0 * b0 = 0.00000000000008) by (field; lra).
  set (k := 0.00000000000008 / b0) in *.
  assert (Q : a / b * b = a) by (field; lra). set (q := a / b) in *.
  assert (Dq : - (1.1 * k) <= q - t <= 1.1 * k).
  { assert ((q - t) * b = (a - a0) - t * (b - b0)) by (rewrite <- RM; lra).
    assert (Hb : 0.999 * b0 <= b) by lra.
    assert (Ht : -0.000000000000083 <= (a - a0) - t * (b - b0) <= 0.000000000000083)
      by (assert (-0.00000000000007 <= t * (b - b0) <= 0.00000000000007) by (clear - Eb Rb; split; nra); lra).
    assert (K1 : 0.0000000000000865 <= 1.1 * k * b) by (clear - Eq Hb Bb; nra). assert (B1 : 0 < b) by lra.
    split; apply Rmult_le_reg_r with b; lra. }
  pose proof (fl_div _ _ _ _ Fa Fb ltac:(lra) ltac:(apply big_le, Rabs_le; fold q; lra)) as Fq. fold q in Fq.
  pose proof (rnd_4 q ltac:(apply Rabs_le; lra)) as Rq. apply Rabs_le_inv in Rq. set (q' := rnd q) in *.
  pose proof (fl_sub _ _ _ _ lit1 Fq ltac:(apply big_le, Rabs_le; lra)) as Fy.
  pose proof (rnd_4 (1 - q') ltac:(apply Rabs_le; lra)) as Ry. apply Rabs_le_inv in Ry. set (y := rnd (1 - q')) in *.
  assert (Ey : - (M / 8) <= y - (1 - t) <= M / 8) by lra.
  destruct Sh as (_ & _ & Acos).
  destruct (Acos _ _ Fy ltac:(apply Rabs_le; lra)) as (z & Fz & Ez). unfold tolerance in Ez. apply Rabs_le_inv in Ez.
  pose proof PI_tight as P.
  assert (Nr : 2 <= IZR n <= 59) by (split; apply IZR_le; lia).
  pose proof (two_pi_n n ltac:(lia)) as S1. pose proof (two_pi_n (n + 1) ltac:(lia)) as S2.
  assert (E1 : 2 * PI / IZR n * IZR n = 2 * PI) by (field; lra). 
  assert (E2 : 2 * PI / IZR (n + 1) * (IZR n + 1) = 2 * PI) by (rewrite plus_IZR; field; lra).
  set (s1 := 2 * PI / IZR n) in *. set (s2 := 2 * PI / IZR (n + 1)) in *.
  assert (H1 : acos y <= s1 - M / 2) by (apply acos_shift_le; lra).
  assert (S3 : s2 <= 2.1) by (clear - E2 Nr P S2; nra).
  assert (H2 : s2 + M / 2 <= acos y) by (apply acos_shift_ge; lra).
  destruct pi2 as (p & Fp & Ep). apply Rabs_le_inv in Ep.
  assert (Q2 : p / z * z = p) by (field; lra).
  assert (L1 : IZR n <= p / z).
  { set (r := p / z) in *. assert (Z1' : z <= s1 - 0.00000000000048) by lra.
    assert (Z2' : IZR n * z <= 2 * PI - 0.0000000000009) by (rewrite <- E1; clear - Z1' Nr; nra).
    apply Rmult_le_reg_r with z; lra. }
  assert (L2 : p / z <= IZR n + 1 - 0.0000000000001).
  { set (r := p / z) in *.
    assert (D : 3 * 0.00000000000049 <= (IZR n + 1) * (z - s2)) by (apply Rmult_le_compat; lra).
    assert (D2 : 2 * PI + 0.000000000001 <= (IZR n + 1) * z) by (rewrite Rmult_minus_distr_l in D; lra).
    assert (z <= 3.2) by lra.
    assert (D3 : (IZR n + 1 - r) * z >= 0.0000000000009) by (rewrite Rmult_minus_distr_r; lra).
    apply Rnot_lt_le. intros G. assert (G1 : IZR n + 1 - r < 0.0000000000001) by lra.
    assert (G2 : (IZR n + 1 - r) * z <= 0.0000000000001 * z) by (apply Rmult_le_compat_r; lra). lra. }
  pose proof (fl_div _ _ _ _ Fp Fz ltac:(lra) ltac:(apply big_le, Rabs_le; lra)) as Fr.
  pose proof (fl_floor _ _ Fr) as Ff. replace (Zfloor (rnd (p / z))) with n in Ff; [exact Ff|].
  symmetry. apply Zfloor_imp. rewrite plus_IZR. set (r := p / z) in *. split.
  - rewrite <- (rnd_IZR n) by lia. apply rnd_le. exact L1.
  - pose proof (rnd_err 6 r ltac:(lia) ltac:(apply Rabs_le; cbn; lra)) as R. change (6 - 53)%Z with (-47)%Z in R. cbn in R.
    apply Rabs_le_inv in R. lra.
Qed.

Lemma zones_fine : forall m x w n, sharp m -> fl x w -> 0.00096 <= w <= 87 - 0.000012 -> zones_at (w - dd) n -> zones_at (w + dd) n ->
  fl (f64_floor (f64_div (f64_litpi 2 1) (m_acos m (f64_sub (f64_lit 1 1)
       (f64_div (f64_sub (f64_lit 1 1) (m_cos m (f64_litpi 1 30)))
                (m_pow m (m_cos m (f64_mul (f64_litpi 1 180) x)) (f64_lit 2 1))))))) (IZR n).
Proof.
  intros m x w n Sh Fx Hw Z1 Z2. apply zones_margins with w; auto. exact (fine_margin w n Hw Z1 Z2).
Qed.
