(* C49-C53: the number of longitude zones computed in binary64 is the exact one away from the latitudes
   where it changes, for every accurate library. *)
From Verif Require Import GoBase.
From Verif.Model Require Import Geo.
From Coq Require Import ZArith Reals Lia Lra Psatz.
From Coq Require Import Floats.SpecFloat.
From Flocq Require Import Core.
From Verif.Spec Require Import Binary64 Cpr Geodesy MathLib.
From Verif.Proofs Require Import FloatR FloatOps CprFloat CprLocal GeoReals ZonesReal.
Local Open Scope R_scope.

Lemma litpi_about : forall n d m e,
  f64_litpi n d = S754_finite false m e -> SpecFloat.bounded 53 1024 m e = true ->
  fl (f64_litpi n d) (IZR (Zpos m) * bpow radix2 e).
Proof. intros n d m e -> B. apply (fl_literal false m e B). Qed.

Lemma pi30 : about (f64_litpi 1 30) (PI / 30) 0.000000000000001.
Proof.
  pose proof PI_tight. eexists. split; [eapply litpi_about; [vm_compute; reflexivity|reflexivity]|].
  apply Rabs_le. cbn. lra.
Qed.
Lemma pi180 : about (f64_litpi 1 180) (PI / 180) 0.00000000000000001.
Proof.
  pose proof PI_tight. eexists. split; [eapply litpi_about; [vm_compute; reflexivity|reflexivity]|].
  apply Rabs_le. cbn. lra.
Qed.
Lemma pi2 : about (f64_litpi 2 1) (2 * PI) 0.000000000000004.
Proof.
  pose proof PI_tight. eexists. split; [eapply litpi_about; [vm_compute; reflexivity|reflexivity]|].
  apply Rabs_le. cbn. lra.
Qed.

Lemma cos_lip : forall x y, Rabs (cos x - cos y) <= Rabs (x - y).
Proof.
  assert (H : forall x y, x <= y -> Rabs (cos x - cos y) <= y - x).
  { intros x y L.
    assert (E : cos x - cos y = 2 * (sin ((x + y) / 2) * sin ((y - x) / 2))).
    { replace x with ((x + y) / 2 - (y - x) / 2) at 1 by lra. replace y with ((x + y) / 2 + (y - x) / 2) at 3 by lra. rewrite cos_plus, cos_minus. ring. }
    rewrite E. rewrite Rabs_mult, (Rabs_pos_eq 2), Rabs_mult by lra.
    assert (Rabs (sin ((x + y) / 2)) <= 1) by (apply Rabs_le; pose proof (SIN_bound ((x + y) / 2)); lra).
    assert (Rabs (sin ((y - x) / 2)) <= (y - x) / 2).
    { destruct (Rle_lt_dec ((y - x) / 2) 1) as [G|G].
      - rewrite Rabs_pos_eq; [apply sin_high; lra|]. apply sin_ge_0; [lra|]. pose proof PI_tight. lra.
      - pose proof (SIN_bound ((y - x) / 2)). apply Rabs_le. lra. }
    pose proof (Rabs_pos (sin ((x + y) / 2))). pose proof (Rabs_pos (sin ((y - x) / 2))). nra. }
  intros x y. destruct (Rle_lt_dec x y) as [L|L].
  - rewrite (Rabs_minus_sym x y), (Rabs_pos_eq (y - x)) by lra. apply H. exact L.
  - rewrite (Rabs_pos_eq (x - y)), (Rabs_minus_sym (cos x)) by lra. apply H. lra.
Qed.

(* the rounding of a number of magnitude at most 4 *)
Lemma rnd_4 : forall a, Rabs a <= 4 -> Rabs (rnd a - a) <= 0.000000000000001.
Proof.
  intros a H. pose proof (rnd_err 2 a ltac:(lia) ltac:(cbn; lra)) as R. change (2 - 53)%Z with (-51)%Z in R. cbn in R. lra.
Qed.

Lemma lit1 : fl (f64_lit 1 1) 1. Proof. flc. Qed.

Lemma a_float : forall m, accurate m -> about (f64_sub (f64_lit 1 1) (m_cos m (f64_litpi 1 30))) (1 - cos (PI / 30)) 0.000000000000013.
Proof.
  intros m [Cos _]. destruct pi30 as (p & Fp & Ep). pose proof PI_tight. apply Rabs_le_inv in Ep.
  destruct (Cos _ _ Fp ltac:(apply Rabs_le; lra)) as (c & Fc & Ec).
  pose proof (cos_lip p (PI / 30)) as L.
  assert (Rabs (p - PI / 30) <= 0.000000000000001) by (apply Rabs_le; lra).
  unfold tolerance in Ec. apply Rabs_le_inv in Ec. assert (L' : Rabs (cos p - cos (PI / 30)) <= 0.000000000000001) by lra.
  apply Rabs_le_inv in L'. pose proof (COS_bound p).
  pose proof (fl_sub _ _ _ _ lit1 Fc ltac:(apply big_le, Rabs_le; lra)) as F.
  pose proof (rnd_4 (1 - c) ltac:(apply Rabs_le; lra)) as R. apply Rabs_le_inv in R.
  eexists. split; [exact F|]. apply Rabs_le. lra.
Qed.

Lemma b_float : forall m x w, accurate m -> fl x w -> 0 <= w <= 87 ->
  about (m_pow m (m_cos m (f64_mul (f64_litpi 1 180) x)) (f64_lit 2 1)) (cos (rad w) * cos (rad w)) 0.000000000000035.
Proof.
  intros m x w (Cos & Pow & _) Fx Hw. destruct pi180 as (p & Fp & Ep). pose proof PI_tight as P. apply Rabs_le_inv in Ep.
  assert (B : -2 <= p * w <= 2) by nra.
  pose proof (fl_mul _ _ _ _ Fp Fx ltac:(apply big_le, Rabs_le; lra)) as F.
  pose proof (rnd_4 (p * w) ltac:(apply Rabs_le; lra)) as R. apply Rabs_le_inv in R. set (l := rnd (p * w)) in *.
  assert (El : -0.000000000000002 <= l - rad w <= 0.000000000000002).
  { assert (p * w - rad w = (p - PI / 180) * w) by (unfold rad; field). nra. }
  assert (Rr : 0 <= rad w <= 1.6) by (unfold rad; nra).
  destruct (Cos _ _ F ltac:(apply Rabs_le; lra)) as (c & Fc & Ec).
  pose proof (cos_lip l (rad w)) as L. assert (Rabs (l - rad w) <= 0.000000000000002) by (apply Rabs_le; lra).
  assert (L' : Rabs (cos l - cos (rad w)) <= 0.000000000000002) by lra. apply Rabs_le_inv in L'.
  unfold tolerance in Ec. apply Rabs_le_inv in Ec. pose proof (COS_bound (rad w)) as Bc. set (d := cos (rad w)) in *.
  assert (Ed : -0.000000000000012 <= c - d <= 0.000000000000012) by lra.
  destruct (Pow _ _ Fc ltac:(apply Rabs_le; lra)) as (b & Fb & Eb). unfold tolerance in Eb. apply Rabs_le_inv in Eb.
  exists b. split; [exact Fb|]. apply Rabs_le.
  assert (c * c - d * d = (c - d) * (c + d)) by ring.
  assert (-0.0000000000000245 <= (c - d) * (c + d) <= 0.0000000000000245) by (split; nra). lra.
Qed.

Lemma acos_shift_le : forall y s h, -1 <= y <= 1 -> 0 <= h -> h <= s <= PI -> cos s + h <= y -> acos y <= s - h.
Proof.
  intros y s h Hy H0 Hs H. apply acos_le; [exact Hy|lra|]. pose proof (cos_lip (s - h) s) as L.
  replace (s - h - s) with (- h) in L by ring. rewrite Rabs_Ropp, (Rabs_pos_eq h H0) in L. apply Rabs_le_inv in L. lra.
Qed.

Lemma acos_shift_ge : forall y s h, -1 <= y <= 1 -> 0 <= h -> 0 <= s <= PI - h -> y <= cos s - h -> s + h <= acos y.
Proof.
  intros y s h Hy H0 Hs H. apply acos_ge; [exact Hy|lra|]. pose proof (cos_lip (s + h) s) as L.
  replace (s + h - s) with h in L by ring. rewrite (Rabs_pos_eq h H0) in L. apply Rabs_le_inv in L. lra.
Qed.

(* the zones between the equator and 87 degrees *)
Lemma zones_float : forall m x w n, accurate m -> fl x w -> 0.00096 <= w < 87 -> zones_at (w - step) n -> zones_at (w + step) n ->
  fl (f64_floor (f64_div (f64_litpi 2 1) (m_acos m (f64_sub (f64_lit 1 1)
       (f64_div (f64_sub (f64_lit 1 1) (m_cos m (f64_litpi 1 30)))
                (m_pow m (m_cos m (f64_mul (f64_litpi 1 180) x)) (f64_lit 2 1))))))) (IZR n).
Proof.
  intros m x w n Acc Fx Hw Z1 Z2.
  destruct (zone_margin w n Hw Z1 Z2) as (M & Hn & BM & EM & Rn & Rb).
  destruct (a_float m Acc) as (a & Fa & Ea). destruct (b_float m x w Acc Fx ltac:(lra)) as (b & Fb & Eb).
  pose proof (cos_deg w ltac:(lra)) as C. pose proof (ratio_mul w ltac:(lra)) as RM. pose proof a_bounds as A.
  set (b0 := cos (rad w) * cos (rad w)) in *. set (a0 := 1 - cos (PI / 30)) in *. set (t := ratio w) in *.
  assert (Bb : 0.0025 <= b0 <= 1) by (unfold b0; nra). clearbody b0 a0.
  apply Rabs_le_inv in Ea, Eb.
  (* a / b *)
  assert (Eq : 0.00000000000008 / b0 * b0 = 0.00000000000008) by (field; lra).
  set (k := 0.00000000000008 / b0) in *.
  assert (Q : a / b * b = a) by (field; lra). set (q := a / b) in *.
  assert (Dq : - (1.1 * k) <= q - t <= 1.1 * k).
  { assert ((q - t) * b = (a - a0) - t * (b - b0)) by (rewrite <- RM; lra).
    assert (Hb : 0.999 * b0 <= b) by lra.
    assert (Ht : -0.000000000000083 <= (a - a0) - t * (b - b0) <= 0.000000000000083)
      by (assert (-0.00000000000007 <= t * (b - b0) <= 0.00000000000007) by (clear - Eb Rb; split; nra); lra).
    assert (K1 : 0.0000000000000865 <= 1.1 * k * b) by (clear - Eq Hb Bb; nra). assert (B1 : 0 < b) by lra.
    split; apply Rmult_le_reg_r with b; lra. }
  pose proof (fl_div _ _ _ _ Fa Fb ltac:(lra) ltac:(apply big_le, Rabs_le; fold q; lra)) as Fq. fold q in Fq.
  pose proof (rnd_4 q ltac:(apply Rabs_le; lra)) as Rq. apply Rabs_le_inv in Rq. set (q' := rnd q) in *.
  pose proof (fl_sub _ _ _ _ lit1 Fq ltac:(apply big_le, Rabs_le; lra)) as Fy.
  pose proof (rnd_4 (1 - q') ltac:(apply Rabs_le; lra)) as Ry. apply Rabs_le_inv in Ry. set (y := rnd (1 - q')) in *.
  assert (Ey : - (M / 8) <= y - (1 - t) <= M / 8) by lra.
  destruct Acc as (_ & _ & Acos).
  destruct (Acos _ _ Fy ltac:(apply Rabs_le; lra)) as (z & Fz & Ez). unfold tolerance in Ez. apply Rabs_le_inv in Ez.
  pose proof PI_tight as P.
  assert (Nr : 2 <= IZR n <= 59) by (split; apply IZR_le; lia).
  pose proof (two_pi_n n ltac:(lia)) as S1. pose proof (two_pi_n (n + 1) ltac:(lia)) as S2.
  assert (E1 : 2 * PI / IZR n * IZR n = 2 * PI) by (field; lra). 
  assert (E2 : 2 * PI / IZR (n + 1) * (IZR n + 1) = 2 * PI) by (rewrite plus_IZR; field; lra).
  set (s1 := 2 * PI / IZR n) in *. set (s2 := 2 * PI / IZR (n + 1)) in *.
  assert (H1 : acos y <= s1 - M / 2) by (apply acos_shift_le; lra).
  assert (S3 : s2 <= 2.1) by (clear - E2 Nr P S2; nra).
  assert (H2 : s2 + M / 2 <= acos y) by (apply acos_shift_ge; lra).
  destruct pi2 as (p & Fp & Ep). apply Rabs_le_inv in Ep.
  assert (Q2 : p / z * z = p) by (field; lra).
  assert (L1 : IZR n <= p / z).
  { set (r := p / z) in *. assert (Z1' : z <= s1 - 0.00000000000048) by lra.
    assert (Z2' : IZR n * z <= 2 * PI - 0.0000000000009) by (rewrite <- E1; clear - Z1' Nr; nra).
    apply Rmult_le_reg_r with z; lra. }
  assert (L2 : p / z <= IZR n + 1 - 0.0000000000001).
  { set (r := p / z) in *.
    assert (D : 3 * 0.00000000000049 <= (IZR n + 1) * (z - s2)) by (apply Rmult_le_compat; lra).
    assert (D2 : 2 * PI + 0.000000000001 <= (IZR n + 1) * z) by (rewrite Rmult_minus_distr_l in D; lra).
    assert (z <= 3.2) by lra.
    assert (D3 : (IZR n + 1 - r) * z >= 0.0000000000009) by (rewrite Rmult_minus_distr_r; lra).
    apply Rnot_lt_le. intros G. assert (G1 : IZR n + 1 - r < 0.0000000000001) by lra.
    assert (G2 : (IZR n + 1 - r) * z <= 0.0000000000001 * z) by (apply Rmult_le_compat_r; lra). lra. }
  pose proof (fl_div _ _ _ _ Fp Fz ltac:(lra) ltac:(apply big_le, Rabs_le; lra)) as Fr.
  pose proof (fl_floor _ _ Fr) as Ff. replace (Zfloor (rnd (p / z))) with n in Ff; [exact Ff|].
  symmetry. apply Zfloor_imp. rewrite plus_IZR. set (r := p / z) in *. split.
  - rewrite <- (rnd_IZR n) by lia. apply rnd_le. exact L1.
  - pose proof (rnd_err 6 r ltac:(lia) ltac:(apply Rabs_le; cbn; lra)) as R. change (6 - 53)%Z with (-47)%Z in R. cbn in R.
    apply Rabs_le_inv in R. lra.
Qed.

(* for the positions away from the transitions *)
Theorem zones_binary64 : forall m lat n, accurate m ->
  1 / 1000 <= Rabs lat <= 90 -> (forall lat', Rabs (lat' - lat) <= 1 / 10000 -> zones_at lat' n) ->
  forall x v, fl x v -> Rabs (v - lat) <= 1 / 30000 -> fl (getNumberOfLongitude (floats m) x) (IZR n).
Proof.
  intros m lat n Acc Hl Z x v Fx Hv.
  assert (Zs : forall w, Rabs (w - Rabs lat) <= 1 / 10000 -> zones_at w n).
  { intros w Hw. destruct (Rle_lt_dec 0 lat) as [G|G].
    - apply Z. rewrite (Rabs_pos_eq lat G) in Hw. exact Hw.
    - rewrite (Rabs_left lat G) in Hw. apply <- zones_symmetric. apply Z.
      replace (- w - lat) with (- (w - - lat)) by ring. rewrite Rabs_Ropp. exact Hw. }
  assert (Hw : Rabs (Rabs v - Rabs lat) <= 1 / 30000).
  { apply Rle_trans with (2 := Hv). apply Rabs_triang_inv2. }
  apply Rabs_le_inv in Hw. set (w := Rabs v) in *.
  pose proof (Zs (w - step) ltac:(apply Rabs_le; unfold step; lra)) as Z1.
  pose proof (Zs (w + step) ltac:(apply Rabs_le; unfold step; lra)) as Z2.
  pose proof (fl_abs _ _ Fx) as Fw. fold w in Fw.
  assert (F0 : fl (f64_lit 0 1) 0) by flc. assert (F87 : fl (f64_lit 87 1) 87) by flc.
  unfold getNumberOfLongitude.
  cbn [floats num of_Z lit litpi add sub mul div ltb leb eqb floor abs max sqrt cos sin acos atan2 pow].
  rewrite (fl_eqb_R _ _ _ _ Fx F0), (fl_eqb_R _ _ _ _ Fw F87), (fl_ltb_R _ _ _ _ F87 Fw).
  destruct (Req_bool_spec v 0) as [V0|V0].
  { exfalso. assert (w = 0) by (unfold w; rewrite V0; apply Rabs_R0). lra. }
  assert (N1 : 87 < w + step -> n = 1%Z).
  { intros G. destruct Z2 as [B Zn]. destruct (Z_le_gt_dec 2 n) as [L|L]; [exfalso|lia].
    apply (zones_polar' (w + step) 2); [unfold step in *; lra|lia|]. apply Zn; lia. }
  destruct (Req_bool_spec w 87) as [W|W].
  { exfalso. assert (n = 1%Z) by (apply N1; unfold step; lra). subst n. destruct Z1 as [B Zn].
    assert (2 <= 1)%Z; [|lia]. apply Zn; [lia|]. apply within_ratio; [unfold step; lra|]. apply ratio_2. unfold step; lra. }
  destruct (Rlt_bool_spec 87 w) as [G|G].
  { rewrite (N1 ltac:(unfold step; lra)). flc. }
  apply zones_float with (w := w); auto. lra.
Qed.
