(* C54: the ground distance computed in binary64 is the great-circle distance up to a centimetre, away from
   the poles and from antipodes, for every accurate library. *)
From Verif Require Import GoBase.
From Verif.Model Require Import Geo GeoReal.
From Coq Require Import ZArith Reals Lia Lra Psatz.
From Coq Require Import Floats.SpecFloat.
From Flocq Require Import Core.
From Verif.Spec Require Import Binary64 Cpr Geodesy MathLib.
From Verif.Proofs Require Import FloatR FloatOps CprFloat CprLocal GeoReals ZonesReal ZonesFloat IdealLib.
Local Open Scope R_scope.

Definition t : R := / 50000000000000.  (* 2e-14 *)

Lemma t_sq : t * t = 1 / 2500000000000000000000000000.
Proof. unfold t. replace (2500000000000000000000000000) with (50000000000000 * 50000000000000) by (rewrite <- mult_IZR; reflexivity). field. Qed.
Lemma ten30 : 10 ^ 30 = 1000000000000000000000000000000.
Proof. change 10 with (IZR 10). rewrite pow_IZR. reflexivity. Qed.
Lemma ten40 : 10 ^ 40 = 10000000000000000000000000000000000000000.
Proof. change 10 with (IZR 10). rewrite pow_IZR. reflexivity. Qed.

Lemma abs_le : forall x y, - y <= x <= y -> Rabs x <= y.
Proof. intros. apply Rabs_le. lra. Qed.

(* a square *)
Lemma square_close : forall s s' p r, Rabs s <= r -> r <= 1 -> Rabs (s' - s) <= t ->
  Rabs (p - s' * s') <= tolerance * (s' * s') + 1 / 10 ^ 30 ->
  Rabs (p - s * s) <= 4 * t * r + 2 * (t * t).
Proof.
  intros s s' p r Hs Hr He Hp. pose proof (Rabs_pos s) as S0.
  assert (T : 0 < t) by (unfold t; lra).
  assert (A : Rabs (s' * s' - s * s) <= 2 * t * r + t * t).
  { replace (s' * s' - s * s) with (2 * (s * (s' - s)) + (s' - s) * (s' - s)) by ring.
    apply Rle_trans with (1 := Rabs_triang _ _). rewrite !Rabs_mult, (Rabs_pos_eq 2) by lra.
    pose proof (Rabs_pos (s' - s)). nra. }
  assert (B : s' * s' <= r * r + 2 * t * r + t * t).
  { assert (s * s <= r * r). { replace (s * s) with (Rabs s * Rabs s) by (rewrite <- Rabs_mult; apply Rabs_pos_eq, Rle_0_sqr). nra. }
    apply Rabs_le_inv in A. lra. }
  assert (N : 0 <= s' * s') by apply Rle_0_sqr.
  assert (C : tolerance * (s' * s') + 1 / 10 ^ 30 <= 2 * t * r + t * t).
  { assert (tolerance = t / 2) by (unfold tolerance, t; lra). rewrite H in *.
    assert (r * r <= r) by nra. assert (T2 : 1 / 10 ^ 30 <= t * t / 100) by (rewrite t_sq, ten30; lra).
    assert (t <= / 1000000) by (unfold t; lra). assert (0 <= t * r) by nra. nra. }
  replace (p - s * s) with ((p - s' * s') + (s' * s' - s * s)) by ring.
  apply Rle_trans with (1 := Rabs_triang _ _). lra.
Qed.

Lemma rnd_pos : forall x, 0 <= x -> 0 <= rnd x.
Proof.
  intros x H. replace 0 with (rnd 0) by (unfold rnd; apply round_0; auto with typeclass_instances). apply rnd_le. exact H.
Qed.

(* a rounding costs less than these *)
Lemma rnd_small : forall x, 0 <= x -> Rabs (rnd x - x) <= t / 100 * x + t * t / 100.
Proof.
  intros x H. pose proof (rnd_rel x) as R. rewrite (Rabs_pos_eq x H) in R.
  assert (/ 10 ^ 40 <= t * t / 100) by (rewrite t_sq, ten40; lra).
  assert (/ 9000000000000000 <= t / 100) by (unfold t; lra).
  nra.
Qed.

Lemma cost : forall x r, 0 < t -> t <= / 1000000 -> 0 <= r <= 1 -> x <= r + 13 * t * r + 29 * (t * t) ->
  t / 100 * x <= t * r / 2 + t * t / 2.
Proof.
  intros x r T T6 Hr X. apply Rle_trans with (t / 100 * (r + 13 * t * r + 29 * (t * t))); [apply Rmult_le_compat_l; lra|].
  assert (0 <= t * r) by (apply Rmult_le_pos; lra). assert (0 <= t * t) by (apply Rmult_le_pos; lra).
  assert (t * (t * r) <= / 1000000 * (t * r)) by (apply Rmult_le_compat_r; lra).
  assert (t * (t * t) <= / 1000000 * (t * t)) by (apply Rmult_le_compat_r; lra). lra.
Qed.

Lemma hav_close : forall s1 s2 c1 c2 r s1' s2' c1' c2' p1 p2,
  0 <= r <= 1 -> r * r = s1 * s1 + c1 * c2 * (s2 * s2) ->
  0 <= c1 <= 1 -> 0 <= c2 <= 1 -> Rabs s2 <= 1 -> (c1 + c2) * Rabs s2 <= 2 * r ->
  Rabs (s1' - s1) <= t -> Rabs (s2' - s2) <= t -> Rabs (c1' - c1) <= t -> Rabs (c2' - c2) <= t ->
  0 <= c1' -> 0 <= c2' -> 0 <= p1 -> 0 <= p2 ->
  Rabs (p1 - s1' * s1') <= tolerance * (s1' * s1') + 1 / 10 ^ 30 ->
  Rabs (p2 - s2' * s2') <= tolerance * (s2' * s2') + 1 / 10 ^ 30 ->
  let a' := rnd (p1 + rnd (rnd (c1' * c2') * p2)) in
  0 <= a' /\ Rabs (a' - r * r) <= 16 * t * r + 40 * (t * t).
Proof.
  intros s1 s2 c1 c2 r s1' s2' c1' c2' p1 p2 Hr Ha Hc1 Hc2 Hz Hid E1 E2 F1 F2 N1 N2 Q1 Q2 P1 P2.
  set (z := Rabs s2) in *. assert (Z0 : 0 <= z) by apply Rabs_pos.
  assert (Zq : s2 * s2 = z * z). { unfold z. rewrite <- Rabs_mult. rewrite Rabs_pos_eq; [reflexivity|apply Rle_0_sqr]. }
  assert (T : 0 < t) by (unfold t; lra). assert (T6 : t <= / 1000000) by (unfold t; lra).
  set (C := c1 * c2) in *. assert (C0 : 0 <= C <= 1) by (unfold C; nra).
  assert (Cs : C <= c1 + c2) by (unfold C; nra).
  (* the first square *)
  assert (S1 : Rabs s1 <= r).
  { apply Rsqr_incr_0_var; [|lra]. unfold Rsqr. rewrite <- Rabs_mult, Rabs_pos_eq by apply Rle_0_sqr.
    assert (0 <= C * (s2 * s2)) by (apply Rmult_le_pos; [lra|apply Rle_0_sqr]). lra. }
  assert (A1 : Rabs (p1 - s1 * s1) <= 4 * t * r + 2 * (t * t)) by (apply (square_close s1 s1' p1 r); [exact S1|lra|exact E1|exact P1]).
  (* the second square *)
  assert (A2 : Rabs (p2 - s2 * s2) <= 4 * t * z + 2 * (t * t)) by (apply (square_close s2 s2' p2 z); [apply Rle_refl|exact Hz|exact E2|exact P2]).
  (* the product of cosines *)
  assert (G : Rabs (c1' * c2' - C) <= t * (c1 + c2) + t * t).
  { unfold C. replace (c1' * c2' - c1 * c2) with (c1 * (c2' - c2) + c2 * (c1' - c1) + (c1' - c1) * (c2' - c2)) by ring.
    apply Rle_trans with (1 := Rabs_triang _ _). apply Rle_trans with (Rabs (c1 * (c2' - c2)) + Rabs (c2 * (c1' - c1)) + Rabs ((c1' - c1) * (c2' - c2))).
    { apply Rplus_le_compat_r, Rabs_triang. }
    rewrite !Rabs_mult, (Rabs_pos_eq c1), (Rabs_pos_eq c2) by lra.
    pose proof (Rabs_pos (c1' - c1)). pose proof (Rabs_pos (c2' - c2)). nra. }
  assert (CP : 0 <= c1' * c2') by (apply Rmult_le_pos; assumption).
  assert (F : Rabs (rnd (c1' * c2') - C) <= 2 * t * (c1 + c2) + 2 * (t * t)).
  { pose proof (rnd_small _ CP) as R. apply Rabs_le_inv in R, G. apply abs_le.
    assert (0 <= c1 + c2 <= 2) by lra. set (k := c1 + c2) in *. set (d := c1' * c2') in *.
    assert (L : d <= k + t * k + t * t) by lra.
    assert (U1 : t * (t * k) <= t * t * 2) by (rewrite <- Rmult_assoc; apply Rmult_le_compat_l; nra).
    assert (U2 : t * (t * t) <= t * t) by (rewrite <- (Rmult_1_l (t * t)) at 2; apply Rmult_le_compat_r; nra).
    assert (U3 : 0 <= t * k) by (apply Rmult_le_pos; lra). assert (U4 : 0 <= t * t) by (apply Rmult_le_pos; lra).
    assert (D : t / 100 * d <= t * k / 2 + t * t / 2).
    { apply Rle_trans with (t / 100 * (k + t * k + t * t)); [apply Rmult_le_compat_l; lra|]. lra. }
    lra. }
  set (C' := rnd (c1' * c2')) in *. assert (C'0 : 0 <= C') by (apply rnd_pos; exact CP).
  (* their product *)
  assert (M : Rabs (C' * p2 - C * (s2 * s2)) <= 8 * t * r + 25 * (t * t)).
  { set (f := C' - C) in *. set (g := p2 - s2 * s2) in *.
    replace (C' * p2 - C * (s2 * s2)) with (f * (s2 * s2) + C * g + f * g) by (unfold f, g; ring).
    apply Rle_trans with (Rabs (f * (s2 * s2)) + Rabs (C * g) + Rabs (f * g)).
    { apply Rle_trans with (1 := Rabs_triang _ _). apply Rplus_le_compat_r, Rabs_triang. }
    rewrite !Rabs_mult. fold z. rewrite (Rabs_pos_eq C) by lra.
    assert (Ha0 : 0 <= Rabs f) by apply Rabs_pos. assert (Hg0 : 0 <= Rabs g) by apply Rabs_pos.
    assert (Cz : C * z <= r).
    { apply Rsqr_incr_0_var; [|lra]. unfold Rsqr. rewrite Ha, Zq.
      assert (0 <= s1 * s1) by apply Rle_0_sqr. assert (0 <= C * (z * z)) by nra. nra. }
    assert (B1 : Rabs f * (z * z) <= 4 * t * r + 2 * (t * t)).
    { apply Rle_trans with ((2 * t * (c1 + c2) + 2 * (t * t)) * (z * z)); [apply Rmult_le_compat_r; [nra|exact F]|].
      set (k := c1 + c2) in *. assert (k * (z * z) <= 2 * r) by nra. assert (z * z <= 1) by nra. nra. }
    assert (B2 : C * Rabs g <= 4 * t * r + 2 * (t * t)).
    { apply Rle_trans with (C * (4 * t * z + 2 * (t * t))); [apply Rmult_le_compat_l; [lra|exact A2]|].
      assert (0 <= t * t) by nra. nra. }
    assert (B3 : Rabs f * Rabs g <= 20 * (t * t)).
    { apply Rle_trans with ((4 * t + 2 * (t * t)) * (4 * t + 2 * (t * t))).
      - apply Rmult_le_compat; [assumption..| |]; nra.
      - assert (0 <= t * t) by nra. nra. }
    assert (0 <= t * t) by (apply Rmult_le_pos; lra). lra. }
  assert (MP : 0 <= C' * p2) by (apply Rmult_le_pos; assumption).
  set (q := rnd (C' * p2)) in *. assert (q0 : 0 <= q) by (apply rnd_pos; exact MP).
  pose proof (rnd_small _ MP) as Rq. fold q in Rq.
  assert (Tr : 0 <= t * r) by (apply Rmult_le_pos; lra). assert (Tt : 0 <= t * t) by (apply Rmult_le_pos; lra).
  assert (K1 : C * (s2 * s2) <= r) by (assert (0 <= s1 * s1) by apply Rle_0_sqr; nra).
  assert (Mq : Rabs (q - C * (s2 * s2)) <= 9 * t * r + 27 * (t * t)).
  { apply Rabs_le_inv in Rq, M. apply abs_le. set (x := C' * p2) in *. set (y := C * (s2 * s2)) in *.
    assert (X : x <= r + 8 * t * r + 25 * (t * t)) by lra. pose proof (cost x r T T6 Hr ltac:(lra)). lra. }
  assert (SP : 0 <= p1 + q) by lra.
  split; [apply rnd_pos; exact SP|].
  pose proof (rnd_small _ SP) as Rs. rewrite Ha. apply Rabs_le_inv in Rs, Mq, A1. apply abs_le.
  assert (K2 : s1 * s1 + C * (s2 * s2) <= r) by (rewrite <- Ha; rewrite <- (Rmult_1_r r) at 3; apply Rmult_le_compat_l; lra).
  set (y := C * (s2 * s2)) in *. set (w := s1 * s1) in *. set (x := p1 + q) in *.
  assert (X : x <= r + 13 * t * r + 29 * (t * t)) by (unfold x; lra). pose proof (cost x r T T6 Hr ltac:(lra)). unfold x in *. lra.
Qed.

Lemma root_close : forall r a', 0 <= r -> 0 <= a' -> Rabs (a' - r * r) <= 16 * t * r + 40 * (t * t) ->
  Rabs (sqrt a' - r) <= 24 * t.
Proof.
  intros r a' Hr Ha H. pose proof (sqrt_pos a') as S. pose proof (sqrt_sqrt a' Ha) as Q. set (s := sqrt a') in *.
  assert (T : 0 < t) by (unfold t; lra). assert (0 < t * t) by (apply Rmult_lt_0_compat; lra).
  rewrite <- Q in H. apply Rabs_le_inv in H. apply abs_le. clearbody s. clear Q Ha a'.
  split.
  - destruct (Rle_lt_dec (r - 24 * t) s) as [L|L]; [lra|exfalso].
    assert (s * s <= s * (r - 24 * t)) by (apply Rmult_le_compat_l; lra).
    assert (s * (r - 24 * t) <= (r - 24 * t) * (r - 24 * t)) by (apply Rmult_le_compat_r; lra).
    assert (t * (24 * t) <= t * r) by (apply Rmult_le_compat_l; lra). lra.
  - destruct (Rle_lt_dec s (r + 24 * t)) as [L|L]; [lra|exfalso].
    assert ((r + 24 * t) * s <= s * s) by (apply Rmult_le_compat_r; lra).
    assert ((r + 24 * t) * (r + 24 * t) <= (r + 24 * t) * s) by (apply Rmult_le_compat_l; lra).
    assert (0 <= t * r) by (apply Rmult_le_pos; lra). lra.
Qed.

Lemma root_far : forall w W b' e, 0 < W <= w -> 0 <= b' -> Rabs (b' - w * w) <= e -> Rabs (sqrt b' - w) <= e / W.
Proof.
  intros w W b' e HW Hb H. pose proof (sqrt_pos b') as S. pose proof (sqrt_sqrt b' Hb) as Q. set (s := sqrt b') in *.
  rewrite <- Q in H. replace (s * s - w * w) with ((s - w) * (s + w)) in H by ring. rewrite Rabs_mult, (Rabs_pos_eq (s + w)) in H by lra.
  apply Rmult_le_reg_r with W; [lra|]. replace (e / W * W) with e by (field; lra).
  apply Rle_trans with (2 := H). apply Rmult_le_compat_l; [apply Rabs_pos|lra].
Qed.

Lemma atan_lip : forall x y, Rabs (atan x - atan y) <= Rabs (x - y).
Proof.
  assert (A : forall x y, x < y -> Rabs (atan y - atan x) <= Rabs (y - x)).
  { intros x y L. destruct (MVT_cor1 atan x y derivable_pt_atan L) as (c & E & _). rewrite E, Rabs_mult.
    rewrite derive_pt_atan. assert (D : 1 / (1 + c²) = / (1 + c ^ 2)) by (unfold Rsqr, Rdiv; rewrite Rmult_1_l; f_equal; ring).
    rewrite D. rewrite <- (Rmult_1_l (Rabs (y - x))) at 2. apply Rmult_le_compat_r; [apply Rabs_pos|].
    assert (1 <= 1 + c ^ 2) by nra. rewrite Rabs_pos_eq by (left; apply Rinv_0_lt_compat; lra).
    rewrite <- Rinv_1. apply Rinv_le_contravar; lra. }
  intros x y. destruct (Rtotal_order x y) as [L|[->|L]].
  - rewrite (Rabs_minus_sym (atan x)), (Rabs_minus_sym x). apply A. exact L.
  - unfold Rminus. rewrite !Rplus_opp_r. lra.
  - apply A. exact L.
Qed.

Lemma atan_diff : forall p q, 0 <= p -> 0 <= q -> Rabs (atan p - atan q) <= Rabs ((p - q) / (1 + p * q)).
Proof.
  intros p q Hp Hq. assert (N : 0 < 1 + p * q) by nra.
  assert (B : forall x, 0 <= x -> 0 <= atan x < PI / 2).
  { intros x Hx. split; [|apply atan_bound]. rewrite <- atan_0. destruct Hx as [Hx| <-]; [left; apply atan_increasing; exact Hx|lra]. }
  pose proof (B p Hp). pose proof (B q Hq).
  pose proof (atan_sub_correct p q ltac:(lra) ltac:(lra) (atan_bound _)) as E. unfold atan_sub in E.
  replace (atan p - atan q) with (atan ((p - q) / (1 + p * q))) by lra.
  pose proof (atan_lip ((p - q) / (1 + p * q)) 0) as L. rewrite atan_0, !Rminus_0_r in L. exact L.
Qed.

Lemma atan_close : forall v w v' w' e f, 0 <= v <= 1 -> 0 < w <= 1 -> v * v + w * w = 1 -> 0 <= v' -> 0 < w' ->
  Rabs (v' - v) <= e -> Rabs (w' - w) <= f -> e <= / 1000 -> f <= / 1000 ->
  Rabs (atan (v' / w') - atan (v / w)) <= 1.02 * (e + f).
Proof.
  intros v w v' w' e f Hv Hw U Hv' Hw' He Hf Le Lf.
  assert (D : 0.99 <= w' * w + v' * v).
  { replace (w' * w + v' * v) with (1 + ((w' - w) * w + (v' - v) * v)) by (rewrite <- U; ring).
    apply Rabs_le_inv in He, Hf.
    assert (- f <= (w' - w) * w) by (destruct (Rle_lt_dec 0 (w' - w)); nra).
    assert (- e <= (v' - v) * v) by (destruct (Rle_lt_dec 0 (v' - v)); nra). lra. }
  apply Rle_trans with (1 := atan_diff (v' / w') (v / w) ltac:(apply Rle_mult_inv_pos; lra) ltac:(apply Rle_mult_inv_pos; lra)).
  replace ((v' / w' - v / w) / (1 + v' / w' * (v / w))) with (((v' - v) * w - (w' - w) * v) / (w' * w + v' * v)).
  2: { field. repeat split; try lra. all: try (rewrite (Rmult_comm w w'), (Rmult_comm v v'); lra). all: nra. }
  unfold Rdiv. rewrite Rabs_mult. rewrite (Rabs_pos_eq (/ _)) by (left; apply Rinv_0_lt_compat; lra).
  assert (I : / (w' * w + v' * v) <= 1.02).
  { replace 1.02 with (/ (1 / 1.02)) by lra. apply Rinv_le_contravar; lra. }
  assert (N : Rabs ((v' - v) * w - (w' - w) * v) <= e + f).
  { unfold Rminus at 1. apply Rle_trans with (1 := Rabs_triang _ _). rewrite Rabs_Ropp, !Rabs_mult, (Rabs_pos_eq w), (Rabs_pos_eq v) by lra.
    pose proof (Rabs_pos (v' - v)). pose proof (Rabs_pos (w' - w)). nra. }
  rewrite (Rmult_comm 1.02). apply Rmult_le_compat; [apply Rabs_pos|left; apply Rinv_0_lt_compat; lra|exact N|exact I].
Qed.

Lemma big_le30 : forall r, Rabs r <= 1000000000 -> Rabs r <= big.
Proof.
  intros r H. apply Rle_trans with (1 := H). apply Rle_trans with (bpow radix2 30); [cbn; lra|]. apply bpow_le. lia.
Qed.

Lemma rnd_at : forall k a, (-900 <= k <= 40)%Z -> Rabs a <= bpow radix2 k -> exists e, rnd a = a + e /\ Rabs e <= bpow radix2 (k - 53).
Proof. intros k a Hk H. exists (rnd a - a). split; [ring|]. apply rnd_err; [lia|exact H]. Qed.

Lemma pi1 : about (f64_litpi 1 1) PI 0.000000000000001.
Proof.
  pose proof PI_tight. eexists. split; [eapply litpi_about; [vm_compute; reflexivity|reflexivity]|].
  apply Rabs_le. cbn. lra.
Qed.
Lemma lit180 : fl (f64_lit 180 1) 180. Proof. flc. Qed.
Lemma lit2 : fl (f64_lit 2 1) 2. Proof. flc. Qed.
Lemma litR : fl (f64_lit 6371000 1) 6371000. Proof. flc. Qed.

Lemma sin_lip : forall x y, Rabs (sin x - sin y) <= Rabs (x - y).
Proof.
  intros x y. rewrite <- (cos_shift x), <- (cos_shift y).
  apply Rle_trans with (1 := cos_lip _ _). rewrite Rabs_minus_sym. apply Req_le. f_equal. ring.
Qed.

(* an angle in radians *)
Lemma to_rad : forall x v B, fl x v -> Rabs v <= B -> B <= 512 ->
  exists u, fl (f64_div (f64_mul x (f64_litpi 1 1)) (f64_lit 180 1)) u /\ Rabs (u - rad v) <= 0.000000000000006.
Proof.
  intros x v B Fx Hv HB. destruct pi1 as (p & Fp & Ep). pose proof PI_tight as P. apply Rabs_le_inv in Ep, Hv.
  assert (M : -1700 <= v * p <= 1700) by nra.
  pose proof (fl_mul _ _ _ _ Fx Fp ltac:(apply big_le, Rabs_le; lra)) as F1.
  destruct (rnd_at 11 (v * p) ltac:(lia) ltac:(apply Rabs_le; cbn; lra)) as (e1 & R1 & E1).
  change (11 - 53)%Z with (-42)%Z in E1. cbn in E1. rewrite R1 in F1. apply Rabs_le_inv in E1.
  pose proof (fl_div _ _ _ _ F1 lit180 ltac:(lra) ltac:(apply big_le, Rabs_le; lra)) as F2.
  destruct (rnd_at 4 ((v * p + e1) / 180) ltac:(lia) ltac:(apply Rabs_le; cbn; lra)) as (e2 & R2 & E2).
  change (4 - 53)%Z with (-49)%Z in E2. cbn in E2. rewrite R2 in F2. apply Rabs_le_inv in E2.
  eexists. split; [exact F2|]. apply abs_le. unfold rad.
  assert (-0.00000000000052 <= v * (p - PI) <= 0.00000000000052) by nra. lra.
Qed.

(* half a difference of angles, and its sine *)
Lemma half_angle : forall m x1 x2 v1 v2, accurate_distance m -> fl x1 v1 -> fl x2 v2 -> Rabs v1 <= 180 -> Rabs v2 <= 180 ->
  exists s p,
    fl (m_sin m (f64_div (f64_div (f64_mul (f64_sub x2 x1) (f64_litpi 1 1)) (f64_lit 180 1)) (f64_lit 2 1))) s /\
    Rabs (s - sin ((rad v2 - rad v1) / 2)) <= t /\
    fl (m_pow m (m_sin m (f64_div (f64_div (f64_mul (f64_sub x2 x1) (f64_litpi 1 1)) (f64_lit 180 1)) (f64_lit 2 1))) (f64_lit 2 1)) p /\
    0 <= p /\ Rabs (p - s * s) <= tolerance * (s * s) + 1 / 10 ^ 30.
Proof.
  intros m x1 x2 v1 v2 (_ & Sin & Pow & _) F1 F2 H1 H2. apply Rabs_le_inv in H1, H2. pose proof PI_tight as P.
  pose proof (fl_sub _ _ _ _ F2 F1 ltac:(apply big_le, Rabs_le; lra)) as F3.
  destruct (rnd_at 9 (v2 - v1) ltac:(lia) ltac:(apply Rabs_le; cbn; lra)) as (e1 & R1 & E1).
  change (9 - 53)%Z with (-44)%Z in E1. cbn in E1. rewrite R1 in F3. apply Rabs_le_inv in E1.
  destruct (to_rad _ _ 361 F3 ltac:(apply Rabs_le; lra) ltac:(lra)) as (u & Fu & Eu). apply Rabs_le_inv in Eu.
  assert (Er : -0.000000000000001 <= rad (v2 - v1 + e1) - (rad v2 - rad v1) <= 0.000000000000001).
  { replace (rad (v2 - v1 + e1) - (rad v2 - rad v1)) with (PI / 180 * e1) by (unfold rad; field).
    assert (0.017 <= PI / 180 <= 0.01746) by lra. nra. }
  assert (B : -6.3 <= rad v2 - rad v1 <= 6.3).
  { replace (rad v2 - rad v1) with (PI / 180 * (v2 - v1)) by (unfold rad; field).
    assert (0.017 <= PI / 180 <= 0.017454) by lra. split; nra. }
  pose proof (fl_div _ _ _ _ Fu lit2 ltac:(lra) ltac:(apply big_le, Rabs_le; lra)) as Fh.
  destruct (rnd_at 2 (u / 2) ltac:(lia) ltac:(apply Rabs_le; cbn; lra)) as (e2 & R2 & E2).
  change (2 - 53)%Z with (-51)%Z in E2. cbn in E2. rewrite R2 in Fh. apply Rabs_le_inv in E2.
  destruct (Sin _ _ Fh ltac:(apply Rabs_le; lra)) as (s & Fs & Es).
  pose proof (sin_lip (u / 2 + e2) ((rad v2 - rad v1) / 2)) as L.
  assert (L' : Rabs (u / 2 + e2 - (rad v2 - rad v1) / 2) <= 0.000000000000006) by (apply Rabs_le; lra).
  assert (L2 := Rle_trans _ _ _ L L'). unfold tolerance in Es. apply Rabs_le_inv in Es, L2.
  pose proof (SIN_bound (u / 2 + e2)) as Sb.
  destruct (Pow _ _ Fs ltac:(apply Rabs_le; lra)) as (w & Fw & W0 & Ew).
  exists s, w. split; [exact Fs|]. split; [apply abs_le; unfold t; lra|]. split; [exact Fw|]. split; [exact W0|exact Ew].
Qed.

(* the cosine of a latitude *)
Lemma latitude_cos : forall m x v, accurate_distance m -> fl x v -> Rabs v <= 89.999 ->
  exists c, fl (m_cos m (f64_div (f64_mul x (f64_litpi 1 1)) (f64_lit 180 1))) c /\
    Rabs (c - cos (rad v)) <= t /\ 0 <= c /\ 0 <= cos (rad v) <= 1.
Proof.
  intros m x v (Cos & _) Fx Hv. destruct (to_rad _ _ _ Fx Hv ltac:(lra)) as (u & Fu & Eu). pose proof PI_tight as P.
  apply Rabs_le_inv in Eu, Hv.
  assert (B : -1.5707789 <= rad v <= 1.5707789).
  { unfold rad. split; nra. }
  destruct (Cos _ _ Fu ltac:(apply Rabs_le; lra)) as (c & Fc & Ec).
  pose proof (cos_lip u (rad v)) as L.
  assert (L' : Rabs (u - rad v) <= 0.000000000000006) by (apply Rabs_le; lra).
  assert (L2 := Rle_trans _ _ _ L L'). unfold tolerance in Ec. apply Rabs_le_inv in Ec, L2.
  assert (K : 0.00001 <= cos (rad v)).
  { rewrite <- (Rabs_pos_eq (cos (rad v))) by (apply cos_ge_0; lra).
    assert (A : Rabs (rad v) <= 1.5707789) by (apply Rabs_le; lra). pose proof (Rabs_pos (rad v)).
    replace (cos (rad v)) with (cos (Rabs (rad v))) by (unfold Rabs; destruct Rcase_abs; [apply cos_neg|reflexivity]).
    rewrite Rabs_pos_eq by (apply cos_ge_0; lra).
    set (y := Rabs (rad v)) in *. rewrite <- (sin_shift y).
    pose proof (sin_low (PI / 2 - y) ltac:(lra)) as S. set (z := PI / 2 - y) in *.
    assert (Z : 0.0000174 <= z <= 1.58) by (unfold z; lra).
    assert (z * z <= 2.5) by nra. assert (z * z * z <= 2.5 * z) by nra. lra. }
  pose proof (COS_bound (rad v)).
  exists c. split; [exact Fc|]. split; [apply abs_le; unfold t; lra|]. lra.
Qed.

(* the exact haversine, as a square *)
Lemma haversine_square : forall lat1 lon1 lat2 lon2,
  let th := angle (point lat1 lon1) (point lat2 lon2) in
  let s1 := sin ((rad lat2 - rad lat1) / 2) in let s2 := sin ((rad lon2 - rad lon1) / 2) in
  0 <= th <= PI /\
  sin (th / 2) * sin (th / 2) = s1 * s1 + cos (rad lat1) * cos (rad lat2) * (s2 * s2).
Proof.
  intros lat1 lon1 lat2 lon2 th s1 s2. split; [apply acos_bound|].
  unfold s1, s2. rewrite !sin_half_sq. unfold th, angle.
  rewrite cos_acos by (apply dot_bound; apply unit_point).
  rewrite !cos_minus. unfold dot, point. lra.
Qed.

Lemma cos_sum_bound : forall f1 f2 s2 r, Rabs s2 <= 1 -> 0 <= r ->
  r * r = sin ((f2 - f1) / 2) * sin ((f2 - f1) / 2) + cos f1 * cos f2 * (s2 * s2) ->
  (cos f1 + cos f2) * Rabs s2 <= 2 * r.
Proof.
  intros f1 f2 s2 r Hs Hr H. set (s1 := sin ((f2 - f1) / 2)) in *. set (k := cos ((f2 - f1) / 2)) in *.
  set (c := cos ((f1 + f2) / 2)) in *. set (s := sin ((f1 + f2) / 2)) in *.
  assert (E1 : cos f1 = c * k + s * s1).
  { unfold c, k, s, s1. rewrite <- cos_minus. f_equal. lra. }
  assert (E2 : cos f2 = c * k - s * s1).
  { unfold c, k, s, s1. rewrite <- cos_plus. f_equal. lra. }
  assert (U1 : s1 * s1 + k * k = 1) by apply sc1. assert (U2 : s * s + c * c = 1) by apply sc1.
  set (z := Rabs s2) in *. assert (Z0 : 0 <= z) by apply Rabs_pos.
  assert (Zq : s2 * s2 = z * z). { unfold z. rewrite <- Rabs_mult. rewrite Rabs_pos_eq; [reflexivity|apply Rle_0_sqr]. }
  assert (Pr : cos f1 * cos f2 = c * c - s1 * s1).
  { rewrite E1, E2. replace ((c * k + s * s1) * (c * k - s * s1)) with (c * c * (k * k) - s * s * (s1 * s1)) by ring.
    replace (k * k) with (1 - s1 * s1) by lra. replace (s * s) with (1 - c * c) by lra. ring. }
  rewrite Pr, Zq in H.
  assert (L : Rabs c * z <= r).
  { apply Rsqr_incr_0_var; [|exact Hr]. unfold Rsqr.
    replace (Rabs c * z * (Rabs c * z)) with (Rabs c * Rabs c * (z * z)) by ring. rewrite <- Rabs_mult, Rabs_pos_eq by apply Rle_0_sqr.
    assert (0 <= s1 * s1) by apply Rle_0_sqr. assert (z * z <= 1) by nra.
    assert (0 <= s1 * s1 * (1 - z * z)) by (apply Rmult_le_pos; lra). lra. }
  assert (K : c * k <= Rabs c).
  { apply Rle_trans with (Rabs (c * k)); [apply Rle_abs|]. rewrite Rabs_mult. rewrite <- (Rmult_1_r (Rabs c)) at 2.
    apply Rmult_le_compat_l; [apply Rabs_pos|]. apply Rabs_le. apply COS_bound. }
  rewrite E1, E2. replace ((c * k + s * s1 + (c * k - s * s1)) * z) with (2 * (c * k * z)) by ring.
  assert (c * k * z <= Rabs c * z) by (apply Rmult_le_compat_r; assumption). lra.
Qed.

Lemma sq_small : forall s, Rabs s <= 1.01 -> s * s <= 1.1.
Proof. intros s H. apply Rabs_le_inv in H. nra. Qed.

Lemma distance_gen : forall m x1 y1 x2 y2 lat1 lon1 lat2 lon2 W, accurate_distance m ->
  fl x1 lat1 -> fl y1 lon1 -> fl x2 lat2 -> fl y2 lon2 ->
  Rabs lat1 <= 89.999 -> Rabs lon1 <= 180 -> Rabs lat2 <= 89.999 -> Rabs lon2 <= 180 ->
  / 1000 <= W <= 1 -> W <= cos (angle (point lat1 lon1) (point lat2 lon2) / 2) ->
  about (ComputeGroundDistance (floats m) x1 y1 x2 y2) (earth_radius * angle (point lat1 lon1) (point lat2 lon2))
        (6371000 * ((59 + 36 / W) * t) + / 200000000).
Proof.
  intros m x1 y1 x2 y2 lat1 lon1 lat2 lon2 W A Fx1 Fy1 Fx2 Fy2 H1 H2 H3 H4 HW Hc.
  destruct (haversine_square lat1 lon1 lat2 lon2) as [Bt Eq]. set (th := angle (point lat1 lon1) (point lat2 lon2)) in *.
  destruct (half_angle m x1 x2 lat1 lat2 A Fx1 Fx2 ltac:(lra) ltac:(lra)) as (s1 & p1 & Fs1 & Es1 & Fp1 & P1 & Ep1).
  destruct (half_angle m y1 y2 lon1 lon2 A Fy1 Fy2 H2 H4) as (s2 & p2 & Fs2 & Es2 & Fp2 & P2 & Ep2).
  destruct (latitude_cos m x1 lat1 A Fx1 H1) as (c1 & Fc1 & Ec1 & C1 & K1).
  destruct (latitude_cos m x2 lat2 A Fx2 H3) as (c2 & Fc2 & Ec2 & C2 & K2).
  pose proof PI_tight as P.
  set (r := sin (th / 2)) in *. set (w := cos (th / 2)) in *.
  assert (Hr : 0 <= r <= 1) by (split; [apply sin_ge_0; lra|apply SIN_bound]).
  assert (Hw : W <= w <= 1) by (split; [exact Hc|apply COS_bound]).
  assert (U : r * r + w * w = 1) by apply sc1.
  assert (S2 : Rabs (sin ((rad lon2 - rad lon1) / 2)) <= 1) by (apply Rabs_le; pose proof (SIN_bound ((rad lon2 - rad lon1) / 2)); lra).
  pose proof (cos_sum_bound _ _ _ _ S2 (proj1 Hr) Eq) as Sum.
  destruct (hav_close _ _ _ _ _ s1 s2 c1 c2 p1 p2 Hr Eq K1 K2 S2 Sum Es1 Es2 Ec1 Ec2 C1 C2 P1 P2 Ep1 Ep2) as [A0 Ea].
  assert (T : 0 < t) by (unfold t; lra). assert (T6 : t <= / 1000000000000) by (unfold t; lra).
  set (a := rnd (p1 + rnd (rnd (c1 * c2) * p2))) in *.
  assert (Ea' : Rabs (a - r * r) <= 16.1 * t).
  { apply Rle_trans with (1 := Ea). assert (t * r <= t * 1) by (apply Rmult_le_compat_l; lra).
    assert (t * t <= t * / 1000000000000) by (apply Rmult_le_compat_l; lra). lra. }
  assert (Q1 : 0 <= r * r <= 1) by (split; [apply Rle_0_sqr|assert (0 <= w * w) by apply Rle_0_sqr; lra]).
  (* bounds on the intermediate values, for the absence of overflow *)
  assert (Bs : forall s x, Rabs (s - sin x) <= t -> s * s <= 1.1).
  { intros s x Hs. apply Rabs_le_inv in Hs. pose proof (SIN_bound x). apply sq_small. apply Rabs_le. lra. }
  assert (Bp : forall s p x, Rabs (s - sin x) <= t -> Rabs (p - s * s) <= tolerance * (s * s) + 1 / 10 ^ 30 -> p <= 1.2).
  { intros s p x Hs Hp. pose proof (Bs _ _ Hs). rewrite ten30 in Hp. unfold tolerance in Hp. apply Rabs_le_inv in Hp. lra. }
  pose proof (Bp _ _ _ Es1 Ep1) as B1. pose proof (Bp _ _ _ Es2 Ep2) as B2.
  assert (Bc : 0 <= c1 * c2 <= 1.1). { apply Rabs_le_inv in Ec1, Ec2. split; [apply Rmult_le_pos; assumption|].
    apply Rle_trans with (1.01 * 1.01); [apply Rmult_le_compat; lra|lra]. }
  assert (Bcr : 0 <= rnd (c1 * c2) <= 1.2).
  { split; [apply rnd_pos; lra|]. pose proof (rnd_4 (c1 * c2) ltac:(apply Rabs_le; lra)) as R. apply Rabs_le_inv in R. lra. }
  assert (Bm : 0 <= rnd (c1 * c2) * p2 <= 2). { split; [apply Rmult_le_pos; lra|].
    apply Rle_trans with (1.2 * 1.2); [apply Rmult_le_compat; lra|lra]. }
  assert (Bmr : 0 <= rnd (rnd (c1 * c2) * p2) <= 2.1).
  { split; [apply rnd_pos; lra|]. pose proof (rnd_4 (rnd (c1 * c2) * p2) ltac:(apply Rabs_le; lra)) as R. apply Rabs_le_inv in R. lra. }
  pose proof (fl_mul _ _ _ _ Fc1 Fc2 ltac:(apply big_le, Rabs_le; lra)) as G1.
  pose proof (fl_mul _ _ _ _ G1 Fp2 ltac:(apply big_le, Rabs_le; lra)) as G2.
  pose proof (fl_add _ _ _ _ Fp1 G2 ltac:(apply big_le, Rabs_le; lra)) as G3. fold a in G3.
  (* the two roots *)
  pose proof (root_close r a (proj1 Hr) A0 Ea) as V.
  pose proof (fl_sqrt _ _ G3 A0) as G4.
  pose proof (sqrt_pos a) as Sa. apply Rabs_le_inv in V.
  pose proof (rnd_4 (sqrt a) ltac:(apply Rabs_le; lra)) as Rv. set (v' := rnd (sqrt a)) in *.
  assert (V0 : 0 <= v') by (apply rnd_pos; lra).
  assert (Ev : Rabs (v' - r) <= 25 * t). { apply Rabs_le_inv in Rv. apply abs_le. assert (0.000000000000001 <= t) by (unfold t; lra). lra. }
  apply Rabs_le_inv in Ea'.
  pose proof (fl_sub _ _ _ _ lit1 G3 ltac:(apply big_le, Rabs_le; lra)) as G5.
  pose proof (rnd_4 (1 - a) ltac:(apply Rabs_le; lra)) as Rb. set (b := rnd (1 - a)) in *. apply Rabs_le_inv in Rb.
  assert (Eb : Rabs (b - w * w) <= 17 * t). { apply abs_le. assert (0.000000000000001 <= t / 10) by (unfold t; lra). lra. }
  assert (Wq : / 1000000 <= w * w). { replace (/ 1000000) with (/ 1000 * / 1000) by lra. apply Rmult_le_compat; lra. }
  assert (B0 : 0 <= b) by (apply Rabs_le_inv in Eb; lra).
  pose proof (root_far w W b (17 * t) ltac:(lra) B0 Eb) as Fr.
  pose proof (fl_sqrt _ _ G5 B0) as G6.
  assert (Wi : 1 <= / W <= 1000).
  { split; [rewrite <- Rinv_1; apply Rinv_le_contravar; lra|]. rewrite <- (Rinv_inv 1000). apply Rinv_le_contravar; lra. }
  assert (Wt : 17 * t / W = 17 * (t * / W)) by (unfold Rdiv; ring).
  assert (tW : t <= t * / W <= 1000 * t). { split; [rewrite <- (Rmult_1_r t) at 1; apply Rmult_le_compat_l; lra|]. rewrite (Rmult_comm 1000). apply Rmult_le_compat_l; lra. }
  rewrite Wt in Fr. apply Rabs_le_inv in Fr.
  pose proof (rnd_4 (sqrt b) ltac:(apply Rabs_le; lra)) as Rw. set (w' := rnd (sqrt b)) in *. apply Rabs_le_inv in Rw.
  assert (Ew : Rabs (w' - w) <= 17 * (t * / W) + t / 10). { apply abs_le. assert (0.000000000000001 <= t / 10) by (unfold t; lra). lra. }
  assert (W0 : 0 < w') by (apply Rabs_le_inv in Ew; lra).
  (* the angle *)
  pose proof (atan_close r w v' w' _ _ Hr ltac:(lra) U V0 W0 Ev Ew ltac:(lra) ltac:(lra)) as An.
  destruct A as (_ & _ & _ & At).
  destruct (At _ _ _ _ G4 G6 ltac:(apply Rabs_le_inv in Ev; lra) ltac:(apply Rabs_le_inv in Ew; lra)) as (q & Fq & Eqq).
  assert (Th : atan (r / w) = th / 2).
  { change (r / w) with (tan (th / 2)). apply atan_tan. split; [lra|].
    destruct (Rle_lt_dec (PI / 2) (th / 2)) as [L|L]; [|exact L].
    exfalso. assert (w <= 0) by (apply cos_le_0; lra). lra. }
  rewrite Th in An. assert (Tol : tolerance = t / 2) by (unfold tolerance, t; lra). rewrite Tol in Eqq.
  assert (Eq2 : Rabs (q - th / 2) <= 29 * t + 17.5 * (t * / W)).
  { apply Rabs_le_inv in An, Eqq. apply abs_le. lra. }
  apply Rabs_le_inv in Eq2.
  pose proof (fl_mul _ _ _ _ lit2 Fq ltac:(apply big_le, Rabs_le; lra)) as G7.
  pose proof (rnd_4 (2 * q) ltac:(apply Rabs_le; lra)) as Rc. set (c := rnd (2 * q)) in *. apply Rabs_le_inv in Rc.
  assert (Ec : Rabs (c - th) <= (59 + 36 / W) * t).
  { replace ((59 + 36 / W) * t) with (59 * t + 36 * (t * / W)) by (unfold Rdiv; ring).
    assert (0.000000000000001 <= t / 10) by (unfold t; lra). apply abs_le. lra. }
  assert (Bc' : Rabs c <= 4).
  { apply Rabs_le_inv in Ec. replace ((59 + 36 / W) * t) with (59 * t + 36 * (t * / W)) in Ec by (unfold Rdiv; ring). apply Rabs_le. lra. }
  apply Rabs_le_inv in Bc'.
  pose proof (fl_mul _ _ _ _ litR G7 ltac:(apply big_le30, Rabs_le; lra)) as G8.
  destruct (rnd_at 25 (6371000 * c) ltac:(lia) ltac:(apply Rabs_le; cbn; lra)) as (e & Re & Ee).
  change (25 - 53)%Z with (-28)%Z in Ee. cbn in Ee. apply Rabs_le_inv in Ee, Ec. rewrite Re in G8.
  exists (6371000 * c + e). split; [exact G8|]. unfold earth_radius. apply abs_le. lra.
Qed.

(* The distance computed is the distance on the sphere up to a centimetre, for positions at more than a thousandth of
   a degree of the poles and at most 20 000 km from each other (antipodes are 20 015 km apart). *)
Theorem distance_accurate : forall m x1 y1 x2 y2 lat1 lon1 lat2 lon2, accurate_distance m ->
  fl x1 lat1 -> fl y1 lon1 -> fl x2 lat2 -> fl y2 lon2 ->
  Rabs lat1 <= 89.999 -> Rabs lon1 <= 180 -> Rabs lat2 <= 89.999 -> Rabs lon2 <= 180 ->
  earth_radius * angle (point lat1 lon1) (point lat2 lon2) <= 20000000 ->
  about (ComputeGroundDistance (floats m) x1 y1 x2 y2)
        (earth_radius * angle (point lat1 lon1) (point lat2 lon2)) 0.01.
Proof.
  intros m x1 y1 x2 y2 lat1 lon1 lat2 lon2 A F1 F2 F3 F4 H1 H2 H3 H4 D.
  pose proof PI_tight as P. unfold earth_radius in D.
  pose proof (angle_bound (point lat1 lon1) (point lat2 lon2)) as B.
  eapply about_weaken; [apply (distance_gen m x1 y1 x2 y2 lat1 lon1 lat2 lon2 (/ 1000)); try assumption; [lra|]|].
  - set (th := angle (point lat1 lon1) (point lat2 lon2)) in *.
    apply Rle_trans with (cos 1.569613); [|apply cos_decr_1; lra].
    rewrite <- sin_shift. pose proof (sin_low (PI / 2 - 1.569613) ltac:(lra)) as S. set (z := PI / 2 - 1.569613) in *.
    assert (0.00118 <= z <= 0.0012) by (unfold z; lra). assert (z * z <= 0.00001) by nra. assert (z * z * z <= 0.0000001) by nra. lra.
  - unfold t. lra.
Qed.

(* and up to a tenth of a millimetre below 10 000 km *)
Theorem distance_accurate_near : forall m x1 y1 x2 y2 lat1 lon1 lat2 lon2, accurate_distance m ->
  fl x1 lat1 -> fl y1 lon1 -> fl x2 lat2 -> fl y2 lon2 ->
  Rabs lat1 <= 89.999 -> Rabs lon1 <= 180 -> Rabs lat2 <= 89.999 -> Rabs lon2 <= 180 ->
  earth_radius * angle (point lat1 lon1) (point lat2 lon2) <= 10000000 ->
  about (ComputeGroundDistance (floats m) x1 y1 x2 y2)
        (earth_radius * angle (point lat1 lon1) (point lat2 lon2)) 0.0001.
Proof.
  intros m x1 y1 x2 y2 lat1 lon1 lat2 lon2 A F1 F2 F3 F4 H1 H2 H3 H4 D.
  pose proof PI_tight as P. unfold earth_radius in D.
  pose proof (angle_bound (point lat1 lon1) (point lat2 lon2)) as B.
  eapply about_weaken; [apply (distance_gen m x1 y1 x2 y2 lat1 lon1 lat2 lon2 (1 / 2)); try assumption; [lra|]|].
  - set (th := angle (point lat1 lon1) (point lat2 lon2)) in *.
    pose proof (cos_low (th / 2) ltac:(lra)) as C. assert (0 <= th / 2 <= 0.79) by lra. set (y := th / 2) in *. nra.
  - unfold t. lra.
Qed.

(* ---- antipodes ---- *)
Lemma sqrt_negative : forall x v, fl x v -> v < 0 -> f64_sqrt x = S754_nan.
Proof.
  intros x v (b & -> & Fb & <-) H. destruct b as [s|s| |s m e Bd]; cbn in H; try lra; try discriminate Fb.
  destruct s; [reflexivity|]. exfalso. cbn [cond_Zopp] in H.
  apply (Rlt_not_le _ _ H). apply F2R_ge_0. cbn. lia.
Qed.

(* an accurate library whose sine is slightly too large *)
Definition generous : mathlib :=
  {| m_cos := m_cos ideal; m_acos := m_acos ideal; m_pow := m_pow ideal;
     m_sin := fun x => near (sin (val x) * 1.000000000000004);
     m_atan2 := fun y x => match x with S754_nan => S754_nan | _ => m_atan2 ideal y x end |}.

Lemma generous_accurate : accurate_distance generous.
Proof.
  assert (I : accurate_distance ideal) by apply ideal_accurate.
  destruct I as (C & _ & Pw & At). split; [exact C|]. split; [|split; [exact Pw|]].
  - intros x v F _. cbn [m_sin generous]. rewrite (val_fl _ _ F). pose proof (SIN_bound v) as B.
    destruct (near_about (sin v * 1.000000000000004) ltac:(apply Rabs_le; lra)) as (u & Fu & Eu).
    exists u. split; [exact Fu|]. apply Rabs_le_inv in Eu. unfold tolerance. apply Rabs_le. lra.
  - intros y x v w Fy Fx Hv Hw. cbn [m_atan2 generous]. destruct x as [s|s| |s mm e]; try (apply (At y _ v w); assumption).
    exfalso. destruct Fx as (b & E & Fb & _). destruct b; discriminate.
Qed.

Theorem distance_antipodes_refuted : exists m, accurate_distance m /\
  ComputeGroundDistance (floats m) (f64_of_Z 0) (f64_of_Z 0) (f64_of_Z 0) (f64_of_Z 180) = S754_nan.
Proof.
  exists generous. split; [apply generous_accurate|].
  assert (F0 : fl (f64_of_Z 0) 0) by (apply (fl_of_Z 0); lia).
  assert (F180 : fl (f64_of_Z 180) 180) by (apply (fl_of_Z 180); lia).
  (* the sine of a right angle *)
  set (h := f64_div (f64_div (f64_mul (f64_sub (f64_of_Z 180) (f64_of_Z 0)) (f64_litpi 1 1)) (f64_lit 180 1)) (f64_lit 2 1)).
  assert (Fh : fl h (IZR 7074237752028440 * bpow radix2 (-52))).
  { apply (fl_literal false 7074237752028440 (-52)). reflexivity. }
  pose proof PI_tight as Pi. set (hv := IZR 7074237752028440 * bpow radix2 (-52)) in *.
  assert (Hh : -0.000000000000001 <= PI / 2 - hv <= 0.000000000000001) by (unfold hv; cbn; lra).
  assert (Sh : 0.9999999999999999 <= sin hv <= 1).
  { split; [|apply SIN_bound]. rewrite <- cos_shift. pose proof (cos_low (PI / 2 - hv) ltac:(lra)) as L.
    set (z := PI / 2 - hv) in *. assert (z * z <= 0.0000000000000001) by nra. lra. }
  assert (Fs : fl (m_sin generous h) (rnd (sin hv * 1.000000000000004))).
  { cbn [m_sin generous]. rewrite (val_fl _ _ Fh). apply near_fl. apply big_le, Rabs_le. lra. }
  pose proof (rnd_4 (sin hv * 1.000000000000004) ltac:(apply Rabs_le; lra)) as R1. set (s2 := rnd (sin hv * 1.000000000000004)) in *.
  apply Rabs_le_inv in R1. assert (S2 : 1.000000000000002 <= s2 <= 1.1) by lra.
  assert (Q : 1.000000000000004 <= s2 * s2 <= 1.5) by nra.
  assert (Fp2 : fl (m_pow generous (m_sin generous h) (f64_lit 2 1)) (rnd (s2 * s2))).
  { cbn [m_pow generous ideal]. rewrite (val_fl _ _ Fs). apply near_fl. apply big_le, Rabs_le. lra. }
  pose proof (rnd_4 (s2 * s2) ltac:(apply Rabs_le; lra)) as R2. set (p2 := rnd (s2 * s2)) in *. apply Rabs_le_inv in R2.
  (* the cosine of the equator *)
  set (phi := f64_div (f64_mul (f64_of_Z 0) (f64_litpi 1 1)) (f64_lit 180 1)).
  assert (Fc : fl (m_cos generous phi) 1).
  { cbn [m_cos generous ideal]. assert (F : fl phi 0) by (apply (fl_zero false)).
    rewrite (val_fl _ _ F), cos_0. rewrite <- (fl_rnd _ _ lit1) at 2. apply near_fl. apply big_le, Rabs_le. lra. }
  pose proof (fl_mul _ _ _ _ Fc Fc ltac:(apply big_le, Rabs_le; lra)) as G1. rewrite Rmult_1_r, (fl_rnd _ _ lit1) in G1.
  pose proof (fl_mul _ _ _ _ G1 Fp2 ltac:(apply big_le, Rabs_le; lra)) as G2. rewrite Rmult_1_l, (fl_rnd _ _ Fp2) in G2.
  (* the other square is small *)
  set (z0 := f64_div (f64_div (f64_mul (f64_sub (f64_of_Z 0) (f64_of_Z 0)) (f64_litpi 1 1)) (f64_lit 180 1)) (f64_lit 2 1)) in *.
  assert (Fs1 : fl (m_sin generous z0) 0).
  { cbn [m_sin generous]. assert (F : fl z0 0) by (apply (fl_zero false)). rewrite (val_fl _ _ F), sin_0, Rmult_0_l.
    rewrite <- (fl_rnd _ _ (fl_zero false)) at 2. apply near_fl. apply big_le, Rabs_le. lra. }
  assert (Fp1' : fl (m_pow generous (m_sin generous z0) (f64_lit 2 1)) 0).
  { cbn [m_pow generous ideal]. rewrite (val_fl _ _ Fs1), Rmult_0_l.
    rewrite <- (fl_rnd _ _ (fl_zero false)) at 2. apply near_fl. apply big_le, Rabs_le. lra. }
  pose proof (fl_add _ _ _ _ Fp1' G2 ltac:(apply big_le, Rabs_le; lra)) as G3. rewrite Rplus_0_l, (fl_rnd _ _ Fp2) in G3.
  pose proof (fl_sub _ _ _ _ lit1 G3 ltac:(apply big_le, Rabs_le; lra)) as G4.
  pose proof (rnd_4 (1 - p2) ltac:(apply Rabs_le; lra)) as R3. apply Rabs_le_inv in R3.
  pose proof (sqrt_negative _ _ G4 ltac:(lra)) as N.
  unfold ComputeGroundDistance, floats.
  cbn [num of_Z lit litpi add sub mul div ltb leb eqb floor abs max Geo.sqrt Geo.cos Geo.sin Geo.acos Geo.atan2 Geo.pow].
  fold z0 h phi. rewrite N. reflexivity.
Qed.

(* a quarter of the equator *)
Theorem distance_accurate_example : forall m, accurate_distance m ->
  about (ComputeGroundDistance (floats m) (f64_of_Z 0) (f64_of_Z 0) (f64_of_Z 0) (f64_of_Z 90)) (6371000 * (PI / 2)) 0.01.
Proof.
  intros m A. rewrite <- distance_quarter. rewrite ground_distance. pose proof PI_tight as P.
  apply distance_accurate; [exact A| | | | |apply Rabs_le; lra|apply Rabs_le; lra|apply Rabs_le; lra|apply Rabs_le; lra|];
    try (apply (fl_of_Z 0); lia); try (apply (fl_of_Z 90); lia).
  rewrite <- ground_distance, distance_quarter. lra.
Qed.
