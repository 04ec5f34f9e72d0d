(* C54: the function that stands for math.Atan2 in exact arithmetic is the angle of a point of the plane. *)
From Verif Require Import GoBase.
From Verif.Model Require Import Geo GeoReal.
From Coq Require Import ZArith Reals Lia Lra Psatz.
From Flocq Require Import Core.
Local Open Scope R_scope.

Lemma polar_right : forall x y, 0 < x ->
  x = R_sqrt.sqrt (x * x + y * y) * cos (atan (y / x)) /\ y = R_sqrt.sqrt (x * x + y * y) * sin (atan (y / x)).
Proof.
  intros x y Hx. pose proof (atan_bound (y / x)) as B. set (t := atan (y / x)) in *.
  assert (C : 0 < cos t) by (apply cos_gt_0; lra).
  assert (T : sin t = y / x * cos t).
  { assert (E : tan t = y / x) by apply tan_atan. unfold tan in E. rewrite <- E. field. lra. }
  assert (Q : x * x = (x * x + y * y) * (cos t * cos t)).
  { pose proof (sin2_cos2 t) as S. unfold Rsqr in S. rewrite T in S.
    assert (K : (x * x + y * y) * (cos t * cos t) = x * x * (y / x * cos t * (y / x * cos t) + cos t * cos t)) by (field; lra).
    rewrite K, S. ring. }
  set (r := R_sqrt.sqrt (x * x + y * y)).
  assert (R0 : 0 < r) by (apply sqrt_lt_R0; nra).
  assert (R2 : r * r = x * x + y * y) by (apply sqrt_sqrt; nra).
  assert (X : x = r * cos t).
  { rewrite <- R2 in Q. assert (0 < r * cos t) by (apply Rmult_lt_0_compat; assumption). nra. }
  split; [exact X|]. rewrite T. replace (r * (y / x * cos t)) with (y / x * (r * cos t)) by ring. rewrite <- X. field. lra.
Qed.

Theorem angle_of_point : forall x y, x <> 0 \/ y <> 0 ->
  let t := Geo.atan2 reals y x in
  - PI < t <= PI /\ x = R_sqrt.sqrt (x * x + y * y) * cos t /\ y = R_sqrt.sqrt (x * x + y * y) * sin t.
Proof.
  intros x y N. cbn [Geo.atan2 reals]. cbv zeta. unfold Ratan2. pose proof PI_RGT_0 as P.
  pose proof (atan_bound (y / x)) as B.
  destruct (Rlt_bool_spec 0 x) as [L|L].
  - split; [lra|]. apply polar_right, L.
  - destruct (Rlt_bool_spec x 0) as [L'|L'].
    + destruct (polar_right (- x) (- y) ltac:(lra)) as [X Y].
      replace (- x * - x + - y * - y) with (x * x + y * y) in X, Y by ring. replace (- y / - x) with (y / x) in X, Y by (field; lra).
      set (r := R_sqrt.sqrt _) in *. set (t := atan (y / x)) in *.
      destruct (Rlt_bool_spec y 0) as [M|M].
      * assert (0 < t). { unfold t. rewrite <- atan_0. apply atan_increasing. replace (y / x) with (- y / - x) by (field; lra). apply Rdiv_lt_0_compat; lra. }
        split; [lra|]. rewrite cos_minus, sin_minus, cos_PI, sin_PI. lra.
      * assert (t <= 0). { unfold t. rewrite <- atan_0. destruct (Req_dec y 0) as [->|]. { right. f_equal. field. lra. }
          left. apply atan_increasing. replace (y / x) with (- (y / - x)) by (field; lra). assert (0 < y / - x) by (apply Rdiv_lt_0_compat; lra). lra. }
        split; [lra|]. rewrite neg_cos, neg_sin. lra.
    + assert (x = 0) as -> by lra. replace (0 * 0 + y * y) with (y * y) by ring.
      destruct (Rlt_bool_spec 0 y) as [M|M].
      * rewrite sqrt_square by lra. rewrite cos_PI2, sin_PI2. split; lra.
      * destruct (Rlt_bool_spec y 0) as [M'|M']; [|exfalso; destruct N; lra].
        replace (y * y) with (- y * - y) by ring. rewrite sqrt_square by lra. rewrite cos_neg, sin_neg, cos_PI2, sin_PI2. split; lra.
Qed.

(* the south-west *)
Example south_west : Geo.atan2 reals (-1) (-1) = - (3 * (PI / 4)).
Proof.
  cbn [Geo.atan2 reals]. unfold Ratan2. rewrite Rlt_bool_false by lra. rewrite Rlt_bool_true by lra.
  replace (-1 / -1) with 1 by lra. rewrite atan_1. lra.
Qed.
