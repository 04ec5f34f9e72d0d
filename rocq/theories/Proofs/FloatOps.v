(* More on binary64: comparisons, math.Floor, math.Abs, math.Max, errors of rounding. *)
From Verif Require Import GoBase.
From Coq Require Import ZArith Reals Lia Lra Psatz.
From Coq Require Import Floats.SpecFloat.
From Flocq Require Import Core BinarySingleNaN Sterbenz.
From Verif.Proofs Require Import FloatR.
From Verif.Model Require Import Geo.
Local Open Scope Z_scope.

Lemma fl_ltb_R : forall x y a b, fl x a -> fl y b -> fl_ltb x y = Rlt_bool a b.
Proof.
  intros x y a b (u & -> & Fu & <-) (v & -> & Fv & <-). rewrite <- (Bltb_correct P E u v Fu Fv). reflexivity.
Qed.

Lemma fl_leb_R : forall x y a b, fl x a -> fl y b -> fl_leb x y = Rle_bool a b.
Proof.
  intros x y a b (u & -> & Fu & <-) (v & -> & Fv & <-). rewrite <- (Bleb_correct P E u v Fu Fv). reflexivity.
Qed.

Lemma fl_eqb_R : forall x y a b, fl x a -> fl y b -> fl_eqb x y = Req_bool a b.
Proof.
  intros x y a b (u & -> & Fu & <-) (v & -> & Fv & <-). rewrite <- (Beqb_correct P E u v Fu Fv). reflexivity.
Qed.

Lemma fl_abs : forall x a, fl x a -> fl (f64_abs x) (Rabs a).
Proof.
  intros x a (u & -> & Fu & <-). exists (Babs u). split; [destruct u; reflexivity|].
  split; [rewrite is_finite_Babs; exact Fu|apply B2R_Babs].
Qed.

Lemma fl_max : forall x y a b, fl x a -> fl y b -> fl (f64_max x y) (Rmax a b).
Proof.
  intros x y a b Hx Hy. pose proof (fl_ltb_R y x b a Hy Hx) as L.
  assert (G : fl (if fl_ltb y x then x else y) (Rmax a b)).
  { rewrite L. destruct (Rlt_bool_spec b a).
    - rewrite Rmax_left by lra. exact Hx.
    - rewrite Rmax_right by lra. exact Hy. }
  unfold f64_max.
  destruct Hx as (u & -> & Fu & Ru), Hy as (v & -> & Fv & Rv).
  destruct u as [s|s| |s m e B]; try discriminate Fu; destruct v as [s'|s'| |s' m' e' B']; try discriminate Fv;
    cbn [B2SF] in *; try exact G.
  cbn [B2R] in *. subst. rewrite Rmax_left by lra. destruct s; apply fl_zero.
Qed.

Lemma bounded_lt : forall m e, SpecFloat.bounded P E m e = true -> Zpos m < 2 ^ 53.
Proof.
  intros m e H. apply andb_prop in H as [H _]. unfold SpecFloat.canonical_mantissa in H. apply Zeq_bool_eq in H. unfold SpecFloat.fexp, SpecFloat.emin in H.
  rewrite Digits.Zpos_digits2_pos in H.
  assert (D : Digits.Zdigits radix2 (Zpos m) <= 53) by lia.
  pose proof (Digits.Zpower_gt_Zdigits radix2 53 (Zpos m) D) as Q. cbn [Z.abs] in Q. exact Q.
Qed.

Lemma fl_floor : forall x a, fl x a -> fl (f64_floor x) (IZR (Zfloor a)).
Proof.
  intros x a (u & -> & Fu & <-). destruct u as [s|s| |s m e B]; try discriminate Fu; cbn [B2SF f64_floor B2R].
  - rewrite (Zfloor_IZR 0). apply fl_zero.
  - destruct (Z.leb_spec 0 e) as [He|He].
    + unfold F2R; cbn [Fnum Fexp]. rewrite <- (IZR_Zpower radix2) by lia. rewrite <- mult_IZR, Zfloor_IZR, mult_IZR.
      rewrite (IZR_Zpower radix2) by lia. apply fl_literal. exact B.
    + assert (X : Zfloor (F2R (Float radix2 (cond_Zopp s (Zpos m)) e)) = (if s then Zneg m else Zpos m) / 2 ^ (- e)).
      { rewrite <- Zfloor_div by lia. f_equal. unfold F2R; cbn [Fnum Fexp]. unfold Rdiv.
        replace (cond_Zopp s (Zpos m)) with (if s then Zneg m else Zpos m) by (destruct s; reflexivity). f_equal.
        rewrite <- (Z.opp_involutive e) at 1. rewrite bpow_opp. f_equal. rewrite <- (IZR_Zpower radix2) by lia. reflexivity. }
      rewrite X. apply fl_of_Z. pose proof (bounded_lt _ _ B) as M.
      assert (Q : 2 <= 2 ^ (- e)). { change 2 with (2 ^ 1) at 1. apply Z.pow_le_mono_r; lia. }
      destruct s.
      * rewrite <- Pos2Z.opp_pos.
        pose proof (Z.div_mod (- Zpos m) (2 ^ (- e)) ltac:(lia)).
        pose proof (Z.mod_pos_bound (- Zpos m) (2 ^ (- e)) ltac:(lia)).
        apply Z.abs_lt. nia.
      * pose proof (Z.div_mod (Zpos m) (2 ^ (- e)) ltac:(lia)).
        pose proof (Z.mod_pos_bound (Zpos m) (2 ^ (- e)) ltac:(lia)).
        apply Z.abs_lt. nia.
Qed.

(* ---- rounding ---- *)

Lemma rnd_le : forall a b, (a <= b)%R -> (rnd a <= rnd b)%R.
Proof. intros a b H. unfold rnd. apply round_le; auto with typeclass_instances. exact FloatR.Hvalid. Qed.

Lemma rnd_err : forall k a, (-900 <= k)%Z -> (Rabs a <= bpow radix2 k)%R -> (Rabs (rnd a - a) <= bpow radix2 (k - 53))%R.
Proof.
  intros k a Hk H. unfold rnd.
  destruct (Req_dec a (bpow radix2 k)) as [->|N1].
  { rewrite round_generic; auto with typeclass_instances.
    - rewrite Rminus_diag_eq, Rabs_R0 by reflexivity. apply bpow_ge_0.
    - apply generic_format_bpow. unfold SpecFloat.fexp, SpecFloat.emin. lia. }
  destruct (Req_dec a (- bpow radix2 k)) as [->|N2].
  { rewrite round_generic; auto with typeclass_instances.
    - rewrite Rminus_diag_eq, Rabs_R0 by reflexivity. apply bpow_ge_0.
    - apply generic_format_opp, generic_format_bpow. unfold SpecFloat.fexp, SpecFloat.emin. lia. }
  assert (L : (Rabs a < bpow radix2 k)%R).
  { destruct H as [H|H]; [exact H|]. exfalso. unfold Rabs in H. destruct (Rcase_abs a); lra. }
  eapply Rle_trans; [apply error_le_half_ulp; exact FloatR.Hvalid|].
  apply Rle_trans with (/ 2 * bpow radix2 (k - 53 + 1))%R.
  - apply Rmult_le_compat_l; [lra|].
    destruct (Req_dec a 0) as [->|Z].
    + rewrite ulp_FLT_0 with (emin := -1074) (prec := 53) || idtac.
      * apply bpow_le. lia.
      * reflexivity.
    + rewrite ulp_neq_0 by exact Z. apply bpow_le. unfold cexp, SpecFloat.fexp, SpecFloat.emin.
      pose proof (mag_le_bpow radix2 a k Z L). lia.
  - rewrite bpow_plus. change (bpow radix2 1) with 2%R. lra.
Qed.

Lemma Zfloor_rnd_div : forall m n, Z.abs m < 2 ^ 20 -> 0 < n < 2 ^ 20 -> Zfloor (rnd (IZR m / IZR n)) = m / n.
Proof.
  intros m n Hm Hn. pose proof (Z.div_mod m n ltac:(lia)) as D. pose proof (Z.mod_pos_bound m n ltac:(lia)) as B.
  set (q := m / n) in *. set (r := m mod n) in *.
  assert (N : (0 < IZR n)%R) by (apply IZR_lt; lia).
  assert (V : (IZR m / IZR n = IZR q + IZR r / IZR n)%R).
  { rewrite D, plus_IZR, mult_IZR. field. lra. }
  assert (Hq : Z.abs q <= 2 ^ 20) by nia.
  apply Zfloor_imp. split.
  - rewrite <- (rnd_IZR q) by lia. apply rnd_le. rewrite V.
    assert (0 <= IZR r / IZR n)%R; [|lra]. apply Rmult_le_pos; [apply IZR_le; lia|]. apply Rlt_le, Rinv_0_lt_compat, N.
  - apply Rle_lt_trans with (IZR ((q + 1) * 2 ^ 20 - 1) * bpow radix2 (-20))%R.
    + rewrite <- (rnd_exact ((q + 1) * 2 ^ 20 - 1) (-20)) by lia. apply rnd_le. rewrite V.
      rewrite minus_IZR, Rmult_minus_distr_r, mult_IZR, Rmult_assoc.
      replace (IZR (2 ^ 20) * bpow radix2 (-20))%R with 1%R by (change (IZR (2 ^ 20)) with (bpow radix2 20); rewrite <- bpow_plus; reflexivity).
      rewrite plus_IZR, Rmult_1_r, Rmult_1_l.
      assert (IZR r / IZR n <= 1 - bpow radix2 (-20))%R; [|lra].
      apply Rmult_le_reg_r with (IZR n); [exact N|]. unfold Rdiv. rewrite Rmult_assoc, Rinv_l, Rmult_1_r by lra.
      rewrite Rmult_minus_distr_r, Rmult_1_l.
      assert (bpow radix2 (-20) * IZR n <= 1)%R.
      { apply Rmult_le_reg_l with (bpow radix2 20); [apply bpow_gt_0|]. rewrite <- Rmult_assoc, <- bpow_plus.
        change (bpow radix2 (20 + -20)) with 1%R. rewrite Rmult_1_l, Rmult_1_r. change (bpow radix2 20) with (IZR (2 ^ 20)). apply IZR_le. lia. }
      assert (IZR r <= IZR n - 1)%R by (rewrite <- minus_IZR; apply IZR_le; lia). lra.
    + rewrite minus_IZR, Rmult_minus_distr_r, mult_IZR, Rmult_assoc.
      replace (IZR (2 ^ 20) * bpow radix2 (-20))%R with 1%R by (change (IZR (2 ^ 20)) with (bpow radix2 20); rewrite <- bpow_plus; reflexivity).
      rewrite plus_IZR. pose proof (bpow_gt_0 radix2 (-20)). lra.
Qed.

Lemma fl_format : forall x a, fl x a -> generic_format radix2 (FLT_exp (-1074) 53) a.
Proof. intros x a (b & _ & _ & <-). apply (generic_format_B2R P E b). Qed.

(* a subtraction between numbers within a factor two of each other is exact *)
Lemma fl_sub_exact : forall x y a b, fl x a -> fl y b -> (b / 2 <= a <= 2 * b)%R -> (Rabs (a - b) <= big)%R ->
  fl (f64_sub x y) (a - b).
Proof.
  intros x y a b Hx Hy H B. pose proof (fl_sub _ _ _ _ Hx Hy B) as F.
  replace (a - b)%R with (rnd (a - b)); [exact F|]. unfold rnd. apply round_generic; auto with typeclass_instances.
  change (SpecFloat.fexp P E) with (FLT_exp (-1074) 53).
  apply Sterbenz.sterbenz; auto with typeclass_instances.
  - apply FLT_exp_valid. reflexivity.
  - exact (fl_format _ _ Hx).
  - exact (fl_format _ _ Hy).
Qed.
