(* The link between the floating-point operations of the model (Coq's SpecFloat, which is
   executable) and the real numbers: each operation is the correctly rounded real operation.
   From Flocq; everything here is about binary64. *)
From Verif Require Import GoBase.
From Coq Require Import ZArith Reals Lia Lra Psatz.
From Coq Require Import Floats.SpecFloat.
From Flocq Require Import Core BinarySingleNaN Relative.
From Verif.Spec Require Export Binary64.
Local Open Scope Z_scope.

Notation P := 53.
Notation E := 1024.
Local Instance Hprec : Prec_gt_0 P. Proof. reflexivity. Qed.
Local Instance Hmax : Prec_lt_emax P E. Proof. reflexivity. Qed.

Local Instance Hvalid : Valid_exp (SpecFloat.fexp P E) := fexp_correct P E Hprec.

Lemma rne_equiv s m l : round_nearest_even m l = choice_mode mode_NE s m l.
Proof.
  case l; [reflexivity|intro c]. case c; [|reflexivity..].
  now simpl; unfold Round.cond_incr; case Z.even.
Qed.

Lemma round_aux_equiv sx mx ex lx :
  SpecFloat.binary_round_aux P E sx mx ex lx = binary_round_aux P E mode_NE sx mx ex lx.
Proof.
  unfold SpecFloat.binary_round_aux, binary_round_aux.
  set (mrse' := shr_fexp _ _ _ _ _). case mrse'; intros mrs' e'; simpl.
  now rewrite (rne_equiv sx).
Qed.

Lemma round_equiv s m e : SpecFloat.binary_round P E s m e = binary_round P E mode_NE s m e.
Proof.
  unfold SpecFloat.binary_round, binary_round, shl_align_fexp.
  set (mez := shl_align _ _ _); case mez as [mz ez]. apply round_aux_equiv.
Qed.

Lemma normalize_equiv m e szero :
  SpecFloat.binary_normalize P E m e szero = B2SF (binary_normalize P E Hprec Hmax mode_NE m e szero).
Proof.
  case m as [ | p | p]; [reflexivity| |]; simpl; rewrite B2SF_SF2B; apply round_equiv.
Qed.

Notation bf := (binary_float P E).

Lemma mul_equiv (x y : bf) : SFmul P E (B2SF x) (B2SF y) = B2SF (Bmult mode_NE x y).
Proof.
  case x as [sx|sx| |sx mx ex Bx]; case y as [sy|sy| |sy my ey By]; [reflexivity..|].
  simpl. rewrite B2SF_SF2B. apply round_aux_equiv.
Qed.

Lemma add_equiv (x y : bf) : SFadd P E (B2SF x) (B2SF y) = B2SF (Bplus mode_NE x y).
Proof.
  case x as [sx|sx| |sx mx ex Bx]; case y as [sy|sy| |sy my ey By];
    [now (trivial || simpl; case Bool.eqb)..|].
  apply normalize_equiv.
Qed.

Lemma sub_equiv (x y : bf) : SFsub P E (B2SF x) (B2SF y) = B2SF (Bminus mode_NE x y).
Proof.
  case x as [sx|sx| |sx mx ex Bx]; case y as [sy|sy| |sy my ey By];
    [now (trivial || simpl; case Bool.eqb)..|].
  simpl. unfold Zminus. rewrite <- cond_Zopp_negb. apply normalize_equiv.
Qed.

Lemma div_equiv (x y : bf) : SFdiv P E (B2SF x) (B2SF y) = B2SF (Bdiv mode_NE x y).
Proof.
  case x as [sx|sx| |sx mx ex Bx]; case y as [sy|sy| |sy my ey By]; [reflexivity..|].
  simpl. rewrite B2SF_SF2B.
  set (melz := SFdiv_core_binary _ _ _ _ _ _). case melz as [[mz ez] lz]. apply round_aux_equiv.
Qed.

Lemma sqrt_equiv (x : bf) : SFsqrt P E (B2SF x) = B2SF (Bsqrt mode_NE x).
Proof.
  case x as [sx|sx| |sx mx ex Bx]; [now (trivial || case sx)..|].
  case sx; [reflexivity|]. simpl. rewrite B2SF_SF2B.
  set (melz := SFsqrt_core_binary _ _ _ _). case melz as [[mz ez] lz]. apply round_aux_equiv.
Qed.

(* ---- the value of a float ---- *)

Definition rnd (r : R) : R := round radix2 (SpecFloat.fexp P E) ZnearestE r.

Lemma fl_rnd : forall x r, fl x r -> rnd r = r.
Proof.
  intros x r (b & _ & F & <-). apply round_generic; [auto with typeclass_instances|]. apply generic_format_B2R.
Qed.

Definition big : R := bpow radix2 1000.

Lemma rnd_le_big : forall r, (Rabs r <= big)%R -> (Rabs (rnd r) < bpow radix2 E)%R.
Proof.
  intros r H. apply Rle_lt_trans with big; [|apply bpow_lt; lia].
  unfold rnd. apply abs_round_le_generic; [exact Hvalid|auto with typeclass_instances| |exact H].
  apply generic_format_bpow. unfold SpecFloat.fexp, SpecFloat.emin. lia.
Qed.

Lemma fl_mul : forall x y a b, fl x a -> fl y b -> (Rabs (a * b) <= big)%R ->
  fl (f64_mul x y) (rnd (a * b)).
Proof.
  intros x y a b (u & -> & Fu & <-) (v & -> & Fv & <-) H.
  pose proof (Bmult_correct P E Hprec Hmax mode_NE u v) as C.
  rewrite Rlt_bool_true in C by (apply rnd_le_big; exact H).
  destruct C as (C1 & C2 & _). exists (Bmult mode_NE u v).
  split; [apply mul_equiv|]. rewrite C2, Fu, Fv. split; [reflexivity|exact C1].
Qed.

Lemma fl_add : forall x y a b, fl x a -> fl y b -> (Rabs (a + b) <= big)%R ->
  fl (f64_add x y) (rnd (a + b)).
Proof.
  intros x y a b (u & -> & Fu & <-) (v & -> & Fv & <-) H.
  pose proof (Bplus_correct P E Hprec Hmax mode_NE u v Fu Fv) as C.
  rewrite Rlt_bool_true in C by (apply rnd_le_big; exact H).
  destruct C as (C1 & C2 & _). exists (Bplus mode_NE u v).
  split; [apply add_equiv|]. split; [exact C2|exact C1].
Qed.

Lemma fl_sub : forall x y a b, fl x a -> fl y b -> (Rabs (a - b) <= big)%R ->
  fl (f64_sub x y) (rnd (a - b)).
Proof.
  intros x y a b (u & -> & Fu & <-) (v & -> & Fv & <-) H.
  pose proof (Bminus_correct P E Hprec Hmax mode_NE u v Fu Fv) as C.
  rewrite Rlt_bool_true in C by (apply rnd_le_big; exact H).
  destruct C as (C1 & C2 & _). exists (Bminus mode_NE u v).
  split; [apply sub_equiv|]. split; [exact C2|exact C1].
Qed.

Lemma fl_div : forall x y a b, fl x a -> fl y b -> b <> 0%R -> (Rabs (a / b) <= big)%R ->
  fl (f64_div x y) (rnd (a / b)).
Proof.
  intros x y a b (u & -> & Fu & <-) (v & -> & Fv & <-) N H.
  pose proof (Bdiv_correct P E Hprec Hmax mode_NE u v N) as C.
  rewrite Rlt_bool_true in C by (apply rnd_le_big; exact H).
  destruct C as (C1 & C2 & _). exists (Bdiv mode_NE u v).
  split; [apply div_equiv|]. rewrite C2. split; [exact Fu|exact C1].
Qed.

Lemma fl_sqrt : forall x a, fl x a -> (0 <= a)%R -> fl (f64_sqrt x) (rnd (sqrt a)).
Proof.
  intros x a (u & -> & Fu & <-) H.
  destruct (Bsqrt_correct P E Hprec Hmax mode_NE u) as (C1 & C2 & _). exists (Bsqrt mode_NE u).
  split; [apply sqrt_equiv|]. split; [|exact C1]. rewrite C2.
  destruct u as [s|s| |s m e B]; try reflexivity; try discriminate Fu. destruct s; [|reflexivity].
  exfalso. cbn [B2R] in H. pose proof (F2R_lt_0 radix2 (Float radix2 (Zneg m) e) eq_refl). cbn in *. lra.
Qed.

(* ---- exact values ---- *)

Lemma rnd_exact : forall m e, (Z.abs m < 2 ^ 53)%Z -> (-1074 <= e)%Z ->
  rnd (IZR m * bpow radix2 e) = (IZR m * bpow radix2 e)%R.
Proof.
  intros m e Hm He. unfold rnd. apply round_generic; [auto with typeclass_instances|].
  change (SpecFloat.fexp P E) with (FLT_exp (-1074) 53). apply generic_format_FLT.
  exists (Float radix2 m e); [reflexivity| |exact He]. exact Hm.
Qed.

Lemma rnd_IZR : forall m, (Z.abs m < 2 ^ 53)%Z -> rnd (IZR m) = IZR m.
Proof.
  intros m H. pose proof (rnd_exact m 0 H ltac:(lia)) as R. cbn [bpow] in R. rewrite Rmult_1_r in R. exact R.
Qed.

Lemma fl_of_Z : forall z, (Z.abs z < 2 ^ 53)%Z -> fl (f64_of_Z z) (IZR z).
Proof.
  intros z H. pose proof (binary_normalize_correct P E Hprec Hmax mode_NE z 0 false) as C.
  assert (X : F2R (Float radix2 z 0) = IZR z) by (unfold F2R; cbn; ring).
  cbv zeta in C. rewrite X in C.
  assert (B : (Rabs (IZR z) <= big)%R).
  { rewrite <- abs_IZR. apply Rle_trans with (IZR (2 ^ 53)); [apply IZR_le; lia|].
    change (IZR (2 ^ 53)) with (bpow radix2 53). apply bpow_le. lia. }
  rewrite Rlt_bool_true in C by (apply rnd_le_big; exact B). destruct C as (C1 & C2 & _).
  exists (binary_normalize P E Hprec Hmax mode_NE z 0 false). split; [apply normalize_equiv|].
  split; [exact C2|]. rewrite C1. apply rnd_IZR. exact H.
Qed.

(* a literal float: its value is read off its mantissa and exponent *)
Lemma fl_literal : forall s m e, SpecFloat.bounded P E m e = true ->
  fl (S754_finite s m e) (IZR (cond_Zopp s (Zpos m)) * bpow radix2 e).
Proof. intros s m e H. exists (B754_finite s m e H). repeat split. Qed.

Lemma fl_zero : forall s, fl (S754_zero s) 0.
Proof. intros s. exists (B754_zero s). repeat split. Qed.

Lemma fl_unique : forall x a b, fl x a -> fl x b -> a = b.
Proof.
  intros x a b (u & -> & Fu & <-) (v & E & Fv & <-). rewrite <- !SF2R_B2SF, E. reflexivity.
Qed.

(* truncation *)
Lemma trunc_fl : forall x r, fl x r -> (0 <= r)%R -> (IZR (Zfloor r) < 4294967296)%R -> u32_of_f64 x = Zfloor r.
Proof.
  intros x r (u & -> & Fu & <-) H B. destruct u as [s|s| |s m e Bd]; try discriminate Fu.
  - cbn [B2SF u32_of_f64 B2R]. symmetry. apply (Zfloor_IZR 0).
  - cbn [B2SF u32_of_f64 B2R] in *. destruct s.
    { exfalso. pose proof (F2R_lt_0 radix2 (Float radix2 (Zneg m) e) eq_refl). cbn in *. lra. }
    cbn [cond_Zopp] in *. unfold F2R in *. cbn [Fnum Fexp] in *.
    destruct (Z.leb_spec 0 e) as [He|He].
    + rewrite Z.shiftl_mul_pow2 by lia.
      assert (X : (IZR (Z.pos m) * bpow radix2 e)%R = IZR (Z.pos m * 2 ^ e)).
      { rewrite mult_IZR. f_equal. rewrite <- (IZR_Zpower radix2) by lia. reflexivity. }
      rewrite X, Zfloor_IZR in *. unfold u32. apply Z.mod_small. apply lt_IZR in B. lia.
    + assert (X : Zfloor (IZR (Z.pos m) * bpow radix2 e) = Z.shiftr (Z.pos m) (- e)).
      { rewrite Z.shiftr_div_pow2 by lia. rewrite <- Zfloor_div by lia. f_equal.
        unfold Rdiv. f_equal. rewrite <- (Z.opp_involutive e) at 1. rewrite bpow_opp.
        f_equal. rewrite <- (IZR_Zpower radix2) by lia. reflexivity. }
      rewrite X in *. unfold u32. apply Z.mod_small. apply lt_IZR in B. split; [|lia].
      apply Z.shiftr_nonneg. lia.
Qed.
