(* An accurate library exists: the one that rounds the exact results to the nearest binary64 number. *)
From Verif Require Import GoBase.
From Verif.Model Require Import Geo.
From Coq Require Import ZArith Reals Lia Lra.
From Coq Require Import Floats.SpecFloat.
From Flocq Require Import Core BinarySingleNaN Relative.
From Verif.Spec Require Import Binary64 MathLib.
From Verif.Proofs Require Import FloatR FloatOps.
Local Open Scope R_scope.

(* the value of a number *)
Definition val (x : spec_float) : R := SF2R radix2 x.
Lemma val_fl : forall x v, fl x v -> val x = v.
Proof. intros x v (b & -> & F & <-). unfold val. destruct b; reflexivity. Qed.

(* the binary64 number nearest to a real *)
Definition near (r : R) : spec_float :=
  B2SF (binary_normalize P E Hprec Hmax mode_NE
          (ZnearestE (scaled_mantissa radix2 (SpecFloat.fexp P E) r)) (cexp radix2 (SpecFloat.fexp P E) r) false).

Lemma near_fl : forall r, Rabs r <= big -> fl (near r) (rnd r).
Proof.
  intros r H. pose proof (rnd_le_big r H) as B.
  pose proof (binary_normalize_correct P E Hprec Hmax mode_NE
    (ZnearestE (scaled_mantissa radix2 (SpecFloat.fexp P E) r)) (cexp radix2 (SpecFloat.fexp P E) r) false) as C.
  change (F2R _) with (rnd r) in C.
  assert (I : round radix2 (SpecFloat.fexp P E) (round_mode mode_NE) (rnd r) = rnd r).
  { apply round_generic; [auto with typeclass_instances|]. apply generic_format_round; [exact FloatR.Hvalid|auto with typeclass_instances]. }
  cbv zeta in C. rewrite I in C. rewrite Rlt_bool_true in C by exact B. destruct C as (C1 & C2 & _).
  eexists. split; [reflexivity|]. split; assumption.
Qed.

Definition ideal : mathlib :=
  {| m_cos := fun x => near (cos (val x));
     m_sin := fun x => near (sin (val x));
     m_acos := fun x => near (acos (val x));
     m_atan2 := fun y x => near (atan (val y / val x));
     m_pow := fun x _ => near (val x * val x) |}.

Lemma near_about : forall r, Rabs r <= 4 -> about (near r) r (/ 1000000000000000).
Proof.
  intros r H. exists (rnd r). split.
  - apply near_fl. apply Rle_trans with 4; [exact H|]. change 4 with (bpow radix2 2). apply bpow_le. lia.
  - pose proof (rnd_err 2 r ltac:(lia) ltac:(cbn; lra)) as R. change (2 - 53)%Z with (-51)%Z in R. cbn in R. lra.
Qed.

Lemma about_weaken : forall x r e e', about x r e -> e <= e' -> about x r e'.
Proof. intros x r e e' (v & F & H) L. exists v. split; [exact F|lra]. Qed.

(* rounding, relatively *)
Lemma rnd_rel : forall r, Rabs (rnd r - r) <= / 9000000000000000 * Rabs r + / 10 ^ 40.
Proof.
  intros r. unfold rnd.
  destruct (error_N_FLT radix2 (-1074) 53 ltac:(lia) (fun n => negb (Z.even n)) r) as (eps & eta & H1 & H2 & _ & H3).
  change (SpecFloat.fexp P E) with (FLT_exp (-1074) 53). rewrite H3.
  replace (r * (1 + eps) + eta - r) with (r * eps + eta) by ring.
  apply Rle_trans with (1 := Rabs_triang _ _). rewrite Rabs_mult.
  assert (A : Rabs eps <= / 9000000000000000).
  { apply Rle_trans with (1 := H1). cbn. lra. }
  assert (B : Rabs eta <= / 10 ^ 40).
  { apply Rle_trans with (1 := H2). apply Rle_trans with (bpow radix2 (-200)).
    - rewrite <- (Rmult_1_l (bpow radix2 (-200))). apply Rmult_le_compat; [lra|apply bpow_ge_0|lra|apply bpow_le; lia].
    - cbn. lra. }
  pose proof (Rabs_pos r). nra.
Qed.

Lemma ideal_both : accurate ideal /\ accurate_distance ideal.
Proof.
  unfold accurate, accurate_distance, ideal, tolerance. cbn [m_cos m_sin m_acos m_atan2 m_pow].
  assert (T : / 1000000000000000 <= 1 / 100000000000000) by lra.
  assert (Pi : PI <= 4) by apply PI_4.
  assert (Cs : forall x v, fl x v -> about (near (cos (val x))) (cos v) (1 / 100000000000000)).
  { intros x v F. rewrite (val_fl _ _ F). eapply about_weaken; [apply near_about|exact T].
    pose proof (COS_bound v). apply Rabs_le. lra. }
  repeat split.
  - intros x v F _. apply Cs. exact F.
  - intros x v F H. rewrite (val_fl _ _ F). eapply about_weaken; [apply near_about|exact T].
    rewrite Rabs_mult. pose proof (Rabs_pos v). nra.
  - intros x v F H. rewrite (val_fl _ _ F). eapply about_weaken; [apply near_about|exact T].
    pose proof (acos_bound v). apply Rabs_le. lra.
  - intros x v F _. apply Cs. exact F.
  - intros x v F _. rewrite (val_fl _ _ F). eapply about_weaken; [apply near_about|exact T].
    pose proof (SIN_bound v). apply Rabs_le. lra.
  - intros x v F H. rewrite (val_fl _ _ F). exists (rnd (v * v)).
    assert (V : 0 <= v * v) by (apply Rle_0_sqr).
    split; [apply near_fl|split].
    + apply Rle_trans with 4; [rewrite Rabs_mult; pose proof (Rabs_pos v); nra|]. change 4 with (bpow radix2 2). apply bpow_le. lia.
    + replace 0 with (rnd 0) by (unfold rnd; apply round_0; auto with typeclass_instances). apply rnd_le. exact V.
    + pose proof (rnd_rel (v * v)) as R. rewrite (Rabs_pos_eq (v * v)) in R by exact V. lra.
  - intros y x v w Fy Fx _ _. rewrite (val_fl _ _ Fy), (val_fl _ _ Fx). eapply about_weaken; [apply near_about|exact T].
    pose proof (atan_bound (v / w)). apply Rabs_le. lra.
Qed.

Lemma ideal_accurate : accurate_distance ideal.
Proof. apply ideal_both. Qed.

Theorem accurate_library_example : exists m, accurate m /\ accurate_distance m.
Proof. exists ideal. apply ideal_both. Qed.
