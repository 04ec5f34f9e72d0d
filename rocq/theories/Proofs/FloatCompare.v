(* Comparisons of float32 values are comparisons of the numbers they stand for. *)
From Verif Require Import GoBase.
From Verif.Spec Require Import Floats CommBReasons.
From Coq Require Import Lia Reals Qreals Lra.
From Flocq Require Import Core BinarySingleNaN.
Local Open Scope Z_scope.

Lemma zero_test : forall x, fl_eqb x (f32_lit 0 1) = true <-> is_zero x.
Proof.
  intros x. change (f32_lit 0 1) with (S754_zero false). unfold is_zero, fl_eqb, SFeqb.
  destruct x as [s|s| |s m e]; cbn.
  - split; reflexivity.
  - destruct s; split; [discriminate|contradiction|discriminate|contradiction].
  - split; [discriminate|contradiction].
  - split; [destruct s; discriminate|]. intros H. exfalso. revert H. unfold dyadic.
    destruct (Z.leb_spec 0 e); unfold Qeq, inject_Z; cbn [Qnum Qden].
    + assert (0 < 2 ^ e) by (apply Z.pow_pos_nonneg; lia). destruct s; nia.
    + destruct s; lia.
Qed.

(* the real number of a dyadic *)
Lemma dyadic_R : forall m e, Q2R (dyadic m e) = F2R (Float radix2 m e).
Proof.
  intros m e. unfold dyadic, F2R. cbn [Fnum Fexp]. destruct (Z.leb_spec 0 e) as [H|H].
  - unfold Q2R, inject_Z. cbn [Qnum Qden]. rewrite mult_IZR. rewrite (IZR_Zpower radix2) by exact H. lra.
  - unfold Q2R. cbn [Qnum Qden]. rewrite Z2Pos.id by (apply Z.pow_pos_nonneg; lia).
    rewrite (IZR_Zpower radix2) by lia. rewrite bpow_opp, Rinv_inv. reflexivity.
Qed.

Lemma value_R : forall (b : binary_float 24 128) v, is_value (B2SF b) v -> is_finite b = true /\ B2R b = Q2R v.
Proof.
  intros [s|s| |s m e B] v H; cbn in H; try contradiction.
  - split; [reflexivity|]. cbn. rewrite (Qeq_eqR _ _ H). unfold Q2R. cbn. lra.
  - split; [reflexivity|]. rewrite (Qeq_eqR _ _ H), dyadic_R. cbn. destruct s; reflexivity.
Qed.
Lemma value_exists : forall (b : binary_float 24 128), is_finite b = true -> exists v, is_value (B2SF b) v.
Proof.
  intros [s|s| |s m e B] F; try discriminate F; cbn; [exists 0%Q|eexists]; reflexivity.
Qed.

Lemma float32_b : forall x, float32 x -> exists b : binary_float 24 128, x = B2SF b.
Proof. intros x H. exists (SF2B x H). symmetry. apply B2SF_SF2B. Qed.

Lemma lit_above : forall x c q, float32 x -> float32 c -> is_value c q ->
  (fl_ltb c x = true <-> above x q).
Proof.
  intros x c q Hx Hc Hq. destruct (float32_b x Hx) as [b ->]. destruct (float32_b c Hc) as [k ->].
  destruct (value_R k q Hq) as [Fk Rk]. unfold above, fl_ltb.
  change (SFltb (B2SF k) (B2SF b)) with (Bltb k b).
  destruct (is_finite b) eqn:Fb.
  - rewrite Bltb_correct by assumption. destruct (value_exists b Fb) as [v Hv]. destruct (value_R b v Hv) as [_ Rb].
    rewrite Rk, Rb. split.
    + intro L. right. exists v. split; [exact Hv|]. apply Rlt_Qlt. destruct (Rlt_bool_spec (Q2R q) (Q2R v)); [assumption|discriminate].
    + intros [I|[w [Hw L]]].
      * destruct b; discriminate.
      * apply Rlt_bool_true. destruct (value_R b w Hw) as [_ E]. rewrite <- Rb, E. apply Qlt_Rlt. exact L.
  - destruct b as [s|s| |s m e B]; try discriminate Fb.
    + destruct s.
      * split; [destruct k; try discriminate Fk; cbn; try destruct s; discriminate|intros [I|[w [[] _]]]; discriminate].
      * split; [auto|intros _]. destruct k as [s|s| |s m e B]; try discriminate Fk; reflexivity.
    + split; [destruct k; try discriminate Fk; cbn; discriminate|intros [I|[w [[] _]]]; discriminate].
Qed.
Lemma lit_below : forall x c q, float32 x -> float32 c -> is_value c q ->
  (fl_ltb x c = true <-> below x q).
Proof.
  intros x c q Hx Hc Hq. destruct (float32_b x Hx) as [b ->]. destruct (float32_b c Hc) as [k ->].
  destruct (value_R k q Hq) as [Fk Rk]. unfold below, fl_ltb.
  change (SFltb (B2SF b) (B2SF k)) with (Bltb b k).
  destruct (is_finite b) eqn:Fb.
  - rewrite Bltb_correct by assumption. destruct (value_exists b Fb) as [v Hv]. destruct (value_R b v Hv) as [_ Rb].
    rewrite Rk, Rb. split.
    + intro L. right. exists v. split; [exact Hv|]. apply Rlt_Qlt. destruct (Rlt_bool_spec (Q2R v) (Q2R q)); [assumption|discriminate].
    + intros [I|[w [Hw L]]].
      * destruct b; discriminate.
      * apply Rlt_bool_true. destruct (value_R b w Hw) as [_ E]. rewrite <- Rb, E. apply Qlt_Rlt. exact L.
  - destruct b as [s|s| |s m e B]; try discriminate Fb.
    + destruct s.
      * split; [auto|intros _]. destruct k as [s|s| |s m e B]; try discriminate Fk; reflexivity.
      * split; [destruct k; try discriminate Fk; cbn; try destruct s; discriminate|intros [I|[w [[] _]]]; discriminate].
    + split; [destruct k; try discriminate Fk; cbn; discriminate|intros [I|[w [[] _]]]; discriminate].
Qed.

Lemma above_test : forall x n, float32 x -> float32 (f32_lit n 1) -> is_value (f32_lit n 1) (inject_Z n) ->
  (fl_ltb (f32_lit n 1) x = true <-> above x (inject_Z n)).
Proof. intros. apply lit_above; assumption. Qed.
Lemma below_test : forall x n, float32 x -> float32 (f32_lit n 1) -> is_value (f32_lit n 1) (inject_Z n) ->
  (fl_ltb x (f32_lit n 1) = true <-> below x (inject_Z n)).
Proof. intros. apply lit_below; assumption. Qed.
