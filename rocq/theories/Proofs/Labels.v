(* The labels of the enumerated fields. *)
From Verif Require Import GoBase.
Require Import ZArith Lia List String Ascii Decimal DecimalString DecimalZ.
From Verif.Spec Require Import Text Labels.
From Verif.Gen Require acas_ra_fields bds09_fields bds10_fields bds62_fields bds65_fields.
Import ListNotations.
Local Open Scope Z_scope.

Lemma numeral_inj : forall z z', numeral z = numeral z' -> z = z'.
Proof.
  intros z z' H. unfold numeral in H.
  assert (E : forall z, NilZero.int_of_string (NilZero.string_of_int (Z.to_int z)) = Some (Z.to_int z)).
  { intro x. apply NilZero.isi.
    - destruct x; cbn; try discriminate. intro E. injection E as E.
      assert (Z.of_int (Z.to_int (Zpos p)) = 0) by (cbn; rewrite E; reflexivity).
      rewrite DecimalZ.of_to in H0. discriminate.
    - destruct x; cbn; try discriminate. intro E. injection E as E.
      assert (Z.of_int (Z.to_int (Zneg p)) = 0) by (cbn; rewrite E; reflexivity).
      rewrite DecimalZ.of_to in H0. discriminate. }
  pose proof (E z) as A. rewrite H, (E z') in A. injection A as A.
  rewrite <- (DecimalZ.of_to z), <- (DecimalZ.of_to z'), A. reflexivity.
Qed.

Fixpoint no_space (s : string) : bool :=
  match s with EmptyString => true | String c r => negb (Ascii.eqb c " ") && no_space r end.

Lemma no_space_uint : forall d, no_space (NilEmpty.string_of_uint d) = true.
Proof. induction d; cbn; auto. Qed.

Lemma no_space_numeral : forall z, no_space (numeral z) = true.
Proof.
  intro z. unfold numeral, NilZero.string_of_int, NilZero.string_of_uint.
  destruct (Z.to_int z) as [d|d]; destruct d; try reflexivity; cbn; apply no_space_uint.
Qed.

Lemma span : forall a b r r', no_space a = true -> no_space b = true ->
  (a ++ String " " r = b ++ String " " r')%string -> a = b.
Proof.
  induction a as [|x a IH]; intros b r r' Ha Hb E; destruct b as [|y b]; cbn in *; auto.
  - injection E as E _. subst y. discriminate.
  - injection E as E _. subst x. discriminate.
  - injection E as E1 E2. subst y. destruct (Ascii.eqb x " "); cbn in *; try discriminate.
    f_equal. eapply IH; eauto.
Qed.

(* a number at the head of a label determines the code *)
Theorem numbered_determines : forall z z' label, numbered z label -> numbered z' label -> z = z'.
Proof.
  intros z z' l [t H] [t' H']. subst l. apply numeral_inj.
  eapply span; [apply no_space_numeral|apply no_space_numeral|exact H'].
Qed.

Ltac label z :=
  unfold numbered, numeral;
  repeat match goal with
  | |- context [if ?b then _ else _] =>
      let E := fresh "E" in destruct b eqn:E
  end.

Lemma dec_numbered : forall z t, numbered z (dec z ++ (" - " ++ t))%string.
Proof. intros. exists t. reflexivity. Qed.

Ltac close_label :=
  first
  [ apply dec_numbered
  | match goal with
    | |- numbered ?z (dec ?z ++ String ?a (String ?b (String ?c ?t)))%string => exists t; reflexivity
    | E : (?z =? ?k) = true |- numbered ?z ?s =>
        apply Z.eqb_eq in E; rewrite E; eexists; vm_compute; reflexivity
    | E : (?a || ?b)%bool = true |- _ =>
        apply Bool.orb_true_iff in E; destruct E as [E|E]; close_label
    end ].

Ltac field_label :=
  intro z; cbn [snd];
  match goal with |- numbered _ (?f _) => unfold f end;
  repeat match goal with
  | |- numbered ?z (if ?b then _ else _) => let E := fresh "E" in destruct b eqn:E
  end;
  close_label.

(* the label of a numbered field starts with its code: for every integer, so
   for the codes that have no name too *)
Theorem labels_numbered : forall name label, List.In (name, label) numbered_fields ->
  forall code, numbered code (label code).
Proof.
  assert (H : List.Forall (fun f => forall z, numbered z (snd f z)) numbered_fields).
  { unfold numbered_fields. repeat constructor.
    all: field_label. }
  intros name label I. rewrite List.Forall_forall in H. exact (H _ I).
Qed.

(* so that two codes never share a label *)
Theorem labels_numbered_distinct : forall name label, List.In (name, label) numbered_fields ->
  forall code code', label code = label code' -> code = code'.
Proof.
  intros n l I c c' E. apply (numbered_determines c c' (l c)).
  - exact (labels_numbered n l I c).
  - rewrite E. exact (labels_numbered n l I c').
Qed.

Definition octet_codes : list Z := List.map Z.of_nat (List.seq 0 256).

Lemma octet_in : forall c, 0 <= c < 256 -> List.In c octet_codes.
Proof.
  intros c H. unfold octet_codes. apply List.in_map_iff. exists (Z.to_nat c).
  split; [lia|]. apply List.in_seq. lia.
Qed.

Definition distinct_on (l : list Z) (f : Z -> string) : bool :=
  List.forallb (fun a => List.forallb (fun b => (a =? b) || negb (String.eqb (f a) (f b))) l) l.

Lemma distinct_sound : forall f, distinct_on octet_codes f = true ->
  forall c c', 0 <= c < 256 -> 0 <= c' < 256 -> f c = f c' -> c = c'.
Proof.
  intros f D c c' Hc Hc' E. unfold distinct_on in D. rewrite List.forallb_forall in D.
  specialize (D _ (octet_in c Hc)). rewrite List.forallb_forall in D.
  specialize (D _ (octet_in c' Hc')). apply Bool.orb_true_iff in D. destruct D as [D|D].
  - apply Z.eqb_eq. exact D.
  - rewrite E, String.eqb_refl in D. discriminate.
Qed.

(* the other labels still tell the codes apart, over all the octets *)
Theorem labels_distinct : forall name label, List.In (name, label) (worded_fields ++ misnumbered_fields) ->
  forall code code', 0 <= code < 256 -> 0 <= code' < 256 -> label code = label code' -> code = code'.
Proof.
  assert (H : List.forallb (fun f => distinct_on octet_codes (snd f)) (worded_fields ++ misnumbered_fields) = true)
    by (vm_compute; reflexivity).
  intros n l I. apply distinct_sound. rewrite List.forallb_forall in H. exact (H _ I).
Qed.

Theorem labels_decimal : forall name label, List.In (name, label) decimal_fields ->
  forall code, label code = numeral code.
Proof.
  intros n l I c. cbn in I. repeat (destruct I as [I|I]; [injection I as <- <-; reflexivity|]). destruct I.
Qed.

(* four fields print the number of another code *)
Theorem labels_misnumbered_refuted : forall name label, List.In (name, label) misnumbered_fields ->
  exists code other, 0 <= code < 6 /\ other <> code /\ numbered other (label code) /\ ~ numbered code (label code).
Proof.
  intros n l I. cbn in I.
  assert (K : forall z z' s, z' <> z -> numbered z' s -> ~ numbered z s)
    by (intros z z' s N A B; apply N; eapply numbered_determines; eauto).
  destruct I as [I|[I|[I|[I|[]]]]]; injection I as <- <-.
  - exists 2, 1. assert (numbered 1 (bds09_fields.NavigationUncertaintyCategory_ToString 2)) by (eexists; vm_compute; reflexivity).
    repeat split; try lia; auto. apply (K 2 1); auto; lia.
  - exists 2, 1. assert (numbered 1 (bds10_fields.ModeSSubnetworkVersion_ToString 2)) by (eexists; vm_compute; reflexivity).
    repeat split; try lia; auto. apply (K 2 1); auto; lia.
  - exists 2, 1. assert (numbered 1 (bds62_fields.SourceIntegrityLevel_ToString 2)) by (eexists; vm_compute; reflexivity).
    repeat split; try lia; auto. apply (K 2 1); auto; lia.
  - exists 1, 0. assert (numbered 0 (bds65_fields.GeometricVerticalAccuracy_ToString 1)) by (eexists; vm_compute; reflexivity).
    repeat split; try lia; auto. apply (K 1 0); auto; lia.
Qed.

(* the sense of a resolution advisory is always printed as upward *)
Theorem sense_label_refuted :
  acas_ra_fields.ActiveRASense_ToString acas_ra_fields.ActiveRASenseDownward =
  acas_ra_fields.ActiveRASense_ToString acas_ra_fields.ActiveRASenseUpward.
Proof. reflexivity. Qed.
