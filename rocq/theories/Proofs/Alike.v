(* C117: the text of a Mode S message tells every field of it. *)
From Verif.Proofs Require Import Tac Octets ReportTools ReportsApi TextsExact.
From Verif.Spec Require Import Altitude Text Report Reports Alike.
From Verif.Model Require Import Crc ModesReader.
From Verif.Gen Require modes_common modes_messages modes_fields.
From Verif.Proofs Require Import ModeSReader.
From Verif.Proofs Require Labels ReportsModeS.
From Coq Require Import String Ascii List Decimal DecimalString.
Import ListNotations.
Local Open Scope string_scope.

(* ---- values that fit two rows ---- *)
Definition fits (p : string -> Prop) : Prop := forall v, p v -> solid v.
Lemma common_value : forall t p q, fits p -> fits q -> (exists l, line_for (t, p) l /\ line_for (t, q) l) -> exists v, p v /\ q v.
Proof.
  intros t p q P Q (l & (c & n & v & C & E & V) & (c' & n' & v' & C' & E' & V')).
  exists v. split; [exact V|]. replace v with v'; [exact V'|]. cbn [snd] in *. symmetry. apply (same_value t l v v' (P v V) (Q v' V')).
  - exists c, n, v. split; [exact C|]. split; [exact E|reflexivity].
  - exists c', n', v'. split; [exact C'|]. split; [exact E'|reflexivity].
Qed.

Lemma solid_app : forall a b, solid a -> solid (a ++ b).
Proof. intros [|c a] b S; [destruct S|exact S]. Qed.
Lemma solid_numeral : forall z, solid (numeral z).
Proof.
  intro z. unfold numeral, NilZero.string_of_int, NilZero.string_of_uint.
  destruct (Z.to_int z) as [d|d]; destruct d; split; discriminate.
Qed.
Lemma solid_hex : forall c s x, hex_value c = Some x -> solid (String c s).
Proof. intros c s x H. split; intro E; subst c; cbn in H; discriminate H. Qed.

Lemma fits_coded : forall z, fits (coded z).
Proof. intros z v (w & ->). apply solid_app. apply solid_numeral. Qed.
Lemma fits_number : forall z, fits (number z).
Proof. intros z v ->. apply solid_numeral. Qed.
Lemma fits_utility : forall u, fits (utility_value u).
Proof. intros u v (d & _ & ->). cbn. split; discriminate. Qed.
Lemma fits_decimal : forall l, fits (decimal_octets l).
Proof. intros l v ->. cbn. split; discriminate. Qed.
Lemma fits_identity : forall s, solid s -> fits (identity_value s).
Proof. intros s S v ->. apply solid_app. exact S. Qed.
Lemma fits_format : forall df name, fits (exactly (numeral df ++ " - " ++ name)).
Proof. intros df name v ->. apply solid_app. apply solid_numeral. Qed.
Lemma octet_solid : forall b s t, hex_octet b s -> solid (s ++ t).
Proof. intros b s t (x & y & h & l & -> & H & _). exact (solid_hex h _ x H). Qed.
Lemma fits_octets : forall l, fits (hex_octets l).
Proof. intros l v H. inversion H; subst; [|exact (octet_solid _ _ _ H0)]. rewrite <- (app_nil_s v). exact (octet_solid _ _ "" H0). Qed.

Lemma address_shape : forall v a, address_of_text v = Some a -> exists c s x, v = String c s /\ hex_value c = Some x /\ String.length v = 9%nat.
Proof.
  intros v a H. destruct v as [|a1 [|a2 [|a3 v]]]; cbn [address_of_text] in H; try discriminate H.
  destruct a3 as [[] [] [] [] [] [] [] []]; try discriminate H.
  destruct v as [|b1 [|b2 [|b3 v]]]; try discriminate H.
  destruct b3 as [[] [] [] [] [] [] [] []]; try discriminate H.
  destruct v as [|c1 [|c2 [|c3 v]]]; try discriminate H.
  destruct c3 as [[] [] [] [] [] [] [] []]; try discriminate H.
  destruct v; [|discriminate H]. cbn beta iota in H.
  do 2 eexists. destruct (hex_value a1) as [x|] eqn:E; [|discriminate H]. exists x. split; [reflexivity|]. split; [exact E|reflexivity].
Qed.
Lemma fits_address : forall a, fits (address_text a).
Proof.
  intros a v [H|H]; apply address_shape in H; destruct H as (c & s & x & E & H & L).
  - subst v. exact (solid_hex c s x H).
  - destruct v as [|c' v]; cbn in E; injection E as E1 E2; subst; [cbn in H; discriminate H|]. exact (solid_hex _ v x H).
Qed.

(* ---- a value determines the field ---- *)
Lemma length_app : forall a b, String.length (a ++ b) = (String.length a + String.length b)%nat.
Proof. induction a; intro b; cbn; [reflexivity|]. rewrite IHa. reflexivity. Qed.

Lemma coded_field : forall z z' v, coded z v -> coded z' v -> z = z'.
Proof. exact Labels.numbered_determines. Qed.
Lemma number_field : forall z z' v, number z v -> number z' v -> z = z'.
Proof. intros z z' v H H'. apply Labels.numeral_inj. congruence. Qed.

Fixpoint free (c : ascii) (s : string) : Prop := match s with EmptyString => True | String x r => x <> c /\ free c r end.
Lemma until : forall c a b r r', free c a -> free c b -> a ++ String c r = b ++ String c r' -> a = b /\ r = r'.
Proof.
  intros c. induction a as [|x a IH]; intros [|y b] r r' A B E; cbn in E; [injection E as E|injection E as E1 E2|injection E as E1 E2|injection E as E1 E2].
  - auto.
  - destruct B. congruence.
  - destruct A. congruence.
  - destruct A as [_ A], B as [_ B]. destruct (IH b r r' A B E2). subst. auto.
Qed.
Definition digital (c : ascii) : Prop := c = "-"%char \/ List.In c ["0"; "1"; "2"; "3"; "4"; "5"; "6"; "7"; "8"; "9"]%char.
Lemma free_numeral : forall c z, ~ digital c -> free c (numeral z).
Proof.
  intros c z N. assert (U : forall d, free c (NilEmpty.string_of_uint d)).
  { induction d; cbn; try exact I; (split; [intro E; apply N; right; rewrite <- E; cbn; tauto|assumption]). }
  unfold numeral, NilZero.string_of_int, NilZero.string_of_uint.
  assert (Z : free c "0") by (cbn; split; [intro E; apply N; right; rewrite <- E; cbn; tauto|exact I]).
  assert (M : "-"%char <> c) by (intro E; apply N; left; congruence).
  destruct (Z.to_int z) as [d|d]; [|split; [exact M|]]; destruct d; first [exact Z|apply U with (d := Nil)|apply (U (D0 d))|apply (U (D1 d))|apply (U (D2 d))|apply (U (D3 d))|apply (U (D4 d))|apply (U (D5 d))|apply (U (D6 d))|apply (U (D7 d))|apply (U (D8 d))|apply (U (D9 d))].
Qed.
Ltac not_digital := let H := fresh in intros [H|H]; [discriminate H|cbn in H; repeat (destruct H as [H|H]; [discriminate H|]); exact H].

Lemma utility_field : forall u u' v, utility_value u v -> utility_value u' v -> u = u'.
Proof.
  intros [i d] [i' d'] v (w & W & E) (w' & W' & E'). cbn [modes_fields.UtilityMessage_IdentifierDesignator modes_fields.UtilityMessage_InterrogatorIdentifier] in *.
  subst v. apply app_inj in E'. 
  apply (until "," (numeral i) (numeral i')) in E'; [|apply free_numeral; not_digital..]. destruct E' as [E1 E2].
  apply Labels.numeral_inj in E1. apply (app_inj " Reservation: ") in E2. subst i' w'. f_equal. exact (coded_field d d' w W W').
Qed.

Lemma identity_field : forall a b c d a' b' c' d' v, identity_value (squawk a b c d) v -> identity_value (squawk a' b' c' d') v ->
  squawk a b c d = squawk a' b' c' d'.
Proof.
  intros a b c d a' b' c' d' v H H'. unfold identity_value, exactly in H, H'. rewrite H in H'. clear H v. revert H'.
  match goal with |- (_ ++ ?s = _ ++ ?s')%string -> _ => generalize s; generalize s' end. intros s s' E.
  unfold squawk in *. cbn [String.append] in E. injection E as E1 E2 E3 E4 _. rewrite E1, E2, E3, E4. reflexivity.
Qed.

Lemma octet_field : forall b b' s, hex_octet b s -> hex_octet b' s -> b = b'.
Proof. intros b b' s (x & y & h & l & E & H & L & B) (x' & y' & h' & l' & E' & H' & L' & B'). rewrite E in E'. injection E' as <- <-. rewrite H in H'. rewrite L in L'. injection H' as <-. injection L' as <-. congruence. Qed.
Lemma octet_length : forall b s, hex_octet b s -> String.length s = 2%nat.
Proof. intros b s (x & y & h & l & -> & _). reflexivity. Qed.
Lemma app_same_length : forall a b r r', String.length a = String.length b -> a ++ r = b ++ r' -> a = b /\ r = r'.
Proof.
  induction a as [|x a IH]; intros [|y b] r r' L E; try (cbn in L; discriminate L); [auto|]. cbn in E. injection E as <- E. injection L as L.
  destruct (IH b r r' L E). subst. auto.
Qed.
Lemma octets_field : forall l l' v, hex_octets l v -> hex_octets l' v -> l = l'.
Proof.
  intros l l' v H. revert l'. induction H as [b s H|b s l t H T IH]; intros l' H'; inversion H' as [b' s' O'|b' s' k t' O' T' E1 E2]; subst.
  - f_equal. exact (octet_field _ _ _ H O').
  - exfalso. apply octet_length in H. apply octet_length in O'. rewrite length_app in H. cbn in H. lia.
  - exfalso. apply octet_length in H. apply octet_length in O'. rewrite length_app in O'. cbn in O'. lia.
  - apply app_same_length in E2; [|rewrite (octet_length _ _ H), (octet_length _ _ O'); reflexivity]. destruct E2 as [-> E2].
    injection E2 as ->. rewrite (octet_field _ _ _ H O'). f_equal. exact (IH k T').
Qed.

Lemma address_field : forall a a' v, address_text a v -> address_text a' v -> a = a'.
Proof.
  assert (L : forall a a' v, address_of_text v = Some a -> address_of_text (v ++ " ") = Some a' -> False).
  { intros a a' v H H'. apply address_shape in H. apply address_shape in H'. destruct H as (_ & _ & _ & _ & _ & H), H' as (_ & _ & _ & _ & _ & H').
    rewrite length_app in H'. cbn in H'. lia. }
  intros a a' v [H|H] [H'|H']; try congruence; exfalso; [exact (L _ _ v H H')|exact (L _ _ v H' H)].
Qed.

Lemma decimal_tail : forall l l', String.concat " " (List.map numeral l) ++ "]" = String.concat " " (List.map numeral l') ++ "]" -> l = l'.
Proof.
  assert (N : forall z s, numeral z ++ s <> "]").
  { intros z s E. pose proof (free_numeral "]" z ltac:(not_digital)) as F. pose proof (solid_numeral z) as S.
    destruct (numeral z) as [|c r]; [exact S|]. injection E as E _. destruct F. congruence. }
  assert (M : forall z x y l, (numeral z ++ "]" <> String.concat " " (List.map numeral (x :: y :: l)) ++ "]")).
  { intros z x y l E. change (String.concat " " (List.map numeral (x :: y :: l))) with (numeral x ++ " " ++ String.concat " " (List.map numeral (y :: l))) in E.
    rewrite !app_assoc_s in E.
    assert (G : forall a b s, free " " a -> free "]" b -> a ++ "]" <> b ++ String " " s).
    { clear. induction a as [|c a IH]; intros [|c' b] s A B E; cbn in E; [discriminate E|injection E as E1 E2|injection E as E1 E2|injection E as E1 E2].
      - destruct B. congruence.
      - destruct A. congruence.
      - destruct A as [_ A], B as [_ B]. exact (IH b s A B E2). }
    exact (G _ _ _ (free_numeral " " z ltac:(not_digital)) (free_numeral "]" x ltac:(not_digital)) E). }
  induction l as [|x l IH]; intros [|x' l'] E.
  - reflexivity.
  - exfalso. destruct l' as [|y l']; [cbn in E; exact (N _ _ (eq_sym E))|].
    change (String.concat " " (List.map numeral (x' :: y :: l'))) with (numeral x' ++ " " ++ String.concat " " (List.map numeral (y :: l'))) in E.
    rewrite app_assoc_s in E. exact (N _ _ (eq_sym E)).
  - exfalso. destruct l as [|y l]; [cbn in E; exact (N _ _ E)|].
    change (String.concat " " (List.map numeral (x :: y :: l))) with (numeral x ++ " " ++ String.concat " " (List.map numeral (y :: l))) in E.
    rewrite app_assoc_s in E. exact (N _ _ E).
  - destruct l as [|y l], l' as [|y' l'].
    + cbn in E. apply (until "]" (numeral x) (numeral x')) in E; [|apply free_numeral; not_digital..]. destruct E as [E _].
      apply Labels.numeral_inj in E. congruence.
    + destruct (M _ _ _ _ E).
    + destruct (M _ _ _ _ (eq_sym E)).
    + change (String.concat " " (List.map numeral (x :: y :: l))) with (numeral x ++ " " ++ String.concat " " (List.map numeral (y :: l))) in E.
      change (String.concat " " (List.map numeral (x' :: y' :: l'))) with (numeral x' ++ " " ++ String.concat " " (List.map numeral (y' :: l'))) in E.
      rewrite !app_assoc_s in E. apply (until " " (numeral x) (numeral x')) in E; [|apply free_numeral; not_digital..]. destruct E as [E1 E2].
      apply Labels.numeral_inj in E1. subst x'. f_equal. exact (IH _ E2).
Qed.
Lemma decimal_field : forall l l' v, decimal_octets l v -> decimal_octets l' v -> l = l'.
Proof. intros l l' v H H'. unfold decimal_octets, exactly in *. subst v. apply (app_inj "[") in H'. exact (decimal_tail l l' H'). Qed.
