(* Lemmas and tactics for the texts of the messages. *)
From Verif.Proofs Require Import Tac Octets Labels Texts.
From Verif.Gen Require bds00 bds05 bds05_fields bds06 bds06_fields bds07 bds07_fields bds08 bds08_fields bds09 bds09_fields bds10 bds10_fields bds17 bds20 bds30
  bds40 bds40_fields bds44 bds44_fields bds45 bds45_fields bds50 bds60 bds61 bds61_fields bds62 bds62_fields bds65 bds65_fields
  modes_fields modes_messages acas_ra acas_ra_fields
  adsb_airborne_position adsb_airborne_position_fields adsb_surface_position adsb_surface_position_fields
  adsb_no_position_information adsb_airborne_velocity adsb_aircraft_status adsb_target_state_and_status
  adsb_aircraft_operational_status adsb_aircraft_identification_and_category bds_register.
From Verif.Model Require Import Crc ModesReader.
From Verif.Model Require AdsbReader CommbReader.
From Verif.Spec Require Import Text Report Reports.
Require Import String Ascii List.
Import ListNotations.
Local Open Scope string_scope.

Lemma app_assoc_s : forall a b c : string, (a ++ b) ++ c = a ++ b ++ c.
Proof. induction a; intros; cbn; [reflexivity|]. rewrite IHa. reflexivity. Qed.
Lemma app_nil_s : forall a : string, a ++ "" = a.
Proof. induction a; cbn; [reflexivity|]. rewrite IHa. reflexivity. Qed.

(* ---- one line ---- *)
Fixpoint lineb (s : string) : bool :=
  match s with EmptyString => true | String c r => negb (Ascii.eqb c newline) && lineb r end.
Lemma lineb_ok : forall s, lineb s = true -> one_line s.
Proof.
  induction s; intro H; [exact I|]. cbn [lineb] in H. apply andb_prop in H. destruct H as [H1 H2].
  split; [|auto]. intro E. subst. cbn in H1. discriminate.
Qed.

Lemma line_uint : forall d, one_line (DecimalString.NilEmpty.string_of_uint d).
Proof. induction d; cbn; try exact I; (split; [unfold newline; cbn; discriminate|exact IHd]). Qed.
Lemma line_dec : forall z, one_line (dec z).
Proof.
  intro z. unfold dec. destruct (Z.to_int z) as [d|d]; cbn [DecimalString.NilZero.string_of_int].
  - destruct d; try (apply (line_uint)); cbn; repeat split; try exact I; try discriminate;
    first [apply (line_uint d)|idtac].
  - split; [discriminate|]. destruct d; cbn; repeat split; try discriminate; try exact I; apply (line_uint d).
Qed.
Lemma line_bool : forall b, one_line (bool_str b).
Proof. destruct b; apply lineb_ok; reflexivity. Qed.

(* ---- rows ---- *)
Fixpoint all_blank (s : string) : bool :=
  match s with EmptyString => true | String c r => Ascii.eqb c " " && all_blank r end.
Lemma all_blank_ok : forall s, all_blank s = true -> s = blanks (String.length s).
Proof.
  induction s; intro H; [reflexivity|]. cbn [all_blank] in H. apply andb_prop in H. destruct H as [H1 H2].
  apply Ascii.eqb_eq in H1. subst. cbn. rewrite <- IHs by assumption. reflexivity.
Qed.
Fixpoint after (t s : string) : option string :=
  match t, s with
  | EmptyString, _ => Some s
  | String a t', String b s' => if Ascii.eqb a b then after t' s' else None
  | _, _ => None
  end.
Lemma after_ok : forall t s r, after t s = Some r -> s = t ++ r.
Proof.
  induction t; destruct s; cbn; intros r H; try discriminate; try (injection H; intro; subst; reflexivity).
  destruct (Ascii.eqb _ _) eqn:E; [|discriminate]. apply Ascii.eqb_eq in E. subst. f_equal. auto.
Qed.
Definition lit_ok (title lit : string) : bool :=
  lineb lit &&
  match after title lit with
  | Some (String ":" r) => all_blank r
  | Some r => all_blank r
  | None => false
  end.

Lemma lit_row : forall title (p : string -> Prop) lit v, lit_ok title lit = true -> p v ->
  line_for (title, p) (lit ++ v) /\ one_line lit.
Proof.
  intros t p lit v H P. unfold lit_ok in H. apply andb_prop in H. destruct H as [H1 H].
  split; [|exact (lineb_ok _ H1)].
  destruct (after t lit) as [r|] eqn:A; [|discriminate]. apply after_ok in A. subst lit.
  assert (K : (exists r', r = String ":" r' /\ all_blank r' = true) \/ all_blank r = true).
  { destruct r as [|c r']; [right; exact H|].
    destruct (Ascii.ascii_dec c ":") as [E|E].
    - subst. left. exists r'. split; [reflexivity|exact H].
    - right. destruct c as [[] [] [] [] [] [] [] []]; try exact H; exfalso; apply E; reflexivity. }
  destruct K as [(r' & E & B)|B].
  - subst r. apply all_blank_ok in B. exists ":", (String.length r'), v. split; [left; reflexivity|].
    split; [|exact P]. cbn [fst]. rewrite B at 1. rewrite app_assoc_s. reflexivity.
  - apply all_blank_ok in B. exists "", (String.length r), v. split; [right; reflexivity|].
    split; [|exact P]. cbn [fst]. rewrite B at 1. rewrite app_assoc_s. reflexivity.
Qed.

Lemma shows_line : forall r l, line_for r l -> one_line l -> shows l [r].
Proof.
  intros r l H O. exists [l]. split; [|repeat constructor; exact H].
  split; [discriminate|]. split; [repeat constructor; exact O|reflexivity].
Qed.

Lemma text_app : forall a b, a <> [] -> b <> [] -> text_of_lines (a ++ b)%list = text_of_lines a ++ nl ++ text_of_lines b.
Proof.
  induction a as [|x a IH]; intros b NA NB; [congruence|].
  destruct a as [|y a].
  - destruct b; [congruence|]. reflexivity.
  - change (text_of_lines ((x :: y :: a) ++ b)) with (x ++ nl ++ text_of_lines ((y :: a) ++ b)).
    rewrite IH by (congruence || discriminate).
    change (text_of_lines (x :: y :: a)) with (x ++ nl ++ text_of_lines (y :: a)).
    rewrite !app_assoc_s. reflexivity.
Qed.

Lemma shows_app : forall a b ra rb, shows a ra -> shows b rb -> shows (a ++ nl ++ b) (ra ++ rb)%list.
Proof.
  intros a b ra rb (la & (NA & FA & EA) & FA') (lb & (NB & FB & EB) & FB').
  exists (la ++ lb)%list. split.
  - split; [destruct la; [congruence|discriminate]|]. split; [apply Forall_app; split; assumption|].
    rewrite text_app by assumption. congruence.
  - apply Forall2_app; assumption.
Qed.

Lemma shows_cons : forall title (p : string -> Prop) lit v rest rows, lit_ok title lit = true -> p v -> one_line v -> shows rest rows ->
  shows (lit ++ v ++ nl ++ rest) ((title, p) :: rows).
Proof.
  intros t p lit v rest rows L P O S. destruct (lit_row t p lit v L P) as [H OL].
  rewrite <- app_assoc_s. change ((t, p) :: rows) with ([(t, p)] ++ rows)%list.
  apply shows_app; [|exact S]. apply shows_line; [exact H|]. apply one_line_app; assumption.
Qed.
Lemma shows_last : forall title (p : string -> Prop) lit v, lit_ok title lit = true -> p v -> one_line v ->
  shows (lit ++ v) [(title, p)].
Proof.
  intros t p lit v L P O. destruct (lit_row t p lit v L P) as [H OL].
  apply shows_line; [exact H|]. apply one_line_app; assumption.
Qed.
(* a line without value *)
Lemma shows_head : forall title lit rest rows, lit_ok title lit = true -> shows rest rows ->
  shows (lit ++ nl ++ rest) ((title, heading) :: rows).
Proof.
  intros. change (lit ++ nl ++ rest) with (lit ++ "" ++ nl ++ rest).
  apply shows_cons; try assumption; [reflexivity|exact I].
Qed.
(* a line whose value is part of the literal *)
Fixpoint strip (s : string) : string :=
  match s with String " " r => strip r | _ => s end.
Lemma strip_ok : forall s, exists k, s = blanks k ++ strip s.
Proof.
  induction s as [|c s (k & IH)]; [exists 0%nat; reflexivity|].
  destruct (Ascii.ascii_dec c " ") as [E|E].
  - subst. exists (S k). cbn. congruence.
  - exists 0%nat. destruct c as [[] [] [] [] [] [] [] []]; try reflexivity. exfalso. apply E. reflexivity.
Qed.
Definition const_ok (title c lit : string) : bool :=
  lineb lit && match after (title ++ ":") lit with Some r => String.eqb (strip r) c | None => false end.
Lemma shows_const_last : forall title c lit, const_ok title c lit = true -> shows lit [(title, exactly c)].
Proof.
  intros t c lit H. apply andb_prop in H. destruct H as [H2 H1].
  apply shows_line; [|exact (lineb_ok _ H2)].
  destruct (after _ lit) as [r|] eqn:A; [|discriminate]. apply after_ok in A. apply String.eqb_eq in H1.
  destruct (strip_ok r) as (k & E). rewrite H1 in E.
  exists ":", k, c. split; [left; reflexivity|]. split; [|reflexivity]. cbn [fst]. subst lit. rewrite E at 1.
  rewrite !app_assoc_s. reflexivity.
Qed.
Lemma shows_const : forall title c lit rest rows, const_ok title c lit = true ->
  shows rest rows -> shows (lit ++ nl ++ rest) ((title, exactly c) :: rows).
Proof.
  intros t c lit rest rows H S. change ((t, exactly c) :: rows) with ([(t, exactly c)] ++ rows)%list.
  apply shows_app; [|exact S]. apply shows_const_last. exact H.
Qed.
(* an empty last line *)
Lemma shows_end : forall lit v title (p : string -> Prop), lit_ok title lit = true -> p v -> one_line v ->
  shows (lit ++ v ++ nl) [(title, p); ("", heading)].
Proof.
  intros. change nl with (nl ++ ""). apply shows_cons; try assumption.
  apply shows_line; [|exact I]. exists "", 0%nat, "". split; [right; reflexivity|]. split; reflexivity.
Qed.

Lemma line_blanks : forall n, one_line (blanks n).
Proof. induction n; cbn; [exact I|]. split; [discriminate|assumption]. Qed.

Lemma shows_prefix : forall n a ra, shows a ra -> shows (PrefixMultiLine a (blanks n)) (indented n ra).
Proof.
  intros n a ra (la & H & F). exists (map (fun l => blanks n ++ l) la). split.
  - apply prefix_lines; [exact H|apply line_blanks].
  - unfold indented. clear H. induction F; cbn; [constructor|]. constructor; [|assumption].
    destruct H as (colon & k & v & C & E & P). exists colon, k, v. split; [exact C|]. split; [|exact P].
    cbn [fst]. rewrite app_assoc_s. congruence.
Qed.

Lemma prefix_nl : forall p a b, one_line a ->
  PrefixMultiLine (a ++ nl ++ b) p = p ++ a ++ nl ++ PrefixMultiLine b p.
Proof.
  intros p a b O. unfold PrefixMultiLine. change (nl ++ b) with (String newline b). rewrite split_cons by exact O.
  destruct (split_spec b) as (N & _ & _). destruct (split_lines b) as [|l ls]; [congruence|].
  cbn [map String.concat]. rewrite !app_assoc_s. reflexivity.
Qed.
Lemma prefix_one : forall p a, one_line a -> PrefixMultiLine a p = p ++ a.
Proof. intros p a O. unfold PrefixMultiLine. rewrite split_one by exact O. reflexivity. Qed.

Definition lit_ok2 (title lit : string) : bool :=
  match after (title ++ ":") lit with Some r => all_blank r | None => false end.
Lemma titled_ok : forall title (p : string -> Prop) lit v n, lit_ok2 title lit = true -> p v ->
  titled title p (blanks n ++ lit ++ v).
Proof.
  intros t p lit v n L P. unfold lit_ok2 in L. destruct (after _ lit) as [r|] eqn:A; [|discriminate].
  apply after_ok in A. apply all_blank_ok in L. subst lit.
  exists n, (r ++ v). split; [rewrite !app_assoc_s; reflexivity|].
  exists (String.length r), v. split; [rewrite L at 1; reflexivity|exact P].
Qed.

(* ---- tactics ---- *)
Ltac flat := rewrite ?app_assoc_s.
Create HintDb line_db.
Create HintDb value_db.
Ltac one :=
  first
  [ assumption | solve [auto 2 with line_db nocore] | exact I | apply line_dec | apply line_bool
  | match goal with H : forall f, one_line _ |- _ => apply H end
  | apply lineb_ok; vm_compute; reflexivity
  | apply one_line_app; one ].
Ltac head_of t := match t with ?f _ => head_of f | _ => t end.
Ltac one_label :=
  first
  [ one
  | apply one_line_app; one_label
  | match goal with |- one_line ?t => let h := head_of t in unfold h end;
    repeat match goal with
    | |- one_line (if ?b then _ else _) => destruct b
    | |- one_line (match ?b with _ => _ end) => destruct b
    end; first [one | one_label] ].
Lemma said_other : forall l c v, (c < 0 \/ Z.of_nat (List.length l) <= c)%Z -> coded c v -> said l c v.
Proof.
  intros l c v H C. unfold said. destruct (Z.ltb_spec c 0) as [L|L]; [exact C|].
  destruct (nth_error l (Z.to_nat c)) eqn:E; [|exact C].
  assert (nth_error l (Z.to_nat c) <> None) as N by (rewrite E; discriminate).
  apply nth_error_Some in N. lia.
Qed.
(* the value of a row *)
Ltac saying :=
  match goal with |- said ?l ?c ?v =>
    let h := head_of v in unfold h; let x := fresh "x" in generalize c; clear; intro x;
    repeat match goal with |- said _ x (if (x =? ?k)%Z then _ else _) =>
      let k' := eval vm_compute in k in change (x =? k)%Z with (x =? k')%Z;
      destruct (Z.eqb_spec x k'); [subst x; vm_compute; reflexivity|]
    end;
    apply said_other; [cbn [List.length]; lia | apply dec_numbered]
  end.
Ltac value :=
  match goal with
  | |- said _ _ _ => first [assumption | saying]
  | |- coded ?z ?v =>
      unfold coded; first
      [ apply dec_numbered
      | let h := head_of v in unfold h;
        repeat match goal with |- numbered _ (if ?b then _ else _) => let E := fresh "E" in destruct b eqn:E end;
        close_label ]
  | |- _ => first [solve [auto 2 with value_db nocore] | reflexivity]
  end.
Ltac shows_step :=
  match goal with
  | |- shows (_ ++ nl ++ _) ((_, heading) :: _) => apply shows_head; [vm_compute; reflexivity|]
  | |- shows (_ ++ nl ++ _) ((_, exactly _) :: _) => apply shows_const; [vm_compute; reflexivity|]
  | |- shows (_ ++ _ ++ nl ++ _) ((_, _) :: _) =>
      apply shows_cons; [vm_compute; reflexivity|value|one_label|]
  | |- shows (_ ++ _ ++ nl) [_; _] => apply shows_end; [vm_compute; reflexivity|value|one_label]
  | |- shows (_ ++ _) [_] => apply shows_last; [vm_compute; reflexivity|value|one_label]
  | |- shows _ [(_, exactly _)] => apply shows_const_last; vm_compute; reflexivity
  end.

Create HintDb shows_db.
Ltac report := flat; repeat first [progress shows_step
  | match goal with
    | |- shows _ ((_ :: _) ++ _)%list => cbn [List.app]
    | |- shows (PrefixMultiLine _ _ ++ nl ++ _) (_ ++ _)%list =>
        apply shows_app; [apply (shows_prefix 4); solve [eauto with shows_db] | flat]
    | |- shows (_ ++ nl ++ _) (_ ++ _)%list => apply shows_app; [solve [eauto with shows_db] | flat]
    | |- shows (String ?c ?a ++ String ?d ?b ++ ?r) _ =>
        let x := eval vm_compute in (String c a ++ String d b) in
        change (String c a ++ String d b ++ r) with (x ++ r)
    end].

