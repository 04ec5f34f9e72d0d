(* strconv.ParseInt reads exactly the integer literals of Go that fit in 64 bits. *)
From Verif Require Import GoBase.
From Verif.Model Require Import ParseInt.
From Verif.Spec Require Import Integer.
Require Import Lia.
Local Open Scope Z_scope.

Lemma digit_of : forall c d, digitOf c = Some d -> digit c d.
Proof.
  assert (H : forall c, match digitOf c with
    | None => True
    | Some d =>
        (c = ascii_of_nat (48 + Z.to_nat d) /\ 0 <= d < 10) \/
        (c = ascii_of_nat (97 + Z.to_nat (d - 10)) /\ 10 <= d < 36) \/
        (c = ascii_of_nat (65 + Z.to_nat (d - 10)) /\ 10 <= d < 36)
    end).
  { intros c. destruct c as [[] [] [] [] [] [] [] []]; vm_compute;
    first [exact I | left; split; [reflexivity | split; congruence]
          | right; left; split; [reflexivity | split; congruence]
          | right; right; split; [reflexivity | split; congruence]]. }
  intros c d E. specialize (H c). rewrite E in H.
  destruct H as [[-> B] | [[-> B] | [-> B]]].
  - replace d with (Z.of_nat (Z.to_nat d)) at 2 by lia. apply digit_figure. lia.
  - replace d with (Z.of_nat (10 + Z.to_nat (d - 10))) at 2 by lia. apply digit_lower. lia.
  - replace d with (Z.of_nat (10 + Z.to_nat (d - 10))) at 2 by lia. apply digit_upper. lia.
Qed.

Lemma of_digit : forall c d, digit c d -> digitOf c = Some d.
Proof.
  intros c d H. destruct H as [n H | n H | n H].
  - do 10 (destruct n as [|n]; [reflexivity|]). exfalso; lia.
  - do 26 (destruct n as [|n]; [reflexivity|]). exfalso; lia.
  - do 26 (destruct n as [|n]; [reflexivity|]). exfalso; lia.
Qed.

Lemma digit_nonneg : forall c d, digit c d -> 0 <= d.
Proof. intros c d H. destruct H; lia. Qed.

(* what a digit of a small base is made of *)
Lemma digit_facts : forall c, match digitOf c with
  | None => True
  | Some d =>
      isUnderscore c = false /\ (code c =? 45) = false /\ (code c =? 43) = false /\
      ((48 <=? code c) && (code c <=? 57) = (d <? 10)) /\
      ((97 <=? lower c) && (lower c <=? 102) = (10 <=? d) && (d <? 16)) /\
      (d < 11 -> (lower c =? 98) = false) /\ (d < 24 -> (lower c =? 111) = false) /\ (d < 33 -> (lower c =? 120) = false) /\
      ((code c =? 48) = (d =? 0))
  end.
Proof.
  intros c. destruct c as [[] [] [] [] [] [] [] []]; vm_compute;
  first [exact I | repeat split; solve [reflexivity | congruence | intros; congruence]].
Qed.

(* ---- the digits of a text, without its underscores ---- *)
Fixpoint digs (base : Z) (s : string) : option (list Z) :=
  match s with
  | EmptyString => Some []
  | String c r =>
      if isUnderscore c then digs base r
      else match digitOf c with
           | None => None
           | Some d => if base <=? d then None
                       else match digs base r with None => None | Some ds => Some (d :: ds) end
           end
  end.

Definition step (base : Z) := fun n d : Z => n * base + d.

Lemma fold_ge : forall base ds n, 1 <= base -> 0 <= n -> Forall (fun d => 0 <= d) ds -> n <= fold_left (step base) ds n.
Proof.
  intros base ds. induction ds as [|d ds IH]; intros n B N F; cbn [fold_left]; [lia|].
  inversion F as [|? ? D F']; subst.
  unfold step at 2. assert (n <= n * base + d) by nia.
  specialize (IH (n * base + d) B ltac:(lia) F'). lia.
Qed.

Lemma digs_nonneg : forall base s ds, digs base s = Some ds -> Forall (fun d => 0 <= d) ds.
Proof.
  intros base s. induction s as [|c r IH]; intros ds E; cbn [digs] in E.
  - injection E as <-. constructor.
  - destruct (isUnderscore c); [auto|]. destruct (digitOf c) as [d|] eqn:D; [|discriminate].
    destruct (base <=? d); [discriminate|]. destruct (digs base r) as [ds'|]; [|discriminate].
    injection E as <-. constructor; [|auto]. exact (digit_nonneg _ _ (digit_of _ _ D)).
Qed.

Lemma loop_digs : forall base s n v, 2 <= base -> 0 <= n <= maxUint64 -> uintLoop base s n = Some v ->
  exists ds, digs base s = Some ds /\ v = fold_left (step base) ds n /\ v <= maxUint64.
Proof.
  intros base s. induction s as [|c r IH]; intros n v B N E; cbn [uintLoop digs] in *.
  - injection E as <-. exists []. repeat split; cbn; lia.
  - destruct (isUnderscore c).
    + apply IH; assumption.
    + destruct (digitOf c) as [d|] eqn:D; [|discriminate].
      pose proof (digit_nonneg _ _ (digit_of _ _ D)).
      destruct (base <=? d); [discriminate|].
      destruct (maxUint64 / base + 1 <=? n); [discriminate|].
      destruct (maxUint64 <? n * base + d) eqn:G; [discriminate|]. apply Z.ltb_ge in G.
      destruct (IH (n * base + d) v B ltac:(nia) E) as (ds & -> & -> & L).
      exists (d :: ds). repeat split; assumption.
Qed.

Lemma digs_loop : forall base s n ds, 2 <= base -> 0 <= n -> digs base s = Some ds ->
  fold_left (step base) ds n <= maxUint64 -> uintLoop base s n = Some (fold_left (step base) ds n).
Proof.
  intros base s. induction s as [|c r IH]; intros n ds B N E L; cbn [uintLoop digs] in *.
  - injection E as <-. reflexivity.
  - destruct (isUnderscore c).
    + apply IH; assumption.
    + destruct (digitOf c) as [d|] eqn:D; [|discriminate].
      pose proof (digit_nonneg _ _ (digit_of _ _ D)).
      destruct (base <=? d); [discriminate|].
      destruct (digs base r) as [ds'|] eqn:R; [|discriminate]. injection E as <-.
      cbn [fold_left] in *. change (step base n d) with (n * base + d) in *.
      pose proof (digs_nonneg _ _ _ R) as F.
      assert (n * base + d <= maxUint64).
      { pose proof (fold_ge base ds' (n * base + d) ltac:(lia) ltac:(nia) F). lia. }
      assert (n < maxUint64 / base + 1).
      { apply Z.lt_succ_r. apply Z.div_le_lower_bound; nia. }
      replace (maxUint64 / base + 1 <=? n) with false by (symmetry; apply Z.leb_gt; lia).
      replace (maxUint64 <? n * base + d) with false by (symmetry; apply Z.ltb_ge; lia).
      apply IH; [assumption | nia | reflexivity | assumption].
Qed.

Lemma digs_spelled : forall base s ds, base <= 36 -> spelled base s ds -> digs base s = Some ds.
Proof.
  intros base s ds B H. induction H as [c d C L | c d s ds C L H IH | c d s ds C L H IH];
    cbn [digs]; pose proof (of_digit _ _ C) as D; pose proof (digit_facts c) as F; rewrite D in F;
    destruct F as (U & _); rewrite U, D; replace (base <=? d) with false by (symmetry; apply Z.leb_gt; lia).
  - reflexivity.
  - rewrite IH. reflexivity.
  - change (isUnderscore "_") with true. cbn iota. rewrite IH. reflexivity.
Qed.

(* ---- underscores ---- *)
Definition hexOf (hex : bool) (base : Z) : Prop := base <= 10 \/ (hex = true /\ base <= 16).

Lemma under_code : forall c, isUnderscore c = true -> c = "_"%char.
Proof. intros c. destruct c as [[] [] [] [] [] [] [] []]; vm_compute; congruence. Qed.

Lemma digit_seen : forall hex base c d, hexOf hex base -> digitOf c = Some d -> d < base ->
  ((48 <=? code c) && (code c <=? 57)) || (hex && (97 <=? lower c) && (lower c <=? 102)) = true.
Proof.
  intros hex base c d H D L. pose proof (digit_facts c) as F. rewrite D in F.
  destruct F as (_ & _ & _ & F1 & F2 & _). rewrite F1. rewrite <- andb_assoc, F2.
  pose proof (digit_nonneg _ _ (digit_of _ _ D)).
  destruct H as [H | [-> H]].
  - replace (d <? 10) with true by (symmetry; apply Z.ltb_lt; lia). reflexivity.
  - destruct (d <? 10) eqn:T; [reflexivity|]. apply Z.ltb_ge in T.
    replace (10 <=? d) with true by (symmetry; apply Z.leb_le; lia).
    replace (d <? 16) with true by (symmetry; apply Z.ltb_lt; lia). reflexivity.
Qed.

Lemma placed : forall hex base s ds, hexOf hex base -> digs base s = Some ds ->
  (underscoreLoop hex s SawUnderscore = true -> spelled base s ds) /\
  (underscoreLoop hex s SawStart = true -> s = EmptyString \/ spelled base s ds) /\
  (underscoreLoop hex s SawDigit = true ->
     s = EmptyString \/ spelled base s ds \/ exists t, s = String "_" t /\ spelled base t ds).
Proof.
  intros hex base s. induction s as [|c r IH]; intros ds H E.
  - cbn. repeat split; intros; auto; discriminate.
  - cbn [digs] in E. destruct (isUnderscore c) eqn:U.
    + pose proof (under_code c U) as ->. destruct (IH ds H E) as (I1 & _ & _).
      assert (X : ((48 <=? code "_") && (code "_" <=? 57)) || (hex && (97 <=? lower "_") && (lower "_" <=? 102)) = false)
        by (destruct hex; reflexivity).
      cbn [underscoreLoop]. rewrite X. change (isUnderscore "_") with true. cbn iota.
      repeat split; try discriminate.
      intros K. right; right. exists r. split; [reflexivity|auto].
    + destruct (digitOf c) as [d|] eqn:D; [|discriminate].
      destruct (base <=? d) eqn:L; [discriminate|]. apply Z.leb_gt in L.
      destruct (digs base r) as [ds'|] eqn:R; [|discriminate]. injection E as <-.
      destruct (IH ds' H eq_refl) as (_ & _ & I3).
      cbn [underscoreLoop]. rewrite (digit_seen hex base c d H D L).
      assert (G : underscoreLoop hex r SawDigit = true -> spelled base (String c r) (d :: ds')).
      { intros K. destruct (I3 K) as [-> | [S | (t & -> & S)]].
        - cbn in R. injection R as <-. apply spelled_last; [apply digit_of; assumption|lia].
        - apply spelled_more; [apply digit_of; assumption|lia|assumption].
        - apply spelled_apart; [apply digit_of; assumption|lia|assumption]. }
      repeat split; auto.
Qed.

Lemma spelled_placed : forall hex base s ds, hexOf hex base -> spelled base s ds ->
  forall saw, underscoreLoop hex s saw = true.
Proof.
  intros hex base s ds H S. induction S as [c d C L | c d s ds C L S IH | c d s ds C L S IH]; intros saw;
    cbn [underscoreLoop]; rewrite (digit_seen hex base c d H (of_digit _ _ C) ltac:(lia)).
  - reflexivity.
  - apply IH.
  - assert (X : ((48 <=? code "_") && (code "_" <=? 57)) || (hex && (97 <=? lower "_") && (lower "_" <=? 102)) = false)
        by (destruct hex; reflexivity).
    rewrite X. change (isUnderscore "_") with true. cbn iota. apply IH.
Qed.

Lemma plain_spelled : forall base s ds, base <= 36 -> hasUnderscore s = false -> digs base s = Some ds ->
  s = EmptyString \/ spelled base s ds.
Proof.
  intros base s. induction s as [|c r IH]; intros ds B U E; [left; reflexivity|right].
  cbn [hasUnderscore digs] in *. apply Bool.orb_false_iff in U. destruct U as [U1 U2]. rewrite U1 in E.
  destruct (digitOf c) as [d|] eqn:D; [|discriminate].
  destruct (base <=? d) eqn:L; [discriminate|]. apply Z.leb_gt in L.
  destruct (digs base r) as [ds'|] eqn:R; [|discriminate]. injection E as <-.
  destruct (IH ds' B U2 eq_refl) as [-> | S].
  - cbn in R. injection R as <-. apply spelled_last; [apply digit_of; assumption|lia].
  - apply spelled_more; [apply digit_of; assumption|lia|assumption].
Qed.

Lemma core_from : forall hex base s n, hexOf hex base -> 2 <= base -> uintLoop base s 0 = Some n ->
  hasUnderscore s && negb (underscoreLoop hex s SawDigit) = false -> s <> EmptyString ->
  exists ds, n = number_of base ds /\ n <= maxUint64 /\
    (spelled base s ds \/ exists t, s = String "_" t /\ spelled base t ds).
Proof.
  intros hex base s n H B E U N.
  destruct (loop_digs base s 0 n B ltac:(unfold maxUint64; lia) E) as (ds & D & V & L).
  exists ds. split; [exact V|]. split; [exact L|].
  assert (base <= 36) by (destruct H as [|[_ ?]]; lia).
  destruct (hasUnderscore s) eqn:K.
  - destruct (underscoreLoop hex s SawDigit) eqn:P; [|discriminate].
    destruct (placed hex base s ds H D) as (_ & _ & P3). destruct (P3 P) as [?|[?|?]]; [contradiction|auto|auto].
  - destruct (plain_spelled base s ds ltac:(assumption) K D); [contradiction|auto].
Qed.

Lemma start_from : forall s n, uintLoop 10 s 0 = Some n ->
  hasUnderscore s && negb (underscoreLoop false s SawStart) = false -> s <> EmptyString ->
  exists ds, n = number_of 10 ds /\ n <= maxUint64 /\ spelled 10 s ds.
Proof.
  intros s n E U N. assert (H : hexOf false 10) by (left; lia).
  destruct (loop_digs 10 s 0 n ltac:(lia) ltac:(unfold maxUint64; lia) E) as (ds & D & V & L).
  exists ds. split; [exact V|]. split; [exact L|].
  destruct (hasUnderscore s) eqn:K.
  - destruct (underscoreLoop false s SawStart) eqn:P; [|discriminate].
    destruct (placed false 10 s ds H D) as (_ & P3 & _). destruct (P3 P); [contradiction|auto].
  - destruct (plain_spelled 10 s ds ltac:(lia) K D); [contradiction|auto].
Qed.

Lemma core_to : forall hex base s ds, hexOf hex base -> 2 <= base -> spelled base s ds ->
  number_of base ds <= maxUint64 ->
  uintLoop base s 0 = Some (number_of base ds) /\ (forall saw, underscoreLoop hex s saw = true) /\
  uintLoop base (String "_" s) 0 = Some (number_of base ds) /\ underscoreLoop hex (String "_" s) SawDigit = true.
Proof.
  intros hex base s ds H B S L.
  assert (base <= 36) by (destruct H as [|[_ ?]]; lia).
  pose proof (digs_spelled base s ds ltac:(assumption) S) as D.
  assert (E : uintLoop base s 0 = Some (number_of base ds)) by (apply digs_loop; [assumption|lia|assumption|exact L]).
  pose proof (spelled_placed hex base s ds H S) as P.
  split; [exact E|]. split; [exact P|]. split; [exact E|].
  cbn [underscoreLoop].
  assert (X : ((48 <=? code "_") && (code "_" <=? 57)) || (hex && (97 <=? lower "_") && (lower "_" <=? 102)) = false)
      by (destruct hex; reflexivity).
  rewrite X. change (isUnderscore "_") with true. cbn iota. apply P.
Qed.

Lemma code_is : forall c d, code c = code d -> c = d.
Proof.
  intros c d H. unfold code in H. rewrite <- (ascii_nat_embedding c), <- (ascii_nat_embedding d).
  f_equal. lia.
Qed.

Lemma lower_is : forall p, (lower p =? 98 = true -> p = "b"%char \/ p = "B"%char) /\
  (lower p =? 111 = true -> p = "o"%char \/ p = "O"%char) /\ (lower p =? 120 = true -> p = "x"%char \/ p = "X"%char).
Proof.
  intros p. destruct p as [[] [] [] [] [] [] [] []]; vm_compute; repeat split; intros; auto; discriminate.
Qed.

Lemma uint_natural : forall s n, ParseUint s = Some n -> natural s n /\ n <= maxUint64.
Proof.
  intros s n E. destruct s as [|z r]; [discriminate|]. unfold ParseUint in E.
  destruct (code z =? 48) eqn:Z0.
  - apply Z.eqb_eq in Z0. assert (z = "0"%char) as -> by (apply code_is; exact Z0).
    assert (OCT : forall n, uintLoop 8 r 0 = Some n ->
      hasUnderscore r && negb (underscoreLoop false r SawDigit) = false -> natural (String "0" r) n /\ n <= maxUint64).
    { intros m L U. destruct r as [|c r'] eqn:R.
      - cbn in L. injection L as <-. split; [exact natural_zero|unfold maxUint64; lia].
      - rewrite <- R in *. destruct (core_from false 8 r m ltac:(left; lia) ltac:(lia) L U ltac:(congruence)) as (ds & -> & B & [S | (t & T & S)]).
        + split; [|exact B]. exact (natural_based "0" 8 r ds prefix_0 S).
        + split; [|exact B]. rewrite T. exact (natural_based_apart "0" 8 t ds prefix_0 S). }
    destruct r as [|p [|q t]].
    + cbn in E. injection E as <-. split; [exact natural_zero|unfold maxUint64; lia].
    + (* one character after the zero: a digit, whatever underscoreOK says *)
      destruct (uintLoop 8 (String p EmptyString) 0) as [v|] eqn:L; [|discriminate].
      destruct (hasUnderscore (String p EmptyString) && negb (underscoreOK (String "0" (String p EmptyString)))) eqn:U; [discriminate|].
      injection E as ->. apply OCT; [reflexivity|].
      destruct (hasUnderscore (String p EmptyString)) eqn:K; [|reflexivity].
      cbn [hasUnderscore] in K. rewrite Bool.orb_false_r in K. apply under_code in K. subst p. discriminate U.
    + set (t' := String q t) in *.
      assert (NE : t' <> EmptyString) by discriminate.
      assert (BASED : forall base hex, hexOf hex base -> 2 <= base -> forall pre, prefix pre base ->
        String "0" (String p t') = (pre ++ t')%string ->
        uintLoop base t' 0 = Some n -> hasUnderscore t' && negb (underscoreLoop hex t' SawDigit) = false ->
        natural (String "0" (String p t')) n /\ n <= maxUint64).
      { intros base hex H B pre P W L U.
        destruct (core_from hex base t' n H B L U NE) as (ds & -> & M & [S | (u & T & S)]); (split; [|exact M]); rewrite W.
        - apply natural_based; assumption.
        - rewrite T. apply (natural_based_apart pre base u ds P S). }
      destruct (lower_is p) as (Pb & Po & Px).
      unfold underscoreOK in E. change ((code "0" =? 45) || (code "0" =? 43)) with false in E. cbn iota in E.
      change (code "0" =? 48) with true in E. rewrite Bool.andb_true_l in E.
      destruct (lower p =? 98) eqn:Eb.
      { destruct (uintLoop 2 t' 0) as [v|] eqn:L; [|discriminate].
        assert (Ex : lower p =? 120 = false) by (apply Z.eqb_eq in Eb; rewrite Eb; reflexivity).
        rewrite Ex in E. cbn [orb] in E.
        destruct (hasUnderscore t' && negb (underscoreLoop false t' SawDigit)) eqn:U; [discriminate|]. injection E as ->.
        destruct (Pb eq_refl) as [-> | ->].
        - apply (BASED 2 false ltac:(left; lia) ltac:(lia) "0b"%string prefix_b eq_refl L U).
        - apply (BASED 2 false ltac:(left; lia) ltac:(lia) "0B"%string prefix_B eq_refl L U). }
      destruct (lower p =? 111) eqn:Eo.
      { destruct (uintLoop 8 t' 0) as [v|] eqn:L; [|discriminate].
        assert (Ex : lower p =? 120 = false) by (apply Z.eqb_eq in Eo; rewrite Eo; reflexivity).
        rewrite Ex in E. cbn [orb] in E.
        destruct (hasUnderscore t' && negb (underscoreLoop false t' SawDigit)) eqn:U; [discriminate|]. injection E as ->.
        destruct (Po eq_refl) as [-> | ->].
        - apply (BASED 8 false ltac:(left; lia) ltac:(lia) "0o"%string prefix_o eq_refl L U).
        - apply (BASED 8 false ltac:(left; lia) ltac:(lia) "0O"%string prefix_O eq_refl L U). }
      destruct (lower p =? 120) eqn:Ex.
      { destruct (uintLoop 16 t' 0) as [v|] eqn:L; [|discriminate]. cbn [orb] in E.
        destruct (hasUnderscore t' && negb (underscoreLoop true t' SawDigit)) eqn:U; [discriminate|]. injection E as ->.
        destruct (Px eq_refl) as [-> | ->].
        - apply (BASED 16 true ltac:(right; split; [reflexivity|lia]) ltac:(lia) "0x"%string prefix_x eq_refl L U).
        - apply (BASED 16 true ltac:(right; split; [reflexivity|lia]) ltac:(lia) "0X"%string prefix_X eq_refl L U). }
      cbn [orb] in E.
      destruct (uintLoop 8 (String p t') 0) as [v|] eqn:L; [|discriminate].
      change (underscoreLoop false (String "0" (String p t')) SawStart) with (underscoreLoop false (String p t') SawDigit) in E.
      destruct (hasUnderscore (String p t') && negb (underscoreLoop false (String p t') SawDigit)) eqn:U; [discriminate|].
      injection E as ->. apply OCT; first [reflexivity|assumption].
  - assert (NZ : z <> "0"%char) by (intros ->; discriminate Z0).
    destruct (uintLoop 10 (String z r) 0) as [v|] eqn:L; [|discriminate].
    destruct (hasUnderscore (String z r) && negb (underscoreOK (String z r))) eqn:U; [discriminate|]. injection E as ->.
    assert (U' : hasUnderscore (String z r) && negb (underscoreLoop false (String z r) SawStart) = false).
    { destruct (hasUnderscore (String z r)) eqn:K; [|reflexivity]. cbn [andb] in *.
      refine (eq_trans (f_equal negb _) U). unfold underscoreOK.
      assert (S : (code z =? 45) || (code z =? 43) = false).
      { cbn [uintLoop] in L. destruct (isUnderscore z) eqn:Uz.
        - apply under_code in Uz. subst z. reflexivity.
        - destruct (digitOf z) as [d|] eqn:D; [|discriminate]. pose proof (digit_facts z) as F. rewrite D in F.
          destruct F as (_ & -> & -> & _). reflexivity. }
      rewrite S. destruct r as [|p r']; [reflexivity|]. rewrite Z0. reflexivity. }
    destruct (start_from (String z r) n L U' ltac:(discriminate)) as (ds & -> & B & S).
    split; [|exact B]. apply natural_decimal; assumption.
Qed.

Lemma spelled_cons : forall base s ds, spelled base s ds -> exists c r d, s = String c r /\ digitOf c = Some d /\ d < base.
Proof.
  intros base s ds H. destruct H as [c d C L | c d s ds C L H | c d s ds C L H];
    (eexists; eexists; exists d; split; [reflexivity|]; split; [apply of_digit; assumption|assumption]).
Qed.

Lemma uint_based : forall p base hex q t,
  (p = "b"%char \/ p = "B"%char) /\ base = 2 /\ hex = false \/
  (p = "o"%char \/ p = "O"%char) /\ base = 8 /\ hex = false \/
  (p = "x"%char \/ p = "X"%char) /\ base = 16 /\ hex = true ->
  ParseUint (String "0" (String p (String q t))) =
  match uintLoop base (String q t) 0 with
  | None => None
  | Some n => if hasUnderscore (String q t) && negb (underscoreLoop hex (String q t) SawDigit) then None else Some n
  end.
Proof.
  intros p base hex q t H.
  destruct H as [[[-> | ->] [-> ->]] | [[[-> | ->] [-> ->]] | [[-> | ->] [-> ->]]]]; reflexivity.
Qed.

Lemma natural_uint : forall s n, natural s n -> n <= maxUint64 -> ParseUint s = Some n.
Proof.
  intros s n H B. destruct H as [ | c s ds N S | p base s ds P S | p base s ds P S].
  - reflexivity.
  - destruct (core_to false 10 _ ds ltac:(left; lia) ltac:(lia) S B) as (L & U & _).
    destruct (spelled_cons _ _ _ S) as (c' & r & d & E & D & LT). injection E as <- <-.
    pose proof (digit_facts c) as F. rewrite D in F. destruct F as (_ & M & Q & _ & _ & _ & _ & _ & F0).
    unfold ParseUint. assert (C0 : code c =? 48 = false).
    { apply Z.eqb_neq. intros K. apply N. apply code_is. exact K. }
    rewrite C0, L. unfold underscoreOK. rewrite M, Q. cbn [orb].
    replace (match s with
             | EmptyString => underscoreLoop false (String c s) SawStart
             | String p r => if (code c =? 48) && ((lower p =? 98) || (lower p =? 111) || (lower p =? 120))
                             then underscoreLoop (lower p =? 120) r SawDigit
                             else underscoreLoop false (String c s) SawStart
             end) with true.
    + rewrite Bool.andb_false_r. reflexivity.
    + rewrite C0. cbn [andb]. destruct s; symmetry; apply U.
  - destruct (spelled_cons _ _ _ S) as (c & r & d & -> & D & LT).
    pose proof (digit_facts c) as F. rewrite D in F. destruct F as (_ & _ & _ & _ & _ & Fb & Fo & Fx & _).
    destruct P.
    + destruct (core_to false 8 _ ds ltac:(left; lia) ltac:(lia) S B) as (L & U & _).
      cbn [append]. unfold ParseUint. change (code "0" =? 48) with true. cbn iota.
      rewrite Fb, Fo, Fx by lia.
      assert (X : underscoreOK (String "0" (String c r)) = true).
      { unfold underscoreOK. change ((code "0" =? 45) || (code "0" =? 43)) with false. cbn iota.
        rewrite Fb, Fo, Fx by lia. rewrite Bool.andb_false_r.
        change (underscoreLoop false (String "0" (String c r)) SawStart) with (underscoreLoop false (String c r) SawDigit). apply U. }
      rewrite X. destruct r; rewrite L, Bool.andb_false_r; reflexivity.
    + destruct (core_to false 8 _ ds ltac:(left; lia) ltac:(lia) S B) as (L & U & _).
      cbn [append]. rewrite (uint_based _ 8 false) by tauto. rewrite L, U, Bool.andb_false_r. reflexivity.
    + destruct (core_to false 8 _ ds ltac:(left; lia) ltac:(lia) S B) as (L & U & _).
      cbn [append]. rewrite (uint_based _ 8 false) by tauto. rewrite L, U, Bool.andb_false_r. reflexivity.
    + destruct (core_to false 2 _ ds ltac:(left; lia) ltac:(lia) S B) as (L & U & _).
      cbn [append]. rewrite (uint_based _ 2 false) by tauto. rewrite L, U, Bool.andb_false_r. reflexivity.
    + destruct (core_to false 2 _ ds ltac:(left; lia) ltac:(lia) S B) as (L & U & _).
      cbn [append]. rewrite (uint_based _ 2 false) by tauto. rewrite L, U, Bool.andb_false_r. reflexivity.
    + destruct (core_to true 16 _ ds ltac:(right; split; [reflexivity|lia]) ltac:(lia) S B) as (L & U & _).
      cbn [append]. rewrite (uint_based _ 16 true) by tauto. rewrite L, U, Bool.andb_false_r. reflexivity.
    + destruct (core_to true 16 _ ds ltac:(right; split; [reflexivity|lia]) ltac:(lia) S B) as (L & U & _).
      cbn [append]. rewrite (uint_based _ 16 true) by tauto. rewrite L, U, Bool.andb_false_r. reflexivity.
  - destruct (spelled_cons _ _ _ S) as (c & r & d & -> & D & LT).
    destruct P; cbn [append].
    + destruct (core_to false 8 _ ds ltac:(left; lia) ltac:(lia) S B) as (_ & _ & L & U).
      unfold ParseUint. change (code "0" =? 48) with true. cbn iota.
      change (lower "_" =? 98) with false. change (lower "_" =? 111) with false. change (lower "_" =? 120) with false. cbn iota.
      rewrite L. change (underscoreOK (String "0" (String "_" (String c r)))) with (underscoreLoop false (String "_" (String c r)) SawDigit).
      rewrite U, Bool.andb_false_r. reflexivity.
    + destruct (core_to false 8 _ ds ltac:(left; lia) ltac:(lia) S B) as (_ & _ & L & U).
      rewrite (uint_based _ 8 false) by tauto. rewrite L, U, Bool.andb_false_r. reflexivity.
    + destruct (core_to false 8 _ ds ltac:(left; lia) ltac:(lia) S B) as (_ & _ & L & U).
      rewrite (uint_based _ 8 false) by tauto. rewrite L, U, Bool.andb_false_r. reflexivity.
    + destruct (core_to false 2 _ ds ltac:(left; lia) ltac:(lia) S B) as (_ & _ & L & U).
      rewrite (uint_based _ 2 false) by tauto. rewrite L, U, Bool.andb_false_r. reflexivity.
    + destruct (core_to false 2 _ ds ltac:(left; lia) ltac:(lia) S B) as (_ & _ & L & U).
      rewrite (uint_based _ 2 false) by tauto. rewrite L, U, Bool.andb_false_r. reflexivity.
    + destruct (core_to true 16 _ ds ltac:(right; split; [reflexivity|lia]) ltac:(lia) S B) as (_ & _ & L & U).
      rewrite (uint_based _ 16 true) by tauto. rewrite L, U, Bool.andb_false_r. reflexivity.
    + destruct (core_to true 16 _ ds ltac:(right; split; [reflexivity|lia]) ltac:(lia) S B) as (_ & _ & L & U).
      rewrite (uint_based _ 16 true) by tauto. rewrite L, U, Bool.andb_false_r. reflexivity.
Qed.

Lemma natural_nonneg : forall s n, natural s n -> 0 <= n.
Proof.
  assert (G : forall base s ds, 1 <= base -> spelled base s ds -> 0 <= number_of base ds).
  { intros base s ds B H. apply (fold_ge base ds 0 B); [lia|].
    induction H; repeat constructor; try assumption; eapply digit_nonneg; eassumption. }
  intros s n H. destruct H as [ | c s ds N S | p base s ds P S | p base s ds P S]; [lia| | | ];
    [ | destruct P | destruct P ]; (apply (G _ _ _) with (2 := S); lia).
Qed.

Lemma natural_first : forall s n, natural s n -> exists c r, s = String c r /\ (code c =? 43) = false /\ (code c =? 45) = false.
Proof.
  intros s n H. destruct H as [ | c s ds N S | p base s ds P S | p base s ds P S].
  - eexists _, _. split; [reflexivity|split; reflexivity].
  - destruct (spelled_cons _ _ _ S) as (c' & r & d & E & D & LT). injection E as <- <-.
    pose proof (digit_facts c) as F. rewrite D in F. destruct F as (_ & M & Q & _).
    eexists _, _. split; [reflexivity|split; assumption].
  - destruct P; eexists _, _; (split; [reflexivity|split; reflexivity]).
  - destruct P; eexists _, _; (split; [reflexivity|split; reflexivity]).
Qed.

Theorem parse_int : forall s z, ParseInt.ParseInt s = Some z <-> integer s z /\ - 2 ^ 63 <= z < 2 ^ 63.
Proof.
  intros s z. change (2 ^ 63) with 9223372036854775808. split.
  - intros E. destruct s as [|c r]; [discriminate|]. unfold ParseInt in E.
    destruct (code c =? 45) eqn:M.
    + assert (c = "-"%char) as -> by (apply code_is; apply Z.eqb_eq in M; exact M).
      rewrite Bool.orb_true_r in E. destruct (ParseUint r) as [u|] eqn:P; [|discriminate].
      cbn [negb andb] in E. destruct (9223372036854775808 <? u) eqn:L; [discriminate|]. apply Z.ltb_ge in L.
      injection E as <-. destruct (uint_natural _ _ P) as [N _]. pose proof (natural_nonneg _ _ N).
      split; [exact (integer_minus r u N)|lia].
    + destruct (code c =? 43) eqn:Q.
      * assert (c = "+"%char) as -> by (apply code_is; apply Z.eqb_eq in Q; exact Q).
        cbn [orb] in E. destruct (ParseUint r) as [u|] eqn:P; [|discriminate].
        cbn [negb andb] in E. destruct (9223372036854775808 <=? u) eqn:L; [discriminate|]. apply Z.leb_gt in L.
        injection E as <-. destruct (uint_natural _ _ P) as [N _]. pose proof (natural_nonneg _ _ N).
        split; [exact (integer_plus r u N)|lia].
      * cbn [orb] in E. destruct (ParseUint (String c r)) as [u|] eqn:P; [|discriminate].
        cbn [negb andb] in E. destruct (9223372036854775808 <=? u) eqn:L; [discriminate|]. apply Z.leb_gt in L.
        injection E as <-. destruct (uint_natural _ _ P) as [N _]. pose proof (natural_nonneg _ _ N).
        split; [exact (integer_unsigned _ u N)|lia].
  - intros [I B]. destruct I as [s n N | s n N | s n N]; pose proof (natural_nonneg _ _ N);
      assert (P : ParseUint s = Some n) by (apply natural_uint; [assumption|unfold maxUint64; lia]).
    + destruct (natural_first _ _ N) as (c & r & -> & Q & M). unfold ParseInt. rewrite M, Q. cbn [orb]. rewrite P. cbn [negb andb].
      replace (9223372036854775808 <=? n) with false by (symmetry; apply Z.leb_gt; lia). reflexivity.
    + cbn [append]. unfold ParseInt. change (code "+" =? 45) with false. change (code "+" =? 43) with true. cbn [orb]. rewrite P. cbn [negb andb].
      replace (9223372036854775808 <=? n) with false by (symmetry; apply Z.leb_gt; lia). reflexivity.
    + cbn [append]. unfold ParseInt. change (code "-" =? 45) with true. change (code "-" =? 43) with false. cbn [orb]. rewrite P. cbn [negb andb].
      replace (9223372036854775808 <? n) with false by (symmetry; apply Z.ltb_ge; lia). reflexivity.
Qed.

(* ---- decimal notation ---- *)
Require Import DecimalString DecimalZ DecimalPos.

Fixpoint figures (u : Decimal.uint) : list Z :=
  match u with
  | Decimal.Nil => []
  | Decimal.D0 u => 0 :: figures u | Decimal.D1 u => 1 :: figures u | Decimal.D2 u => 2 :: figures u
  | Decimal.D3 u => 3 :: figures u | Decimal.D4 u => 4 :: figures u | Decimal.D5 u => 5 :: figures u
  | Decimal.D6 u => 6 :: figures u | Decimal.D7 u => 7 :: figures u | Decimal.D8 u => 8 :: figures u
  | Decimal.D9 u => 9 :: figures u
  end.

Lemma figures_acc : forall u p, fold_left (step 10) (figures u) (Z.pos p) = Z.pos (Pos.of_uint_acc u p).
Proof.
  induction u; intros p; cbn [figures fold_left Pos.of_uint_acc]; try reflexivity; rewrite <- IHu; f_equal; unfold step; lia.
Qed.

Lemma figures_value : forall u, number_of 10 (figures u) = Z.of_N (Pos.of_uint u).
Proof.
  unfold number_of. change (fun n d : Z => n * 10 + d) with (step 10).
  induction u; cbn [figures fold_left Pos.of_uint]; try reflexivity; try exact IHu; apply (figures_acc u).
Qed.

Lemma figures_spelled : forall u, u <> Decimal.Nil -> spelled 10 (NilEmpty.string_of_uint u) (figures u).
Proof.
  assert (D : forall n, (n < 10)%nat -> digit (ascii_of_nat (48 + n)) (Z.of_nat n)) by (intros; apply digit_figure; assumption).
  assert (G : forall n u, (n < 10)%nat -> (u <> Decimal.Nil -> spelled 10 (NilEmpty.string_of_uint u) (figures u)) ->
     spelled 10 (String (ascii_of_nat (48 + n)) (NilEmpty.string_of_uint u)) (Z.of_nat n :: figures u)).
  { intros n u N H. destruct u; try (apply spelled_last; [apply D; assumption|lia]);
      (apply spelled_more; [apply D; assumption|lia|apply H; discriminate]). }
  induction u; intros N; try congruence.
  - apply (G 0%nat u ltac:(lia) IHu). - apply (G 1%nat u ltac:(lia) IHu). - apply (G 2%nat u ltac:(lia) IHu).
  - apply (G 3%nat u ltac:(lia) IHu). - apply (G 4%nat u ltac:(lia) IHu). - apply (G 5%nat u ltac:(lia) IHu).
  - apply (G 6%nat u ltac:(lia) IHu). - apply (G 7%nat u ltac:(lia) IHu). - apply (G 8%nat u ltac:(lia) IHu).
  - apply (G 9%nat u ltac:(lia) IHu).
Qed.

Lemma nzhead_not_zero : forall u v, Decimal.nzhead u <> Decimal.D0 v.
Proof. induction u; intros v; cbn [Decimal.nzhead]; try discriminate. apply IHu. Qed.

Lemma dec_pos : forall p, natural (NilZero.string_of_uint (Pos.to_uint p)) (Z.pos p).
Proof.
  intros p.
  assert (E : Z.of_N (Pos.of_uint (Pos.to_uint p)) = Z.pos p).
  { rewrite Unsigned.of_to. reflexivity. }
  assert (H : Decimal.unorm (Pos.to_uint p) = Pos.to_uint p).
  { pose proof (DecimalZ.to_of (Z.to_int (Z.pos p))) as H. rewrite DecimalZ.of_to in H. cbn [Z.to_int Decimal.norm] in H.
    injection H as H. symmetry. exact H. }
  rewrite <- E, <- figures_value. clear E.
  generalize dependent (Pos.to_uint p). intros u H.
  assert (NN : u <> Decimal.Nil) by (intros ->; discriminate H).
  pose proof (figures_spelled u NN) as S.
  destruct u as [|u|u|u|u|u|u|u|u|u|u]; [congruence| | | | | | | | | | ];
    try (apply natural_decimal; [discriminate|exact S]).
  (* a leading zero: only zero itself *)
  unfold Decimal.unorm in H. cbn [Decimal.nzhead] in H. destruct (Decimal.nzhead u) eqn:Z;
    try (exfalso; exact (nzhead_not_zero _ _ Z));
    try (exfalso; pose proof (f_equal Decimal.nzhead H) as K; cbn [Decimal.nzhead] in K; rewrite Z in K; discriminate K); try discriminate H.
  injection H as <-. exact natural_zero.
Qed.

Theorem dec_integer : forall z, integer (dec z) z.
Proof.
  intros z. destruct z as [|p|p].
  - apply integer_unsigned. exact natural_zero.
  - apply integer_unsigned. exact (dec_pos p).
  - exact (integer_minus _ _ (dec_pos p)).
Qed.
