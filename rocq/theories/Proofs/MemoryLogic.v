(* A logic for programs that write only what they allocate, and its soundness for
   any number of them running together. *)
From Verif Require Import GoBase.
From Verif.Model Require Import Memory.
Require Import Lia PeanoNat.
Local Open Scope nat_scope.

Definition owned := nat -> option (list Z).
Definition nothing : owned := fun _ => None.
Definition put (own : owned) (a : nat) (l : list Z) : owned := fun b => if Nat.eqb b a then Some l else own b.
Definition grows (own own' : owned) : Prop := forall a l, own a = Some l -> own' a = Some l.

(* the array [a], among those [R] that nobody writes and those that are owned *)
Definition lookup (R : memory) (own : owned) (a : nat) : option (list Z) :=
  if a <? List.length R then nth_error R a else own a.

Fixpoint wp {A : Type} (R : memory) (p : prog A) (own : owned) (Q : A -> owned -> Prop) : Prop :=
  match p with
  | Ret a => Q a own
  | Panics => False
  | Load s i k =>
      match lookup R own (array s) with
      | Some l => match idx (window s l) i with Ok v => wp R (k v) own Q | _ => False end
      | None => False
      end
  | Store s i v k =>
      List.length R <= array s /\
      match own (array s) with
      | Some l => (exists w, idx (window s l) i = Ok w) /\ wp R k (put own (array s) (write l (start s + Z.to_nat i) v)) Q
      | None => False
      end
  | Make n k => forall a, List.length R <= a -> own a = None -> wp R (k (mkSlice a 0 n)) (put own a (List.repeat 0%Z n)) Q
  end.

Lemma wp_mono : forall A R (p : prog A) own (Q Q' : A -> owned -> Prop),
  (forall a o, Q a o -> Q' a o) -> wp R p own Q -> wp R p own Q'.
Proof.
  intros A R p. induction p as [a| |s i k IH|s i v k IH|n k IH]; intros own Q Q' H W; cbn [wp] in *.
  - auto.
  - exact W.
  - destruct (lookup R own (array s)) as [l|]; [|exact W].
    destruct (idx (window s l) i); [|exact W|exact W]. eapply IH; eassumption.
  - destruct W as [L W]. split; [exact L|]. destruct (own (array s)) as [l|]; [|exact W].
    destruct W as [E W]. split; [exact E|]. eapply IH; eassumption.
  - intros a L N. eapply IH; [eassumption|]. apply W; assumption.
Qed.

Lemma wp_bind : forall A B R (p : prog A) (f : A -> prog B) own Q,
  wp R p own (fun a o => wp R (f a) o Q) -> wp R (bind p f) own Q.
Proof.
  intros A B R p f. induction p as [a| |s i k IH|s i v k IH|n k IH]; intros own Q W; cbn [wp bind] in *.
  - exact W.
  - exact W.
  - destruct (lookup R own (array s)) as [l|]; [|exact W].
    destruct (idx (window s l) i); [|exact W|exact W]. apply IH. exact W.
  - destruct W as [L W]. split; [exact L|]. destruct (own (array s)) as [l|]; [|exact W].
    destruct W as [E W]. split; [exact E|]. apply IH. exact W.
  - intros a L N. apply IH. apply W; assumption.
Qed.

(* ---- soundness ---- *)

(* a thread, what it owns and what it promises *)
Record state (A : Type) := mkState { code : prog A; owns : owned; promise : A -> owned -> Prop }.
Arguments code {A}. Arguments owns {A}. Arguments promise {A}.

Definition coherent {A : Type} (R m : memory) (ts : list (state A)) : Prop :=
  (exists ext, m = R ++ ext)%list /\
  (forall i t, nth_error ts i = Some t -> wp R (code t) (owns t) (promise t)) /\
  (forall i t a l, nth_error ts i = Some t -> owns t a = Some l -> List.length R <= a /\ nth_error m a = Some l) /\
  (forall i j t u a, nth_error ts i = Some t -> nth_error ts j = Some u -> i <> j -> owns t a <> None -> owns u a = None).

Lemma lookup_memory : forall A (R m : memory) (ts : list (state A)) i t a l, coherent R m ts ->
  nth_error ts i = Some t -> lookup R (owns t) a = Some l -> nth a m [] = l.
Proof.
  intros A R m ts i t a l (P & _ & O & _) T L. unfold lookup in L.
  destruct (a <? List.length R) eqn:B.
  - destruct P as [ext ->]. apply Nat.ltb_lt in B. rewrite app_nth1 by assumption. apply nth_error_nth; assumption.
  - destruct (O i t a l T L) as [_ H]. apply nth_error_nth; assumption.
Qed.

Lemma nth_error_replace : forall A (l : list A) n x i, n < List.length l ->
  nth_error (replace l n x) i = if Nat.eqb i n then Some x else nth_error l i.
Proof.
  intros A l. induction l as [|a l IH]; intros n x i H; cbn in H; [lia|].
  destruct n as [|n]; destruct i as [|i]; try reflexivity.
  cbn [replace nth_error Nat.eqb]. apply IH. lia.
Qed.

Lemma length_replace : forall A (l : list A) n x, List.length (replace l n x) = List.length l.
Proof. intros A l. induction l as [|a l IH]; intros [|n] x; cbn; auto. Qed.

Lemma replace_app : forall A (l r : list A) n x, List.length l <= n ->
  replace (l ++ r)%list n x = (l ++ replace r (n - List.length l) x)%list.
Proof.
  intros A l. induction l as [|a l IH]; intros r n x H; cbn in *.
  - rewrite Nat.sub_0_r. reflexivity.
  - destruct n as [|n]; [lia|]. cbn. f_equal. apply IH. lia.
Qed.

Definition pool {A : Type} (ts : list (state A)) : list (prog A) := List.map code ts.

Lemma split_map : forall A B (f : A -> B) l before b after, List.map f l = (before ++ b :: after)%list ->
  exists l1 x l2, l = (l1 ++ x :: l2)%list /\ List.map f l1 = before /\ f x = b /\ List.map f l2 = after.
Proof.
  intros A B f l. induction l as [|a l IH]; intros before b after E.
  - destruct before; discriminate.
  - destruct before as [|b0 before]; cbn in E; injection E as E1 E2.
    + exists [], a, l. repeat split; assumption.
    + destruct (IH before b after E2) as (l1 & x & l2 & -> & <- & <- & <-).
      exists (a :: l1), x, l2. subst b0. repeat split; reflexivity.
Qed.

Lemma nth_middle_cases : forall A (l1 l2 : list A) x y i t, nth_error (l1 ++ y :: l2)%list i = Some t ->
  (i = List.length l1 /\ t = y) \/ (i <> List.length l1 /\ nth_error (l1 ++ x :: l2)%list i = Some t).
Proof.
  intros A l1 l2 x y i t H.
  destruct (Nat.eq_dec i (List.length l1)) as [->|N].
  - left. rewrite nth_error_app2, Nat.sub_diag in H by lia. cbn in H. injection H as <-. auto.
  - right. split; [exact N|]. destruct (Nat.lt_ge_cases i (List.length l1)).
    + rewrite nth_error_app1 in * by assumption. exact H.
    + rewrite nth_error_app2 in * by assumption. destruct (i - List.length l1) eqn:D; [lia|]. exact H.
Qed.

Lemma nth_middle_other : forall A (l1 l2 : list A) x y i, i <> List.length l1 ->
  nth_error (l1 ++ y :: l2)%list i = nth_error (l1 ++ x :: l2)%list i.
Proof.
  intros A l1 l2 x y i N. destruct (Nat.lt_ge_cases i (List.length l1)).
  - rewrite !nth_error_app1 by assumption. reflexivity.
  - rewrite !nth_error_app2 by assumption. destruct (i - List.length l1) eqn:D; [lia|]. reflexivity.
Qed.

Lemma nth_middle : forall A (l1 l2 : list A) x, nth_error (l1 ++ x :: l2)%list (List.length l1) = Some x.
Proof. intros. rewrite nth_error_app2, Nat.sub_diag by lia. reflexivity. Qed.

(* the thread [t] becomes [t'], with the same memory for the others *)
Lemma coherent_step : forall A (R m m' : memory) l1 (t t' : state A) l2,
  coherent R m (l1 ++ t :: l2)%list ->
  (exists ext, m' = R ++ ext)%list ->
  wp R (code t') (owns t') (promise t') ->
  (forall a l, owns t' a = Some l -> List.length R <= a /\ nth_error m' a = Some l) ->
  (forall u a l, List.In u (l1 ++ l2)%list -> owns u a = Some l -> nth_error m a = Some l -> owns t a = None -> nth_error m' a = Some l) ->
  (forall a, owns t' a <> None -> owns t a <> None \/ nth_error m a = None) ->
  coherent R m' (l1 ++ t' :: l2)%list.
Proof.
  intros A R m m' l1 t t' l2 (P & W & O & D) P' W' O' F N.
  pose proof (nth_middle _ l1 l2 t) as T.
  assert (DJ : forall i u a, i <> List.length l1 -> nth_error (l1 ++ t :: l2)%list i = Some u -> owns u a <> None -> owns t a = None).
  { intros i u a I U K. exact (D i (List.length l1) u t a U T I K). }
  assert (IN : forall i u, i <> List.length l1 -> nth_error (l1 ++ t :: l2)%list i = Some u -> List.In u (l1 ++ l2)%list).
  { intros i u I U. apply List.in_or_app. destruct (Nat.lt_ge_cases i (List.length l1)).
    - left. rewrite nth_error_app1 in U by assumption. eapply nth_error_In; eassumption.
    - right. rewrite nth_error_app2 in U by assumption. destruct (i - List.length l1) eqn:E; [lia|]. cbn in U. eapply nth_error_In; eassumption. }
  split; [exact P'|]. split; [|split].
  - intros i u U. destruct (nth_middle_cases _ l1 l2 t t' i u U) as [[_ ->]|[_ U']]; [exact W'|exact (W i u U')].
  - intros i u a l U K. destruct (nth_middle_cases _ l1 l2 t t' i u U) as [[_ ->]|[I U']]; [exact (O' a l K)|].
    destruct (O i u a l U' K) as [L M]. split; [exact L|]. apply (F u a l); try assumption.
    + exact (IN i u I U').
    + apply (DJ i u a I U'). congruence.
  - intros i j u v a U V I K.
    destruct (nth_middle_cases _ l1 l2 t t' i u U) as [[Ei ->]|[Ii U']];
    destruct (nth_middle_cases _ l1 l2 t t' j v V) as [[Ej ->]|[Ij V']]; try lia.
    + (* u = t' : what it owns was its own or did not exist *)
      destruct (N a K) as [K'|K'].
      * subst i. exact (D (List.length l1) j t v a T V' ltac:(lia) K').
      * destruct (owns v a) as [l|] eqn:E; [|reflexivity].
        destruct (O j v a l V' E) as [_ M]. congruence.
    + (* v = t' *)
      destruct (owns t' a) as [l|] eqn:E; [|reflexivity]. exfalso.
      destruct (N a ltac:(congruence)) as [K'|K'].
      * apply K'. exact (DJ i u a Ii U' K).
      * destruct (owns u a) as [l'|] eqn:E'; [|congruence].
        destruct (O i u a l' U' E') as [_ M]. congruence.
    + exact (D i j u v a U' V' I K).
Qed.

Lemma write_length : forall l n v, n < List.length l -> List.length (write l n v) = List.length l.
Proof. intros l n v H. unfold write. rewrite app_length, firstn_length. cbn [List.length]. rewrite skipn_length. lia. Qed.

Lemma idx_in : forall A (l : list A) i v, idx l i = Ok v -> nth_error l (Z.to_nat i) = Some v.
Proof.
  intros A l i v H. unfold idx in H. destruct (i <? 0)%Z; [discriminate|].
  destruct (nth_error l (Z.to_nat i)); [injection H as ->; reflexivity|discriminate].
Qed.

Lemma idx_not_err : forall A (l : list A) i e, idx l i <> Err e.
Proof. intros A l i e. unfold idx. destruct (i <? 0)%Z; [discriminate|]. destruct (nth_error l (Z.to_nat i)); discriminate. Qed.

Theorem sound_step : forall A (R m m' : memory) (ts : list (state A)) ps', coherent R m ts ->
  schedule m (pool ts) m' ps' -> exists ts', pool ts' = ps' /\ coherent R m' ts' /\
    List.map promise ts' = List.map promise ts.
Proof.
  intros A R m m' ts ps' C S. inversion S as [m0 before p after m1 p' ST E0 E1 E2 E3]; subst m0 m1 ps'. clear S.
  destruct (split_map _ _ code ts before p after (eq_sym E1)) as (l1 & t & l2 & -> & B & P & AF). clear E1.
  pose proof (nth_middle _ l1 l2 t) as T.
  destruct C as (PR & W & O & D) eqn:CE. pose proof (conj PR (conj W (conj O D))) as C'. clear CE.
  pose proof (W _ _ T) as Wt.
  assert (DONE : forall t', code t' = p' -> promise t' = promise t -> coherent R m' (l1 ++ t' :: l2)%list ->
    exists ts', pool ts' = (before ++ p' :: after)%list /\ coherent R m' ts' /\
      List.map promise ts' = List.map promise (l1 ++ t :: l2)%list).
  { intros t' Ht Hp Hc. exists (l1 ++ t' :: l2)%list. unfold pool. rewrite !map_app. cbn [List.map].
    rewrite Ht, Hp, B, AF. split; [reflexivity|]. split; [exact Hc|reflexivity]. }
  destruct ST as [m s i k v I | m s i k I | m s i v k w I | m s i v k I | m n k].
  - (* a read *)
    rewrite P in Wt. cbn [wp] in Wt. destruct (lookup R (owns t) (array s)) as [l|] eqn:L; [|contradiction].
    pose proof (lookup_memory _ R m _ _ t _ l C' T L) as M. unfold content in I. rewrite M in I. rewrite I in Wt.
    apply (DONE (mkState _ (k v) (owns t) (promise t)) eq_refl eq_refl).
    apply (coherent_step A R m m l1 t _ l2 C' PR); cbn [code owns promise]; [exact Wt| | |tauto].
    + intros a l0 H. exact (O _ _ a l0 T H).
    + intros; assumption.
  - (* a read out of the slice *)
    exfalso. rewrite P in Wt. cbn [wp] in Wt. destruct (lookup R (owns t) (array s)) as [l|] eqn:L; [|contradiction].
    pose proof (lookup_memory _ R m _ _ t _ l C' T L) as M. unfold content in I. rewrite M in I. rewrite I in Wt. exact Wt.
  - (* a write *)
    rewrite P in Wt. cbn [wp] in Wt. destruct Wt as [LR Wt]. destruct (owns t (array s)) as [l|] eqn:L; [|contradiction].
    destruct Wt as [_ Wt]. destruct (O _ _ _ _ T L) as [_ M].
    rewrite (nth_error_nth _ _ _ M) in DONE |- *.
    assert (AL : array s < List.length m) by (apply nth_error_Some; congruence).
    apply (DONE (mkState _ k (put (owns t) (array s) (write l (start s + Z.to_nat i) v)) (promise t)) eq_refl eq_refl).
    apply (coherent_step A R m _ l1 t _ l2 C'); cbn [code owns promise].
    + destruct PR as [ext ->]. rewrite replace_app by assumption. eexists; reflexivity.
    + exact Wt.
    + intros a l0 H. unfold put in H. rewrite nth_error_replace by assumption. destruct (Nat.eqb a (array s)) eqn:E.
      * apply Nat.eqb_eq in E. subst a. split; [exact LR|congruence].
      * exact (O _ _ a l0 T H).
    + intros u a l0 _ _ H N. rewrite nth_error_replace by assumption. destruct (Nat.eqb a (array s)) eqn:E; [|exact H].
      apply Nat.eqb_eq in E. subst a. congruence.
    + intros a H. unfold put in H. destruct (Nat.eqb a (array s)) eqn:E; [|left; exact H].
      apply Nat.eqb_eq in E. subst a. left. congruence.
  - (* a write out of the slice *)
    exfalso. rewrite P in Wt. cbn [wp] in Wt. destruct Wt as [_ Wt]. destruct (owns t (array s)) as [l|] eqn:L; [|contradiction].
    destruct Wt as [[w IW] _]. destruct (O _ _ _ _ T L) as [_ M]. unfold content in I. rewrite (nth_error_nth _ _ _ M) in I. congruence.
  - (* an allocation *)
    rewrite P in Wt. cbn [wp] in Wt.
    assert (NEW : nth_error m (List.length m) = None) by (apply nth_error_None; lia).
    assert (FRESH : owns t (List.length m) = None).
    { destruct (owns t (List.length m)) as [l|] eqn:L; [|reflexivity]. destruct (O _ _ _ _ T L) as [_ M]. congruence. }
    assert (LR : List.length R <= List.length m) by (destruct PR as [ext ->]; rewrite app_length; lia).
    apply (DONE (mkState _ (k (mkSlice (List.length m) 0 n)) (put (owns t) (List.length m) (List.repeat 0%Z n)) (promise t)) eq_refl eq_refl).
    apply (coherent_step A R m _ l1 t _ l2 C'); cbn [code owns promise].
    + destruct PR as [ext ->]. exists (ext ++ [List.repeat 0%Z n])%list. rewrite app_assoc. reflexivity.
    + apply Wt; assumption.
    + intros a l0 H. unfold put in H. destruct (Nat.eqb a (List.length m)) eqn:E.
      * apply Nat.eqb_eq in E. subst a. split; [exact LR|]. rewrite nth_middle. exact H.
      * destruct (O _ _ a l0 T H) as [LL M]. split; [exact LL|]. rewrite nth_error_app1; [exact M|]. apply nth_error_Some; congruence.
    + intros u a l0 _ _ H _. rewrite nth_error_app1; [exact H|]. apply nth_error_Some; congruence.
    + intros a H. unfold put in H. destruct (Nat.eqb a (List.length m)) eqn:E; [|left; exact H].
      apply Nat.eqb_eq in E. subst a. right. exact NEW.
Qed.

Theorem sound : forall A (R m m' : memory) (ts : list (state A)) ps', coherent R m ts ->
  reaches m (pool ts) m' ps' -> exists ts', pool ts' = ps' /\ coherent R m' ts' /\
    List.map promise ts' = List.map promise ts.
Proof.
  intros A R m m' ts ps' C H. remember (pool ts) as ps eqn:E. revert ts C E.
  induction H as [m ps | m ps m1 ps1 m2 ps2 H IH S]; intros ts C E.
  - exists ts. auto.
  - destruct (IH ts C E) as (ts1 & P1 & C1 & Q1). rewrite <- P1 in S.
    destruct (sound_step A R m1 m2 ts1 ps2 C1 S) as (ts2 & P2 & C2 & Q2).
    exists ts2. split; [exact P2|]. split; [exact C2|congruence].
Qed.

(* ---- what follows for programs that own nothing at first ---- *)
Definition starts {A : Type} (R : memory) (ps : list (prog A * (A -> owned -> Prop))) : list (state A) :=
  List.map (fun x => mkState _ (fst x) nothing (snd x)) ps.

Lemma starts_coherent : forall A R (ps : list (prog A * (A -> owned -> Prop))),
  List.Forall (fun x => wp R (fst x) nothing (snd x)) ps -> coherent R R (starts R ps).
Proof.
  intros A R ps F. unfold starts. split; [exists []; rewrite app_nil_r; reflexivity|].
  assert (G : forall i t, nth_error (List.map (fun x : prog A * (A -> owned -> Prop) => mkState _ (fst x) nothing (snd x)) ps) i = Some t ->
    owns t = nothing /\ wp R (code t) (owns t) (promise t)).
  { intros i t H. rewrite nth_error_map in H. destruct (nth_error ps i) as [x|] eqn:X; [|discriminate].
    injection H as <-. split; [reflexivity|]. cbn. rewrite List.Forall_forall in F. apply F. eapply nth_error_In; eassumption. }
  split; [intros i t H; apply (G i t H)|]. split.
  - intros i t a l H K. rewrite (proj1 (G i t H)) in K. discriminate.
  - intros i j t u a H _ _ K. rewrite (proj1 (G i t H)) in K. contradiction K. reflexivity.
Qed.

(* nobody touches what another one is about to write *)
Lemma coherent_race_free : forall A R m (ts : list (state A)) i j p q a, coherent R m ts -> i <> j ->
  nth_error (pool ts) i = Some p -> nth_error (pool ts) j = Some q -> writes p a -> ~ reads q a /\ ~ writes q a.
Proof.
  intros A R m ts i j p q a (PR & W & O & D) N P Q WR.
  unfold pool in P, Q. rewrite nth_error_map in P, Q.
  destruct (nth_error ts i) as [t|] eqn:T; [|discriminate]. injection P as P.
  destruct (nth_error ts j) as [u|] eqn:U; [|discriminate]. injection Q as Q.
  pose proof (W i t T) as Wt. pose proof (W j u U) as Wu. rewrite P in Wt. rewrite Q in Wu.
  destruct p as [a0| |s0 k0 f0|s k v p|n0 f0]; try contradiction WR. cbn in WR. subst a. cbn [wp] in Wt. destruct Wt as [LR Wt].
  destruct (owns t (array s)) as [l|] eqn:L; [|contradiction].
  assert (NU : owns u (array s) = None) by (apply (D i j t u (array s) T U N); congruence).
  split; intros K; destruct q as [a1| |s' k' f|s' k' v' q|]; cbn [reads writes] in K; try contradiction; cbn [wp] in Wu; rewrite K in Wu.
  - unfold lookup in Wu. replace (array s <? List.length R) with false in Wu by (symmetry; apply Nat.ltb_ge; exact LR). rewrite NU in Wu. exact Wu.
  - rewrite NU in Wu. destruct Wu as [_ Wu]. exact Wu.
Qed.

(* ---- every schedule ends ---- *)
Definition after {A : Type} (y x : prog A) : Prop := exists m m', step m x m' y.

Lemma after_wf : forall A (p : prog A), Acc after p.
Proof.
  intros A p.
  assert (PA : Acc (@after A) Panics) by (constructor; intros y (m & m' & H); inversion H).
  induction p as [a| |s i k IH|s i v k IH|n k IH]; constructor; intros y (m & m' & H); inversion H; subst; auto.
Qed.

Definition later {A : Type} (y x : memory * list (prog A)) : Prop := schedule (fst x) (snd x) (fst y) (snd y).

Inductive pool_after {A : Type} : list (prog A) -> list (prog A) -> Prop :=
| pool_after_one : forall before p p' rest, after p' p -> pool_after (before ++ p' :: rest)%list (before ++ p :: rest)%list.

Lemma pool_nil_wf : forall A, Acc (@pool_after A) [].
Proof. intros A. constructor. intros y H. inversion H as [b p p' r AF E1 E2]. destruct b; discriminate. Qed.

Lemma pool_cons_wf : forall A (p : prog A), Acc after p -> forall ps, Acc pool_after ps -> Acc pool_after (p :: ps).
Proof.
  intros A p H. induction H as [p Hp IHp]. intros ps G. induction G as [ps Hps IHps].
  constructor. intros y K. inversion K as [b q q' r AF E1 E2]. destruct b as [|b0 b]; cbn in *.
  - injection E2 as -> ->. apply IHp; [exact AF|]. constructor. exact Hps.
  - injection E2 as -> E2. rewrite <- E2 in *. apply IHps. constructor. exact AF.
Qed.

Lemma pool_wf : forall A (ps : list (prog A)), Acc pool_after ps.
Proof. intros A ps. induction ps as [|p ps IH]; [apply pool_nil_wf|]. apply pool_cons_wf; [apply after_wf|exact IH]. Qed.

Theorem ends : forall A (m : memory) (ps : list (prog A)), Acc later (m, ps).
Proof.
  intros A m ps. pose proof (pool_wf A ps) as H. revert m. induction H as [ps _ IH]. intros m.
  constructor. intros [m' ps'] L. unfold later in L. cbn in L. inversion L as [m0 b p r m1 p' S E0 E1 E2 E3]; subst.
  apply IH. constructor. exists m, m'. exact S.
Qed.
