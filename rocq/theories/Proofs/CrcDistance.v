(* The Mode S code has minimum distance 6 on frames of at most 112 bits, and
   detects bursts of at most 24 bits. *)
From Verif.Proofs Require Import Tac CrcPoly CrcCode.
From Verif.Spec Require Import Crc.
From Coq Require Import MSets.MSetPositive.
Local Open Scope Z_scope.

(* ---- xor of a list ---- *)

Definition xorsum (l : list Z) : Z := List.fold_right Z.lxor 0 l.

Definition memZ (p : Z) (l : list Z) : bool := List.existsb (Z.eqb p) l.

Lemma xorsum_nonneg : forall l, Forall (fun x => 0 <= x) l -> 0 <= xorsum l.
Proof. induction 1; cbn; [lia|]. apply Z.lxor_nonneg. tauto. Qed.

Lemma testbit_pow2 : forall p n, 0 <= p -> 0 <= n -> Z.testbit (2 ^ p) n = (n =? p).
Proof.
  intros p n Hp Hn. destruct (Z.eqb_spec n p) as [->|N]; [apply Z.pow2_bits_true; lia|].
  apply Z.pow2_bits_false. lia.
Qed.

Lemma memZ_In : forall p l, memZ p l = true <-> In p l.
Proof.
  intros. unfold memZ. rewrite List.existsb_exists. split.
  - intros (x & Hx & E). apply Z.eqb_eq in E. subst. exact Hx.
  - intros H. exists p. split; [exact H|apply Z.eqb_refl].
Qed.

Lemma testbit_xorsum : forall l n, NoDup l -> Forall (fun x => 0 <= x) l -> 0 <= n ->
  Z.testbit (xorsum (List.map (fun p => 2 ^ p) l)) n = memZ n l.
Proof.
  induction l as [|p l IH]; intros n D P Hn; [apply Z.bits_0|].
  inversion D as [|? ? N D']; subst. inversion P as [|? ? Hp P']; subst.
  change (xorsum (List.map (fun p => 2 ^ p) (p :: l))) with (Z.lxor (2 ^ p) (xorsum (List.map (fun p => 2 ^ p) l))).
  rewrite Z.lxor_spec, IH, testbit_pow2 by assumption.
  change (memZ n (p :: l)) with ((n =? p) || memZ n l)%bool.
  destruct (Z.eqb_spec n p) as [->|]; [|destruct (memZ n l); reflexivity].
  destruct (memZ p l) eqn:E; [|reflexivity]. exfalso. apply N, memZ_In, E.
Qed.

(* ---- syndromes ---- *)

(* x^n mod G *)
Fixpoint syn (n : nat) : Z :=
  match n with
  | O => 1
  | S n' => let s := 2 * syn n' in if 2 ^ 24 <=? s then Z.lxor s G else s
  end.

Lemma syn_ok : forall n, 0 <= syn n < 2 ^ 24 /\ codeword (Z.lxor (2 ^ Z.of_nat n) (syn n)).
Proof.
  induction n as [|n [R C]].
  - split; [cbn; lia|]. cbn. apply codeword_0.
  - cbn [syn]. cbv zeta. rewrite Nat2Z.inj_succ, Z.pow_succ_r by lia.
    pose proof (codeword_double _ C) as C2. rewrite lxor_double in C2.
    destruct (Z.leb_spec (2 ^ 24) (2 * syn n)).
    + split.
      * change (2 ^ 24) with 16777216 in *.
        replace (2 * syn n) with (1 * 2 ^ 24 + (2 * syn n - 2 ^ 24)) by lia.
        change G with (1 * 2 ^ 24 + 16774153). 
        rewrite lxor_split by (change (2 ^ 24) with 16777216; lia). rewrite Z.lxor_nilpotent, Z.mul_0_l, Z.add_0_l.
        change 16777216 with (2 ^ 24). apply lxor_range; change (2 ^ 24) with 16777216; lia.
      * rewrite <- Z.lxor_assoc. apply codeword_lxor; [exact C2|apply codeword_G].
    + split; [lia|exact C2].
Qed.

Definition synz (p : Z) : Z := syn (Z.to_nat p).

Lemma xorsum_syn : forall l, Forall (fun x => 0 <= x) l ->
  0 <= xorsum (List.map synz l) < 2 ^ 24 /\
  codeword (Z.lxor (xorsum (List.map (fun p => 2 ^ p) l)) (xorsum (List.map synz l))).
Proof.
  induction 1 as [|p l Hp P [R C]].
  - split; [cbn; lia|]. apply codeword_0.
  - destruct (syn_ok (Z.to_nat p)) as [Rp Cp]. fold (synz p) in Rp, Cp. rewrite Z2Nat.id in Cp by lia.
    change (xorsum (List.map synz (p :: l))) with (Z.lxor (synz p) (xorsum (List.map synz l))).
    change (xorsum (List.map (fun p => 2 ^ p) (p :: l))) with (Z.lxor (2 ^ p) (xorsum (List.map (fun p => 2 ^ p) l))).
    split; [apply lxor_range; lia|]. rewrite lxor_4. apply codeword_lxor; assumption.
Qed.

Lemma codeword_syn : forall l, Forall (fun x => 0 <= x) l ->
  codeword (xorsum (List.map (fun p => 2 ^ p) l)) -> xorsum (List.map synz l) = 0.
Proof.
  intros l P C. destruct (xorsum_syn l P) as [R C'].
  apply codeword_small; [|lia].
  pose proof (codeword_lxor _ _ C' C) as D.
  rewrite (Z.lxor_comm (xorsum (List.map (fun p => 2 ^ p) l))), lxor_cancel in D. exact D.
Qed.

(* weight parity *)
Lemma wodd_pow2 : forall p, 0 <= p -> wodd (2 ^ p) = true.
Proof.
  intros p Hp. rewrite <- (Z2Nat.id p Hp). induction (Z.to_nat p) as [|n IH]; [reflexivity|].
  rewrite Nat2Z.inj_succ, Z.pow_succ_r by lia. rewrite wodd_double. exact IH.
Qed.

Lemma wodd_xorsum : forall l, Forall (fun x => 0 <= x) l ->
  wodd (xorsum (List.map (fun p => 2 ^ p) l)) = Nat.odd (List.length l).
Proof.
  induction 1 as [|p l Hp P IH]; [reflexivity|].
  change (xorsum (List.map (fun p => 2 ^ p) (p :: l))) with (Z.lxor (2 ^ p) (xorsum (List.map (fun p => 2 ^ p) l))).
  rewrite wodd_lxor.
  - rewrite wodd_pow2, IH by exact Hp. cbn [List.length]. rewrite Nat.odd_succ, <- Nat.negb_odd. reflexivity.
  - apply Z.pow_nonneg. lia.
  - apply xorsum_nonneg. apply Forall_map. eapply Forall_impl; [|exact P]. cbn. intros. apply Z.pow_nonneg. lia.
Qed.

(* ---- distinct pairs have distinct syndromes ---- *)

Fixpoint nodupb (l : list positive) (s : PositiveSet.t) : bool :=
  match l with
  | [] => true
  | x :: l' => negb (PositiveSet.mem x s) && nodupb l' (PositiveSet.add x s)
  end.

Lemma nodupb_ok : forall l s, nodupb l s = true -> NoDup l /\ (forall x, In x l -> ~ PositiveSet.In x s).
Proof.
  induction l as [|x l IH]; intros s H; [split; [constructor|intros x []]|].
  cbn [nodupb] in H. apply andb_true_iff in H as [H1 H2]. apply IH in H2 as [D N].
  apply negb_true_iff in H1. split.
  - constructor; [|exact D]. intros I. apply (N x I). apply PositiveSet.add_spec. left. reflexivity.
  - intros y [->|I].
    + intros S. apply PositiveSet.mem_spec in S. congruence.
    + intros S. apply (N y I). apply PositiveSet.add_spec. right. exact S.
Qed.

Lemma nodup_map_inj : forall (A B : Type) (f : A -> B) l x y,
  NoDup (List.map f l) -> In x l -> In y l -> f x = f y -> x = y.
Proof.
  induction l as [|a l IH]; intros x y D Hx Hy E; [destruct Hx|].
  cbn [List.map] in D. inversion D as [|? ? N D']; subst.
  destruct Hx as [->|Hx], Hy as [->|Hy]; auto.
  - exfalso. apply N. rewrite E. apply List.in_map. exact Hy.
  - exfalso. apply N. rewrite <- E. apply List.in_map. exact Hx.
Qed.

Fixpoint syns (n : nat) (s : Z) : list Z :=
  match n with O => [] | S n' => s :: syns n' (let t := 2 * s in if 2 ^ 24 <=? t then Z.lxor t G else t) end.

Definition table : list (Z * Z) := Eval vm_compute in List.combine (zseq 0 112) (syns 112 1).

Fixpoint pairs (l : list (Z * Z)) : list (Z * Z * Z) :=
  match l with
  | [] => []
  | (i, s) :: l' => List.map (fun jt => (i, fst jt, Z.lxor s (snd jt))) l' ++ pairs l'
  end.

Definition key (x : Z * Z * Z) : positive := Z.to_pos (snd x + 1).

Lemma table_ok : List.forallb (fun p => match List.find (fun e => fst e =? p) table with
  | Some e => snd e =? synz p | None => false end) (zseq 0 112) = true.
Proof. vm_compute. reflexivity. Qed.

Lemma table_in : forall p, 0 <= p < 112 -> In (p, synz p) table.
Proof.
  intros p Hp. pose proof table_ok as T. rewrite List.forallb_forall in T.
  specialize (T p (zseq_in 112 0 p ltac:(lia))). cbn beta in T.
  destruct (List.find _ table) as [[q s]|] eqn:E; [|discriminate].
  apply List.find_some in E as [I E]. cbn [fst snd] in *. apply Z.eqb_eq in E, T. subst. exact I.
Qed.

Lemma pairs_in : forall l i s j t, In (i, s) l -> In (j, t) l -> i <> j ->
  In (i, j, Z.lxor s t) (pairs l) \/ In (j, i, Z.lxor s t) (pairs l).
Proof.
  induction l as [|[k u] l IH]; intros i s j t Hi Hj N; [destruct Hi|].
  cbn [pairs]. destruct Hi as [Ei|Hi], Hj as [Ej|Hj].
  - congruence.
  - injection Ei as -> ->. left. apply List.in_or_app. left. apply List.in_map_iff. exists (j, t). auto.
  - injection Ej as -> ->. right. apply List.in_or_app. left. apply List.in_map_iff. exists (i, s).
    split; [cbn [fst snd]; rewrite (Z.lxor_comm t s); reflexivity|exact Hi].
  - destruct (IH i s j t Hi Hj N); [left|right]; apply List.in_or_app; right; assumption.
Qed.

Lemma pairs_nodup : NoDup (List.map key (pairs table)).
Proof. apply (nodupb_ok _ PositiveSet.empty). vm_compute. reflexivity. Qed.

Lemma syn_nodup : NoDup (List.map (fun p => Z.to_pos (snd p + 1)) table).
Proof. apply (nodupb_ok _ PositiveSet.empty). vm_compute. reflexivity. Qed.

Lemma syn_inj : forall a b, 0 <= a < 112 -> 0 <= b < 112 -> synz a = synz b -> a = b.
Proof.
  intros a b Ha Hb E.
  pose proof (nodup_map_inj _ _ _ _ _ _ syn_nodup (table_in a Ha) (table_in b Hb)) as I.
  cbn [snd] in I. rewrite E in I. specialize (I eq_refl). congruence.
Qed.

Lemma pair_inj : forall a b c d, 0 <= a < 112 -> 0 <= b < 112 -> 0 <= c < 112 -> 0 <= d < 112 ->
  a <> b -> c <> d -> Z.lxor (synz a) (synz b) = Z.lxor (synz c) (synz d) ->
  (a = c /\ b = d) \/ (a = d /\ b = c).
Proof.
  intros a b c d Ha Hb Hc Hd Nab Ncd E.
  assert (K : forall x y, In x (pairs table) -> In y (pairs table) -> snd x = snd y -> x = y).
  { intros x y Hx Hy Exy. apply (nodup_map_inj _ _ key (pairs table)); auto using pairs_nodup.
    unfold key. rewrite Exy. reflexivity. }
  destruct (pairs_in table a (synz a) b (synz b)) as [I|I]; auto using table_in;
  destruct (pairs_in table c (synz c) d (synz d)) as [J|J]; auto using table_in;
  pose proof (K _ _ I J E) as X; injection X; intros; subst; auto.
Qed.

(* a codeword of at most 112 bits, whose ones are at the positions l *)
Lemma min_weight : forall l, NoDup l -> Forall (fun p => 0 <= p < 112) l ->
  codeword (xorsum (List.map (fun p => 2 ^ p) l)) -> l <> [] ->
  (6 <= List.length l)%nat /\ Nat.odd (List.length l) = false.
Proof.
  intros l D P C N.
  assert (P' : Forall (fun x => 0 <= x) l) by (eapply Forall_impl; [|exact P]; cbn; lia).
  pose proof (codeword_even _ C) as V. rewrite wodd_xorsum in V by exact P'.
  split; [|exact V]. pose proof (codeword_syn l P' C) as S.
  destruct l as [|a [|b [|c [|d [|e [|f l]]]]]]; cbn [List.length] in *; try discriminate; try lia; try contradiction.
  - exfalso. cbn [List.map xorsum List.fold_right] in S. rewrite Z.lxor_0_r in S.
    apply Z.lxor_eq in S. inversion P as [|? ? Pa P1]; subst. inversion P1 as [|? ? Pb P2]; subst.
    apply syn_inj in S; [|lia|lia]. subst. inversion D as [|? ? Na D1]; subst. apply Na. left. reflexivity.
  - exfalso. cbn [List.map xorsum List.fold_right] in S. rewrite Z.lxor_0_r in S.
    inversion P as [|? ? Pa P1]; subst. inversion P1 as [|? ? Pb P2]; subst.
    inversion P2 as [|? ? Pc P3]; subst. inversion P3 as [|? ? Pd P4]; subst.
    rewrite <- Z.lxor_assoc in S. apply Z.lxor_eq in S.
    inversion D as [|? ? Na D1]; subst. inversion D1 as [|? ? Nb D2]; subst. inversion D2 as [|? ? Nc D3]; subst.
    cbn [In] in Na, Nb, Nc.
    apply pair_inj in S; try lia; intuition congruence.
Qed.

(* ---- frames ---- *)

Lemma bit_testbit : forall i f, 1 <= i <= 8 * len f -> bit i f = Z.testbit (be f) (8 * len f - i).
Proof.
  intros i f Hi. unfold bit.
  assert (E : Z.testbit (bits i i f) 0 = Z.testbit (be f) (8 * len f - i)).
  { rewrite bits_testbit by lia. destruct (Z.ltb_spec 0 (i - i + 1)); [|lia]. f_equal. lia. }
  destruct (bits_1 i f) as [H|H]; rewrite H in *; rewrite <- E; reflexivity.
Qed.

Lemma be_inj : forall f g, bytes f -> bytes g -> len f = len g -> be f = be g -> f = g.
Proof.
  induction f as [|a f IH]; intros [|b g] Hf Hg L E; try (unfold len in L; cbn in L; lia); [reflexivity|].
  apply bytes_cons in Hf as [Ha Hf]. apply bytes_cons in Hg as [Hb Hg]. rewrite !len_cons in L.
  rewrite !be_cons in E. replace (len g) with (len f) in E by lia.
  pose proof (be_range f Hf) as Rf. pose proof (be_range g Hg) as Rg. replace (len g) with (len f) in Rg by lia.
  assert (a = b) by nia. subst b. f_equal. apply IH; try assumption; lia.
Qed.

(* positions (from the least significant) of the first n bits that differ *)
Fixpoint diffs (n : nat) (f g : list Z) : list Z :=
  match n with
  | O => []
  | S n' => if Bool.eqb (bit (Z.of_nat n) f) (bit (Z.of_nat n) g) then diffs n' f g
            else (8 * len f - Z.of_nat n) :: diffs n' f g
  end.

Lemma diffs_length : forall n f g, distance n f g = Z.of_nat (List.length (diffs n f g)).
Proof.
  induction n as [|n IH]; intros f g; [reflexivity|].
  cbn [distance diffs]. rewrite IH. destruct (Bool.eqb _ _); cbn [List.length]; lia.
Qed.

Lemma diffs_in : forall n f g p, In p (diffs n f g) <->
  exists i, 1 <= i <= Z.of_nat n /\ p = 8 * len f - i /\ bit i f <> bit i g.
Proof.
  induction n as [|n IH]; intros f g p.
  - split; [intros []|]. intros (i & Hi & _). lia.
  - cbn [diffs]. destruct (Bool.eqb (bit (Z.of_nat (S n)) f) (bit (Z.of_nat (S n)) g)) eqn:E.
    + rewrite IH. split; intros (i & Hi & Ep & Nb); exists i; (split; [|auto]); try lia.
      destruct (Z.eq_dec i (Z.of_nat (S n))) as [->|]; [|lia]. apply eqb_prop in E. contradiction.
    + cbn [In]. rewrite IH. split.
      * intros [<-|(i & Hi & Ep & Nb)]; [exists (Z.of_nat (S n))|exists i].
        -- split; [lia|]. split; [reflexivity|]. intros X. rewrite X, eqb_reflx in E. discriminate.
        -- split; [lia|auto].
      * intros (i & Hi & Ep & Nb). destruct (Z.eq_dec i (Z.of_nat (S n))) as [->|]; [left; auto|right].
        exists i. split; [lia|auto].
Qed.

Lemma diffs_nodup : forall n f g, NoDup (diffs n f g).
Proof.
  induction n as [|n IH]; intros f g; [constructor|].
  cbn [diffs]. destruct (Bool.eqb _ _); [apply IH|]. constructor; [|apply IH].
  rewrite diffs_in. intros (i & Hi & E & _). lia.
Qed.

Lemma diffs_xor : forall f g, bytes f -> bytes g -> len f = len g ->
  xorsum (List.map (fun p => 2 ^ p) (diffs (Z.to_nat (8 * len f)) f g)) = Z.lxor (be f) (be g).
Proof.
  intros f g Hf Hg L. pose proof (len_nonneg _ f).
  assert (P : Forall (fun p => 0 <= p) (diffs (Z.to_nat (8 * len f)) f g)).
  { apply Forall_forall. intros p Hp. apply diffs_in in Hp as (i & Hi & -> & _). lia. }
  apply Z.bits_inj'. intros n Hn. rewrite testbit_xorsum by (auto using diffs_nodup).
  rewrite Z.lxor_spec.
  pose proof (be_range f Hf) as Rf. pose proof (be_range g Hg) as Rg. rewrite <- L in Rg.
  rewrite pow256 in Rf, Rg by lia.
  destruct (Z_lt_le_dec n (8 * len f)) as [Hs|Hs].
  - set (i := 8 * len f - n). assert (Hi : 1 <= i <= 8 * len f) by lia.
    replace n with (8 * len f - i) by lia.
    rewrite <- bit_testbit by lia. rewrite L. rewrite <- bit_testbit by lia. rewrite <- L.
    destruct (memZ (8 * len f - i) (diffs (Z.to_nat (8 * len f)) f g)) eqn:M.
    + apply memZ_In, diffs_in in M as (i' & Hi' & E & Nb). replace i' with i in * by lia.
      destruct (bit i f), (bit i g); try reflexivity; contradiction.
    + destruct (Bool.bool_dec (bit i f) (bit i g)) as [->|Nb]; [symmetry; apply xorb_nilpotent|].
      exfalso. assert (I : In (8 * len f - i) (diffs (Z.to_nat (8 * len f)) f g)).
      { apply diffs_in. exists i. split; [lia|auto]. }
      apply memZ_In in I. congruence.
  - rewrite !(testbit_high _ (8 * len f)) by lia. cbn [xorb].
    destruct (memZ n _) eqn:M; [|reflexivity]. apply memZ_In, diffs_in in M as (i & Hi & E & _). lia.
Qed.

Lemma xor_zero_eq : forall f g, bytes f -> bytes g -> len f = len g -> Z.lxor (be f) (be g) = 0 -> f = g.
Proof. intros f g Hf Hg L E. apply be_inj; auto. apply Z.lxor_eq. exact E. Qed.

Theorem min_distance : forall f g, bytes f -> bytes g -> len f = len g -> len f <= 14 ->
  codeword (Z.lxor (be f) (be g)) -> f <> g ->
  6 <= distance (Z.to_nat (8 * len f)) f g /\ Z.even (distance (Z.to_nat (8 * len f)) f g) = true.
Proof.
  intros f g Hf Hg L L14 C N. rewrite <- (diffs_xor f g Hf Hg L) in C.
  rewrite diffs_length. pose proof (len_nonneg _ f).
  destruct (min_weight (diffs (Z.to_nat (8 * len f)) f g)) as [W O].
  - apply diffs_nodup.
  - apply Forall_forall. intros p Hp. apply diffs_in in Hp as (i & Hi & -> & _). lia.
  - exact C.
  - intros E. apply N. apply xor_zero_eq; try assumption. rewrite <- (diffs_xor f g Hf Hg L), E. reflexivity.
  - split; [lia|]. rewrite <- Nat.negb_even in O. apply negb_false_iff in O. apply Nat.even_spec in O. 
    apply Z.even_spec. destruct O as [k E]. exists (Z.of_nat k). rewrite E. lia.
Qed.

Theorem burst_detected : forall w f g, bytes f -> bytes g -> len f = len g -> w <= 24 ->
  codeword (Z.lxor (be f) (be g)) -> burst w f g -> f = g.
Proof.
  intros w f g Hf Hg L W C (i & B). apply xor_zero_eq; try assumption.
  set (e := Z.lxor (be f) (be g)) in *. set (N := 8 * len f) in *. pose proof (len_nonneg _ f).
  set (k := Z.max 0 (N - i - 23)).
  assert (He : 0 <= e) by (apply codeword_nonneg; exact C).
  pose proof (be_range f Hf) as Rf. pose proof (be_range g Hg) as Rg. rewrite <- L in Rg.
  rewrite pow256 in Rf, Rg by lia. fold N in Rf, Rg.
  assert (T : forall p, 0 <= p -> ~ (k <= p < k + 24) -> Z.testbit e p = false).
  { intros p Hp Np. unfold e. rewrite Z.lxor_spec. destruct (Z_lt_le_dec p N) as [Hs|Hs].
    - assert (E : bit (N - p) f = bit (N - p) g) by (apply B; unfold k in Np; lia).
      rewrite !bit_testbit in E by lia. rewrite <- L in E. fold N in E. 
      replace (N - (N - p)) with p in E by lia. rewrite E. apply xorb_nilpotent.
    - rewrite !(testbit_high _ N) by lia. reflexivity. }
  assert (M : e = e / 2 ^ k * 2 ^ k).
  { rewrite (Z.div_mod e (2 ^ k)) at 1 by (apply Z.pow_nonzero; lia).
    assert (Z0 : e mod 2 ^ k = 0).
    { apply Z.bits_inj'. intros n Hn. rewrite Z.bits_0. destruct (Z_lt_le_dec n k).
      - rewrite Z.mod_pow2_bits_low by lia. apply T; lia.
      - apply Z.mod_pow2_bits_high. lia. }
    rewrite Z0. lia. }
  assert (S : e / 2 ^ k < 2 ^ 24).
  { destruct (Z.eq_dec (e / 2 ^ k) 0) as [->|NZ]; [lia|].
    assert (0 <= e / 2 ^ k) by (apply Z.div_pos; [lia|apply Z.pow_pos_nonneg; lia]).
    apply Z.log2_lt_pow2; [lia|]. destruct (Z_lt_le_dec (Z.log2 (e / 2 ^ k)) 24) as [X|X]; [exact X|].
    exfalso. assert (Bt : Z.testbit (e / 2 ^ k) (Z.log2 (e / 2 ^ k)) = true) by (apply Z.bit_log2; lia).
    rewrite Z.div_pow2_bits in Bt by lia. rewrite T in Bt by lia. discriminate. }
  assert (C' : codeword (e / 2 ^ k)).
  { apply (codeword_shift (Z.to_nat k)). rewrite Z2Nat.id by lia. rewrite <- M. exact C. }
  apply codeword_small in C'; [|exact S]. rewrite M, C'. reflexivity.
Qed.
