(* Rules of the logic of MemoryLogic: reading what is known, writing what is private. *)
From Verif Require Import GoBase.
From Verif.Model Require Import Memory MemoryCode.
From Verif.Proofs Require Import MemoryLogic.
Require Import Lia PeanoNat.
Local Open Scope nat_scope.

(* the slice shows these bytes *)
Definition shows (R : memory) (own : owned) (s : Memory.slice) (l : list Z) : Prop :=
  exists arr, lookup R own (array s) = Some arr /\ window s arr = l /\ List.length l = size s.

(* the slice is all of an array allocated since [own0], of which it shows the bytes *)
Definition has (R : memory) (own0 own : owned) (s : Memory.slice) (l : list Z) : Prop :=
  grows own0 own /\ List.length R <= array s /\ own0 (array s) = None /\ own (array s) = Some l /\
  start s = 0 /\ size s = List.length l.

(* the program ends with this result, having written only arrays of its own *)
Definition gives {A : Type} (R : memory) (own : owned) (p : prog A) (a : A) : Prop :=
  forall Q : A -> owned -> Prop, (forall own', grows own own' -> Q a own') -> wp R p own Q.

Lemma grows_refl : forall own, grows own own.
Proof. intros own a l H. exact H. Qed.
Lemma grows_trans : forall o1 o2 o3, grows o1 o2 -> grows o2 o3 -> grows o1 o3.
Proof. intros o1 o2 o3 H K a l E. apply K, H, E. Qed.

Lemma shows_grows : forall R own own' s l, grows own own' -> shows R own s l -> shows R own' s l.
Proof.
  intros R own own' s l G (arr & L & W & N). exists arr. split; [|split; assumption].
  unfold lookup in *. destruct (array s <? List.length R); [exact L|apply G; exact L].
Qed.

Lemma has_shows : forall R own0 own s l, has R own0 own s l -> shows R own s l.
Proof.
  intros R own0 own s l (G & L & N & O & S & Z). exists l. split; [|split].
  - unfold lookup. replace (array s <? List.length R) with false by (symmetry; apply Nat.ltb_ge; exact L). exact O.
  - unfold window. rewrite S, Z. cbn [List.skipn]. apply firstn_all.
  - symmetry. exact Z.
Qed.

Lemma has_grows : forall R own0 own s l, has R own0 own s l -> grows own0 own.
Proof. intros R own0 own s l H. apply H. Qed.

Lemma wp_load : forall A R own s l i v (k : Z -> prog A) Q, shows R own s l -> idx l i = Ok v ->
  wp R (k v) own Q -> wp R (Load s i k) own Q.
Proof.
  intros A R own s l i v k Q (arr & L & W & N) I H. cbn [wp]. rewrite L, W, I. exact H.
Qed.

Lemma wp_make : forall A R own n (k : Memory.slice -> prog A) Q,
  (forall s own', has R own own' s (List.repeat 0%Z n) -> wp R (k s) own' Q) -> wp R (Make n k) own Q.
Proof.
  intros A R own n k Q H. cbn [wp]. intros a L N. apply H. unfold has, put. cbn [array start size].
  rewrite Nat.eqb_refl, repeat_length. repeat split; try assumption; try lia.
  intros b l E. destruct (Nat.eqb b a) eqn:EB; [apply Nat.eqb_eq in EB; congruence|exact E].
Qed.

Lemma wp_store : forall A R own0 own s l i v w (k : prog A) Q, has R own0 own s l -> idx l i = Ok w ->
  (forall own', has R own0 own' s (write l (Z.to_nat i) v) -> wp R k own' Q) -> wp R (Store s i v k) own Q.
Proof.
  intros A R own0 own s l i v w k Q (G & L & N & O & S & Z) I H. cbn [wp]. split; [exact L|]. rewrite O.
  assert (W : window s l = l) by (unfold window; rewrite S, Z; cbn [List.skipn]; apply firstn_all).
  rewrite W. split; [exists w; exact I|]. rewrite S. cbn [Nat.add]. apply H.
  pose proof (idx_in _ _ _ _ I) as E. assert (B : Z.to_nat i < List.length l) by (apply nth_error_Some; congruence).
  unfold has, put. rewrite Nat.eqb_refl, write_length by exact B. repeat split; try assumption.
  intros b l' E'. destruct (Nat.eqb b (array s)) eqn:EB; [apply Nat.eqb_eq in EB; congruence|apply G; exact E'].
Qed.

Lemma gives_ret : forall A R own (a : A), gives R own (Ret a) a.
Proof. intros A R own a Q H. cbn. apply H. apply grows_refl. Qed.

Lemma gives_bind : forall A B R own (p : prog A) (f : A -> prog B) a b, gives R own p a ->
  (forall own', grows own own' -> gives R own' (f a) b) -> gives R own (Memory.bind p f) b.
Proof.
  intros A B R own p f a b P F Q H. apply wp_bind. apply P. intros o1 G1. apply F; [exact G1|].
  intros o2 G2. apply H. eapply grows_trans; eassumption.
Qed.

Lemma gives_load : forall R own s l i v, shows R own s l -> idx l i = Ok v -> gives R own (load s i) v.
Proof. intros R own s l i v S I Q H. unfold load. eapply wp_load; [exact S|exact I|]. apply H. apply grows_refl. Qed.

Lemma idx_nat : forall A (l : list A) n v, nth_error l n = Some v -> idx l (Z.of_nat n) = Ok v.
Proof.
  intros A l n v H. unfold idx. replace (Z.of_nat n <? 0)%Z with false by (symmetry; apply Z.ltb_ge; lia).
  rewrite Nat2Z.id, H. reflexivity.
Qed.

(* the bytes of a slice, read one by one *)
Lemma gives_bytesFrom : forall R s l n j own, shows R own s l -> j + n = List.length l ->
  gives R own (bytesFrom s (Z.of_nat j) n) (List.skipn j l).
Proof.
  intros R s l n. induction n as [|n IH]; intros j own SH E; cbn [bytesFrom].
  - rewrite skipn_all2 by lia. apply gives_ret.
  - destruct (nth_error l j) as [v|] eqn:V; [|apply nth_error_None in V; lia].
    assert (K : List.skipn j l = v :: List.skipn (S j) l).
    { clear - V. revert l V. induction j as [|j IH]; intros [|a l] V; try discriminate; cbn in *; [injection V as ->; reflexivity|].
      apply IH. exact V. }
    rewrite K.
    eapply gives_bind; [eapply gives_load; [exact SH|apply idx_nat; exact V]|]. intros o1 G1.
    replace (Z.of_nat j + 1)%Z with (Z.of_nat (S j)) by lia.
    eapply gives_bind; [apply IH; [eapply shows_grows; eassumption|lia]|]. intros o2 G2. apply gives_ret.
Qed.

Lemma gives_bytes : forall R own s l, shows R own s l -> gives R own (allBytes s) l.
Proof.
  intros R own s l SH. unfold allBytes.
  assert (N : List.length l = size s) by (destruct SH as (arr & _ & _ & N); exact N).
  rewrite <- N. apply (gives_bytesFrom R s l _ 0 own SH). reflexivity.
Qed.

Lemma gives_returns : forall A R own (r : res A), r <> Panic -> gives R own (returns r) r.
Proof. intros A R own [a|e|] N; [apply gives_ret|apply gives_ret|contradiction N; reflexivity]. Qed.

Lemma gives_reading : forall A R own (f : list Z -> res A) s l, shows R own s l -> f l <> Panic ->
  gives R own (reading f s) (f l).
Proof.
  intros A R own f s l SH N. unfold reading. eapply gives_bind; [apply gives_bytes; exact SH|]. intros o1 G1.
  apply gives_returns. exact N.
Qed.

Lemma gives_pmap : forall A B R own (f : A -> B) p r, gives R own p r -> r <> Panic ->
  gives R own (pmap f p) (rmap f r).
Proof.
  intros A B R own f p r P N. unfold pmap. eapply gives_bind; [exact P|]. intros o1 G1.
  destruct r as [a|e|]; [apply gives_ret|apply gives_ret|contradiction N; reflexivity].
Qed.

Lemma skipn_add : forall A (l : list A) m n, List.skipn m (List.skipn n l) = List.skipn (n + m) l.
Proof. intros A l m n. revert l. induction n as [|n IH]; intros l; [reflexivity|]. destruct l as [|a l]; [destruct m; reflexivity|apply IH]. Qed.

(* s[lo:hi] *)
Lemma wp_cut : forall A R own s l lo hi l' (k : Memory.slice -> prog A) Q, shows R own s l ->
  GoBase.slice l lo hi = Ok l' ->
  (forall s', array s' = array s -> s' = mkSlice (array s) (start s + Z.to_nat lo) (Z.to_nat (hi - lo)) ->
     shows R own s' l' -> wp R (k s') own Q) ->
  wp R (Memory.bind (cut s lo hi) k) own Q.
Proof.
  intros A R own s l lo hi l' k Q (arr & L & W & N) E H. unfold GoBase.slice in E. unfold cut.
  unfold len in E. rewrite N in E. destruct ((0 <=? lo) && (lo <=? hi) && (hi <=? Z.of_nat (size s)))%Z eqn:B; [|discriminate].
  cbn [Memory.bind]. apply H; [reflexivity|reflexivity|]. exists arr. cbn [array start size]. split; [exact L|].
  injection E as <-. apply andb_prop in B. destruct B as [B B3]. apply andb_prop in B. destruct B as [B1 B2].
  apply Z.leb_le in B1, B2, B3.
  assert (X : List.firstn (Z.to_nat (hi - lo)) (List.skipn (start s + Z.to_nat lo) arr) =
              List.firstn (Z.to_nat (hi - lo)) (List.skipn (Z.to_nat lo) l)).
  { rewrite <- W. unfold window. rewrite skipn_firstn_comm, List.firstn_firstn.
    replace (Nat.min (Z.to_nat (hi - lo)) (size s - Z.to_nat lo)) with (Z.to_nat (hi - lo)) by lia.
    f_equal. symmetry. apply skipn_add. }
  split; [exact X|]. rewrite firstn_length, skipn_length. lia.
Qed.
