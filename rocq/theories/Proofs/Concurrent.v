(* Calls made by several goroutines: their answers, races, and what the messages share with the buffers. *)
From Verif Require Import GoBase Bits.
From Verif.Gen Require modes_messages.
From Verif.Model Require Import Crc Memory MemoryCode.
From Verif.Model Require ModesReader AdsbReader CommbReader.
From Verif.Spec Require Import Calls.
From Verif.Proofs Require Import MemoryLogic MemoryRules MemoryCalls.
From Verif.Proofs Require ModeSReader CrcReader AdsbApi CommBApi.
Require Import Lia PeanoNat.
Local Open Scope Z_scope.

(* what a call promises *)
Definition post (R : memory) (c : call) (a : answer) (own : owned) : Prop :=
  match c, a with
  | CallReadMessage s, AnswerMessage r => told R own s (ModesReader.ReadMessage (content R s)) r
  | CallCheckCRC m s al ai, AnswerCRC r => r = Crc.CheckCRC m (content R s) al ai
  | CallReadADSB v x y s, AnswerADSB r => r = AdsbReader.ReadADSBMessage v x y (content R s)
  | CallReadCommB s, AnswerCommB r => r = CommbReader.ReadCommBMessage (content R s)
  | _, _ => False
  end.

Lemma inside_shows : forall R own s, (array s < List.length R)%nat ->
  (start s + size s <= List.length (List.nth (array s) R []))%nat -> shows R own s (content R s).
Proof.
  intros R own s A B. exists (List.nth (array s) R []). split; [|split; [reflexivity|]].
  - unfold lookup. replace (array s <? List.length R)%nat with true by (symmetry; apply Nat.ltb_lt; exact A).
    apply nth_error_nth'. exact A.
  - unfold content, window. rewrite firstn_length, skipn_length. lia.
Qed.

Lemma call_wp : forall buffers c, valid (memory_of buffers) c ->
  wp (memory_of buffers) (program c) nothing (post (memory_of buffers) c).
Proof.
  intros buffers c (A & B & HB & V).
  pose proof (inside_shows (memory_of buffers) nothing _ A B) as SH.
  assert (R0 : nth_error (memory_of buffers) 0 = Some crcPolynomial) by reflexivity.
  assert (R1 : nth_error (memory_of buffers) 1 = Some bds_encoding.IdentificationCharacterCoding) by reflexivity.
  set (R := memory_of buffers) in *. clearbody R.
  destruct c as [s|m s al ai|v x y s|s]; cbn [argument program] in *; apply wp_bind.
  - apply (wp_read R s (content R s)); [exact SH| |].
    + destruct (ModeSReader.read_message_total _ HB) as [[m E]|[e E]]; rewrite E; discriminate.
    + intros r own' T. cbn [wp post]. exact T.
  - apply (gives_crc R nothing m s (content R s) al ai R0 SH); [apply CrcReader.check_crc_total; assumption|].
    intros own' _. reflexivity.
  - apply (gives_adsb R nothing v x y s (content R s) R1 SH); [apply AdsbApi.adsb_total; assumption|]. intros own' _. reflexivity.
  - apply (gives_commb R nothing s (content R s) R1 SH); [apply CommBApi.commb_total; assumption|]. intros own' _. reflexivity.
Qed.

Definition tasks (R : memory) (calls : list call) : list (prog answer * (answer -> owned -> Prop)) :=
  List.map (fun c => (program c, post R c)) calls.

Lemma run : forall buffers calls m ps, List.Forall (valid (memory_of buffers)) calls -> execution buffers calls m ps ->
  exists ts, pool ts = ps /\ coherent (memory_of buffers) m ts /\
    List.map promise ts = List.map (post (memory_of buffers)) calls.
Proof.
  intros buffers calls m ps V E. unfold execution in E. set (R := memory_of buffers) in *.
  assert (C : coherent R R (starts R (tasks R calls))).
  { apply starts_coherent. unfold tasks. apply Forall_forall. intros x I. apply in_map_iff in I. destruct I as (c & <- & I).
    cbn [fst snd]. rewrite Forall_forall in V. apply call_wp. apply V. exact I. }
  assert (P : pool (starts R (tasks R calls)) = List.map program calls).
  { unfold pool, starts, tasks. rewrite !map_map. apply map_ext. reflexivity. }
  rewrite <- P in E. destruct (sound _ R R m _ ps C E) as (ts & P1 & C1 & Q1).
  exists ts. split; [exact P1|]. split; [exact C1|]. rewrite Q1. unfold starts, tasks. rewrite !map_map. apply map_ext. reflexivity.
Qed.

(* a call keeps its promise *)
Lemma kept : forall R calls m ts ps i c p, pool ts = ps -> coherent R m ts -> List.map promise ts = List.map (post R) calls ->
  nth_error calls i = Some c -> nth_error ps i = Some p ->
  exists t, nth_error ts i = Some t /\ code t = p /\ wp R p (owns t) (post R c).
Proof.
  intros R calls m ts ps i c p P C Q Hc Hp.
  rewrite <- P in Hp. unfold pool in Hp. rewrite nth_error_map in Hp. destruct (nth_error ts i) as [t|] eqn:T; [|discriminate].
  injection Hp as Hp. exists t. split; [reflexivity|]. split; [exact Hp|].
  assert (PR : promise t = post R c).
  { pose proof (f_equal (fun l => nth_error l i) Q) as X. cbn beta in X. rewrite !nth_error_map, T, Hc in X. cbn in X. congruence. }
  destruct C as (_ & W & _). pose proof (W i t T) as Wt. rewrite Hp, PR in Wt. exact Wt.
Qed.

Lemma as_many : forall R calls (ts : list (state answer)) ps, pool ts = ps -> List.map promise ts = List.map (post R) calls ->
  List.length ps = List.length calls.
Proof.
  intros R calls ts ps P Q. rewrite <- P. unfold pool. rewrite map_length.
  pose proof (f_equal (@List.length _) Q) as X. rewrite !map_length in X. exact X.
Qed.

Lemma its_call : forall R calls (ts : list (state answer)) ps j p, pool ts = ps -> List.map promise ts = List.map (post R) calls ->
  nth_error ps j = Some p -> exists c, nth_error calls j = Some c.
Proof.
  intros R calls ts ps j p P Q H. pose proof (as_many R calls ts ps P Q) as LEN.
  destruct (nth_error calls j) eqn:X; [eauto|]. apply nth_error_None in X.
  assert (j < List.length ps)%nat by (apply nth_error_Some; congruence). lia.
Qed.

Lemma shows_content : forall A R m (ts : list (state A)) i t s l, coherent R m ts -> nth_error ts i = Some t ->
  shows R (owns t) s l -> content m s = l.
Proof.
  intros A R m ts i t s l C T (arr & L & W & _). unfold content. rewrite (lookup_memory _ R m ts i t _ arr C T L). exact W.
Qed.

Theorem concurrent_answers : forall buffers calls m ps, List.Forall (valid (memory_of buffers)) calls ->
  execution buffers calls m ps ->
  (exists private, m = (memory_of buffers ++ private)%list) /\ ~ race ps /\
  forall i c p, nth_error calls i = Some c -> nth_error ps i = Some p ->
    p <> Panics /\ (forall a, p = Ret a -> answers (memory_of buffers) m c a).
Proof.
  intros buffers calls m ps V E. split; [|split].
  - destruct (run buffers calls m ps V E) as (ts & P & C & Q). destruct C as [X _]. exact X.
  - intros (i & j & p & q & a & N & Hi & Hj & W & RW). destruct (run buffers calls m ps V E) as (ts & P & C & Q). subst ps.
    destruct (coherent_race_free _ _ m ts i j p q a C N Hi Hj W) as [H1 H2]. tauto.
  - intros i c p Hc Hp. destruct (run buffers calls m ps V E) as (ts & P & C & Q).
    destruct (kept _ calls m ts ps i c p P C Q Hc Hp) as (t & T & CT & W).
    split; [intros ->; exact W|]. intros a ->. cbn [wp] in W.
    destruct c as [s|mm s al ai|v x y s|s]; destruct a as [r|r|r|r]; cbn [post answers] in *; try exact W; try contradiction.
    unfold told in W. destruct (ModesReader.ReadMessage (content (memory_of buffers) s)) as [mm|e|]; [|subst r; reflexivity|contradiction].
    destruct W as (x & p & q & b & -> & _ & _ & S1 & S2 & SB & W). cbn [rmap]. f_equal. rewrite <- W. unfold seen.
    rewrite (shows_content _ _ m ts i t _ _ C T S1), (shows_content _ _ m ts i t _ _ C T S2).
    destruct (body x) as [sb|]; [|rewrite SB; reflexivity].
    rewrite (shows_content _ _ m ts i t sb b C T); [reflexivity|]. eapply has_shows. exact SB.
Qed.

Theorem concurrent_end : forall buffers calls, List.Forall (valid (memory_of buffers)) calls ->
  (forall states : nat -> memory * list (prog answer), states O = (memory_of buffers, List.map program calls) ->
     ~ (forall n, schedule (fst (states n)) (snd (states n)) (fst (states (S n))) (snd (states (S n))))) /\
  (forall m ps, execution buffers calls m ps ->
     (forall i c, nth_error calls i = Some c -> exists a, nth_error ps i = Some (Ret a)) \/
     exists m' ps', schedule m ps m' ps').
Proof.
  intros buffers calls V. split.
  - intros states _ H.
    assert (G : forall x, Acc (@later answer) x -> forall n, states n = x -> False).
    { intros x AC. induction AC as [x _ IH]. intros n E. apply (IH (states (S n))) with (n := S n); [|reflexivity].
      subst x. unfold later. apply H. }
    destruct (states O) as [m0 ps0] eqn:E0. exact (G _ (ends _ m0 ps0) O E0).
  - intros m ps E. destruct (run buffers calls m ps V E) as (ts & P & C & Q).
    pose proof (as_many _ calls ts ps P Q) as LEN.
    assert (D : (forall p, List.In p ps -> exists a, p = Ret a) \/ exists p, List.In p ps /\ forall a, p <> Ret a).
    { clear. induction ps as [|p ps [IH|(q & I & N)]].
      - left. intros p [].
      - destruct p as [a| |s i k|s i v k|n k]; [left; intros q [<-|I]; [eauto|auto]|right..]; eexists; (split; [left; reflexivity|discriminate]).
      - right. exists q. split; [right; exact I|exact N]. }
    destruct D as [D|(p & I & N)].
    + left. intros i c Hc. destruct (nth_error ps i) as [p|] eqn:Hp.
      * destruct (D p (nth_error_In _ _ Hp)) as [a ->]. exists a. reflexivity.
      * apply nth_error_None in Hp. assert (i < List.length calls)%nat by (apply nth_error_Some; congruence). lia.
    + right. assert (ST : exists m' p', step m p m' p').
      { destruct (In_nth_error _ _ I) as [i Hi].
        destruct (its_call _ calls ts ps i p P Q Hi) as [c Hc].
        destruct (kept _ calls m ts ps i c p P C Q Hc Hi) as (t & _ & _ & W).
        destruct p as [a| |s k f|s k v f|n f]; [exfalso; apply (N a); reflexivity|contradiction| | |].
        - destruct (idx (content m s) k) as [v|e|] eqn:X; [|exfalso; exact (idx_not_err _ _ _ _ X)|].
          + do 2 eexists. apply step_load. exact X.
          + do 2 eexists. apply step_load_out. exact X.
        - destruct (idx (content m s) k) as [w|e|] eqn:X; [|exfalso; exact (idx_not_err _ _ _ _ X)|].
          + do 2 eexists. eapply step_store. exact X.
          + do 2 eexists. apply step_store_out. exact X.
        - do 2 eexists. apply step_make. }
      destruct ST as (m' & p' & ST). destruct (in_split _ _ I) as (l1 & l2 & ->).
      exists m', (l1 ++ p' :: l2)%list. constructor. exact ST.
Qed.

(* the content of a message belongs to it alone *)
Theorem content_private : forall buffers calls m ps i s x b, List.Forall (valid (memory_of buffers)) calls ->
  execution buffers calls m ps ->
  nth_error calls i = Some (CallReadMessage s) -> nth_error ps i = Some (Ret (AnswerMessage (Ok x))) -> body x = Some b ->
  (List.length (memory_of buffers) <= array b)%nat /\
  forall j p, j <> i -> nth_error ps j = Some p ->
    ~ reads p (array b) /\ ~ writes p (array b) /\
    forall y b', p = Ret (AnswerMessage (Ok y)) -> body y = Some b' -> array b' <> array b.
Proof.
  intros buffers calls m ps i s x b V E Hc Hp HB.
  destruct (run buffers calls m ps V E) as (ts & P & C & Q).
  assert (OWN : forall i s x b, nth_error calls i = Some (CallReadMessage s) -> nth_error ps i = Some (Ret (AnswerMessage (Ok x))) -> body x = Some b ->
    exists t, nth_error ts i = Some t /\ (List.length (memory_of buffers) <= array b)%nat /\ owns t (array b) <> None).
  { clear i s x b Hc Hp HB. intros i s x b Hc Hp HB.
    destruct (kept _ calls m ts ps i _ _ P C Q Hc Hp) as (t & T & _ & W). cbn [wp post] in W. exists t. split; [exact T|].
    unfold told in W. destruct (ModesReader.ReadMessage (content (memory_of buffers) s)) as [mm|e|]; [|discriminate|contradiction].
    destruct W as (x' & p0 & q0 & b0 & EX & _ & _ & _ & _ & SB & _). injection EX as <-. rewrite HB in SB.
    destruct SB as (_ & LB & _ & OB & _ & _). split; [exact LB|congruence]. }
  destruct (OWN i s x b Hc Hp HB) as (t & T & LB & OB). split; [exact LB|].
  intros j p NJ Hj. destruct (its_call _ calls ts ps j p P Q Hj) as [c Hcj].
  destruct (kept _ calls m ts ps j c p P C Q Hcj Hj) as (u & U & _ & Wu).
  assert (NU : owns u (array b) = None).
  { destruct C as (_ & _ & _ & D). apply (D i j t u (array b) T U); [congruence|exact OB]. }
  split; [|split].
  - intros K. destruct p as [a| |s' k f|s' k v f|n f]; try contradiction K. cbn in K. cbn [wp] in Wu. rewrite K in Wu.
    unfold lookup in Wu. replace (array b <? List.length (memory_of buffers))%nat with false in Wu by (symmetry; apply Nat.ltb_ge; exact LB).
    rewrite NU in Wu. exact Wu.
  - intros K. destruct p as [a| |s' k f|s' k v f|n f]; try contradiction K. cbn in K. cbn [wp] in Wu. rewrite K, NU in Wu. apply Wu.
  - intros y b' -> HB' EA.
    assert (HS : exists s', c = CallReadMessage s').
    { destruct c as [s'|? ? ? ?|? ? ? ?|?]; cbn [wp post] in Wu; try contradiction. eauto. }
    destruct HS as [s' ->]. destruct (OWN j s' y b' Hcj Hj HB') as (u' & U' & _ & OB'). rewrite EA in OB'. congruence.
Qed.

Lemma withBytes_twice : forall o p q b p' q' b', withBytes (withBytes o p q b) p' q' b' = withBytes o p' q' b'.
Proof. intros o p q b p' q' b'. destruct o as [m|m|m|m|m|m|m|m|m|m|m]; destruct m; reflexivity. Qed.

Lemma withBytes_content : forall o p q b p' q', withBytes o p' q' (content_of (withBytes o p q b)) = withBytes o p' q' b.
Proof. intros o p q b p' q'. destruct o as [m|m|m|m|m|m|m|m|m|m|m]; destruct m; reflexivity. Qed.

Lemma accepted_size : forall l m, ModesReader.ReadMessage l = Ok m -> len l = 7 \/ len l = 14.
Proof.
  intros l m H. unfold ModesReader.ReadMessage in H.
  destruct (Z.eqb_spec (len l) 7); [left; assumption|]. destruct (Z.eqb_spec (len l) 14); [right; assumption|]. discriminate H.
Qed.

Lemma window_part : forall (arr : list Z) st sz k n, (k + n <= sz)%nat -> (st + sz <= List.length arr)%nat ->
  List.firstn n (List.skipn (st + k) arr) = List.firstn n (List.skipn k (List.firstn sz (List.skipn st arr))).
Proof.
  intros arr st sz k n H1 H2. rewrite skipn_firstn_comm, List.firstn_firstn.
  replace (Nat.min n (sz - k)) with n by lia. rewrite skipn_add. reflexivity.
Qed.

(* the caller changes its buffers after the call *)
Theorem reused_buffer_partial : forall buffers calls m ps i s x, List.Forall (valid (memory_of buffers)) calls ->
  execution buffers calls m ps ->
  nth_error calls i = Some (CallReadMessage s) -> nth_error ps i = Some (Ret (AnswerMessage (Ok x))) ->
  exists message, ModesReader.ReadMessage (content (memory_of buffers) s) = Ok message /\
  forall m', (forall a, (List.length (memory_of buffers) <= a)%nat -> List.nth a m' [] = List.nth a m []) ->
    List.length (List.nth (array s) m' []) = List.length (List.nth (array s) m []) ->
    let now := content m' s in
    seen m' x = withBytes message (octets 2 (len now - 3) now) (octets (len now - 2) (len now) now) (content_of message).
Proof.
  intros buffers calls m ps i s x V E Hc Hp.
  destruct (run buffers calls m ps V E) as (ts & P & C & Q).
  destruct (kept _ calls m ts ps i _ _ P C Q Hc Hp) as (t & T & _ & W). cbn [wp post] in W.
  unfold told in W. destruct (ModesReader.ReadMessage (content (memory_of buffers) s)) as [mm|e|] eqn:RM; [|discriminate|contradiction].
  destruct W as (x' & p0 & q0 & b0 & EX & E1 & E2 & S1 & S2 & SB & W). injection EX as <-.
  exists mm. split; [reflexivity|]. intros m' SAME LEN now.
  assert (VS : valid (memory_of buffers) (CallReadMessage s)) by (rewrite Forall_forall in V; apply V; eapply nth_error_In; exact Hc).
  destruct VS as (VA & VB & VC & _). cbn [argument] in *.
  pose proof (accepted_size _ _ RM) as SZ.
  assert (NM : List.nth (array s) m [] = List.nth (array s) (memory_of buffers) []).
  { destruct C as ((ext & ->) & _). rewrite app_nth1 by exact VA. reflexivity. }
  rewrite NM in LEN.
  assert (L1 : len (content (memory_of buffers) s) = Z.of_nat (size s)).
  { unfold len, content, window. rewrite firstn_length, skipn_length. f_equal. lia. }
  assert (L2 : len now = Z.of_nat (size s)).
  { unfold now, len, content, window. rewrite firstn_length, skipn_length. f_equal. lia. }
  unfold seen. rewrite <- W, withBytes_twice, withBytes_content.
  assert (EP : content m' (payload x) = octets 2 (len now - 3) now).
  { rewrite E1. unfold octets. rewrite L2. unfold now, content at 1 2, window. cbn [array start size].
    replace (Z.to_nat (Z.of_nat (size s) - 3 - 2 + 1)) with (size s - 4)%nat by lia. change (Z.to_nat (2 - 1)) with 1%nat.
    apply window_part; lia. }
  assert (EQ : content m' (parity x) = octets (len now - 2) (len now) now).
  { rewrite E2. unfold octets. rewrite L2. unfold now, content at 1 2, window. cbn [array start size].
    replace (Z.to_nat (Z.of_nat (size s) - (Z.of_nat (size s) - 2) + 1)) with 3%nat by lia.
    replace (Z.to_nat (Z.of_nat (size s) - 2 - 1)) with (size s - 3)%nat by lia.
    apply window_part; lia. }
  rewrite EP, EQ. destruct (body x) as [sb|]; [|rewrite SB; reflexivity]. f_equal.
  transitivity (content m sb).
  - unfold content. rewrite SAME; [reflexivity|]. apply SB.
  - eapply shows_content; [exact C|exact T|eapply has_shows; exact SB].
Qed.

(* what is printed does not change *)
Theorem reused_buffer_text_partial : forall buffers calls m ps i s x, List.Forall (valid (memory_of buffers)) calls ->
  execution buffers calls m ps ->
  nth_error calls i = Some (CallReadMessage s) -> nth_error ps i = Some (Ret (AnswerMessage (Ok x))) ->
  forall m', (forall a, (List.length (memory_of buffers) <= a)%nat -> List.nth a m' [] = List.nth a m []) ->
    List.length (List.nth (array s) m' []) = List.length (List.nth (array s) m []) ->
    ModesReader.ModeSMessage_ToString (seen m' x) = ModesReader.ModeSMessage_ToString (seen m x) /\
    GetDownLinkFormat (seen m' x) = GetDownLinkFormat (seen m x) /\
    content_of (seen m' x) = content_of (seen m x).
Proof.
  intros buffers calls m ps i s x V E Hc Hp m' SAME LEN.
  destruct (reused_buffer_partial buffers calls m ps i s x V E Hc Hp) as (mm & _ & K).
  rewrite (K m' SAME LEN), (K m (fun _ _ => eq_refl) eq_refl). cbv zeta.
  destruct mm as [r|r|r|r|r|r|r|r|r|r|r]; destruct r; repeat split.
Qed.

(* ---- examples: a program run to its end ---- *)
Fixpoint exec {A : Type} (m : memory) (p : prog A) : memory * prog A :=
  match p with
  | Ret a => (m, Ret a)
  | Panics => (m, Panics)
  | Load s i k => match idx (content m s) i with Ok v => exec m (k v) | _ => (m, Panics) end
  | Store s i v k => match idx (content m s) i with
      | Ok _ => exec (replace m (array s) (write (List.nth (array s) m []) (start s + Z.to_nat i) v)) k
      | _ => (m, Panics) end
  | Make n k => exec (m ++ [List.repeat 0 n])%list (k (mkSlice (List.length m) 0 n))
  end.

Lemma reaches_trans : forall A m (ps : list (prog A)) m1 ps1 m2 ps2,
  reaches m ps m1 ps1 -> reaches m1 ps1 m2 ps2 -> reaches m ps m2 ps2.
Proof. intros A m ps m1 ps1 m2 ps2 H K. induction K as [|? ? ? ? ? ? _ IH S]; [exact H|]. eapply reaches_step; [apply IH; exact H|exact S]. Qed.

Lemma exec_reaches : forall A (p : prog A) m l1 l2,
  reaches m (l1 ++ p :: l2)%list (fst (exec m p)) (l1 ++ snd (exec m p) :: l2)%list.
Proof.
  intros A p. induction p as [a| |s i k IH|s i v k IH|n k IH]; intros m l1 l2; cbn [exec].
  - constructor.
  - constructor.
  - destruct (idx (content m s) i) as [v|e|] eqn:E; [|exfalso; exact (idx_not_err _ _ _ _ E)|].
    + eapply reaches_trans; [eapply reaches_step; [apply reaches_here|constructor; apply step_load; exact E]|apply IH].
    + eapply reaches_step; [apply reaches_here|]. constructor. apply step_load_out. exact E.
  - destruct (idx (content m s) i) as [w|e|] eqn:E; [|exfalso; exact (idx_not_err _ _ _ _ E)|].
    + eapply reaches_trans; [eapply reaches_step; [apply reaches_here|constructor; eapply step_store; exact E]|apply IH].
    + eapply reaches_step; [apply reaches_here|]. constructor. apply step_store_out. exact E.
  - eapply reaches_trans; [eapply reaches_step; [apply reaches_here|constructor; apply step_make]|apply IH].
Qed.

Lemma four_calls_valid : List.Forall (valid (memory_of [klm1023])) four_calls.
Proof.
  assert (B : bytes klm1023) by (repeat constructor; lia).
  repeat (apply Forall_cons; [split; [cbn; lia|]; split; [cbn; lia|]; split; [cbn; repeat constructor; lia|]|]); try exact I; try reflexivity.
  constructor.
Qed.

(* the four calls answer *)
Example four_calls_answer : exists m a1 a2 a3 a4,
  execution [klm1023] four_calls m [Ret a1; Ret a2; Ret a3; Ret a4] /\
  answers (memory_of [klm1023]) m (CallReadMessage whole) a1 /\ a2 = AnswerCRC (Ok 0x4840D6).
Proof.
  set (r := exec (memory_of [klm1023]) (program (CallReadMessage whole))).
  set (r2 := exec (fst r) (program (CallCheckCRC klm1023_message whole [] []))).
  set (r3 := exec (fst r2) (program (CallReadADSB 0 false false part))).
  set (r4 := exec (fst r3) (program (CallReadCommB part))).
  assert (X : execution [klm1023] four_calls (fst r4) [snd r; snd r2; snd r3; snd r4]).
  { unfold execution, four_calls. cbn [List.map].
    eapply reaches_trans; [apply (exec_reaches _ _ _ [])|].
    eapply reaches_trans; [apply (exec_reaches _ _ _ [snd r])|].
    eapply reaches_trans; [apply (exec_reaches _ _ _ [snd r; snd r2])|].
    apply (exec_reaches _ _ _ [snd r; snd r2; snd r3] []). }
  assert (G : forall p : prog answer, (match p with Ret _ => true | _ => false end) = true -> exists a, p = Ret a)
    by (intros p H; destruct p; try discriminate; eauto).
  destruct (G (snd r) ltac:(vm_compute; reflexivity)) as [a1 E1].
  assert (E2 : snd r2 = Ret (AnswerCRC (Ok 0x4840D6))) by (vm_compute; reflexivity).
  destruct (G (snd r3) ltac:(vm_compute; reflexivity)) as [a3 E3].
  destruct (G (snd r4) ltac:(vm_compute; reflexivity)) as [a4 E4].
  rewrite E1, E2, E3, E4 in X. exists (fst r4), a1, (AnswerCRC (Ok 0x4840D6)), a3, a4. split; [exact X|]. split; [|reflexivity].
  destruct (concurrent_answers _ _ _ _ four_calls_valid X) as (_ & _ & K).
  apply (K O (CallReadMessage whole) (Ret a1) eq_refl eq_refl). reflexivity.
Qed.

(* Payload and Parity are windows of the buffer of the caller: it changes them when it reads the next frame
   into the same buffer *)
Theorem reused_buffer_refuted : exists buffers calls m ps i s x m',
  List.Forall (valid (memory_of buffers)) calls /\ execution buffers calls m ps /\
  nth_error calls i = Some (CallReadMessage s) /\ nth_error ps i = Some (Ret (AnswerMessage (Ok x))) /\
  (forall a, (List.length (memory_of buffers) <= a)%nat -> List.nth a m' [] = List.nth a m []) /\
  List.length (List.nth (array s) m' []) = List.length (List.nth (array s) m []) /\
  seen m' x <> seen m x.
Proof.
  set (r := exec (memory_of [klm1023]) (program (CallReadMessage whole))).
  assert (X : execution [klm1023] [CallReadMessage whole] (fst r) [snd r])
    by apply (exec_reaches _ (program (CallReadMessage whole)) (memory_of [klm1023]) [] []).
  assert (E : exists x, snd r = Ret (AnswerMessage (Ok x)) /\
    seen (replace (fst r) 2 (List.repeat 0 14)) x <> seen (fst r) x).
  { remember (snd r) as p eqn:P. vm_compute in P. subst p. eexists. split; [reflexivity|]. vm_compute. intros C. discriminate C. }
  destruct E as (x & E & D). rewrite E in X.
  exists [klm1023], [CallReadMessage whole], (fst r), [Ret (AnswerMessage (Ok x))], O, whole, x, (replace (fst r) 2 (List.repeat 0 14)).
  split; [constructor; [exact (Forall_inv four_calls_valid)|constructor]|]. split; [exact X|].
  split; [reflexivity|]. split; [reflexivity|].
  split; [|split; [vm_compute; reflexivity|exact D]].
  intros a L. change (List.length (memory_of [klm1023])) with 3%nat in L.
  assert (F : fst r = (memory_of [klm1023] ++ List.skipn 3 (fst r))%list) by (vm_compute; reflexivity).
  rewrite F. cbn [replace memory_of globals List.app List.nth]. destruct a as [|[|[|a]]]; try lia. reflexivity.
Qed.
