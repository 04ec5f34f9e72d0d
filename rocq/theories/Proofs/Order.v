(* C116: only the order of the frames of the aircraft itself matters. *)
From Verif.Proofs Require Import Tac.
From Verif.Spec Require Import Altitude ModeS Crc Squitter Reply Order Radar Said Answers.
From Verif.Gen Require modes_messages.
From Verif.Model Require Import Crc ModesReader AdsbReader CommbReader.
From Verif.Proofs Require Import ModeSReader CrcReader Octets Squitter.
From Verif.Proofs Require Lossless Noise Radar Answers.
From Coq Require Import List.
Local Open Scope Z_scope.

Lemma by_other_foreign : forall icao frame, by_other icao frame -> foreign icao frame.
Proof.
  intros icao frame (Hb & S & R). split; [exact Hb|]. split; [exact S|]. intros fs X. specialize (R fs X).
  unfold squawk_reply, altitude_reply. cbn [In] in R. split; [lia|intros D; exfalso; lia].
Qed.

(* a list of frames is either empty or ends with one *)
Lemma heard_own_told : forall icao start frames own, heard icao frames own -> forall k a s,
  told icao start own k a s -> told icao start frames k a s.
Proof.
  intros icao start frames own H. induction H as [|frames own frame H IH|frames own frame H IH O]; intros k a s T; [exact T| |].
  - inversion T as [E|? ? ? ? ? ca p T' S E|? ? ? ? ? fs c f T' R D A E|? ? ? ? ? fs T' R D E|? ? ? ? ? T' F E].
    + destruct own; discriminate E.
    + apply app_inj_tail in E as [-> ->]. subst. exact (told_address _ _ _ _ _ _ _ _ _ (IH _ _ _ T') S).
    + apply app_inj_tail in E as [-> ->]. subst. exact (told_altitude _ _ _ _ _ _ _ _ _ _ (IH _ _ _ T') R D A).
    + apply app_inj_tail in E as [-> ->]. subst. exact (told_squawk _ _ _ _ _ _ _ _ (IH _ _ _ T') R D).
    + apply app_inj_tail in E as [-> ->]. subst. exact (told_foreign _ _ _ _ _ _ _ (IH _ _ _ T') F).
  - exact (told_foreign _ _ _ _ _ _ _ (IH _ _ _ T) (by_other_foreign _ _ O)).
Qed.

Theorem replies_order : forall addresses frames frames' own icao, addresses <> [] -> Forall bytes own ->
  heard icao frames own -> heard icao frames' own ->
  has icao (known (scanned addresses frames)) = has icao (known (scanned addresses frames')) /\
  altitudes (scanned addresses frames) icao = altitudes (scanned addresses frames') icao /\
  squawks (scanned addresses frames) icao = squawks (scanned addresses frames') icao.
Proof.
  intros addresses frames frames' own icao N B H H'.
  destruct (Radar.histories icao (has icao addresses) own B) as (k & a & s & T).
  destruct (Radar.replies_kept addresses frames icao k a s N (heard_own_told _ _ _ _ H _ _ _ T)) as (-> & -> & ->).
  destruct (Radar.replies_kept addresses frames' icao k a s N (heard_own_told _ _ _ _ H' _ _ _ T)) as (-> & -> & ->).
  auto.
Qed.

(* ---- squitters ---- *)
Lemma note_same : forall A (pick : AdsbReader.Message -> option A) v a c t t' frame icao, t icao = t' icao ->
  note pick v a c t frame icao = note pick v a c t' frame icao.
Proof.
  intros A pick v a c t t' frame icao E. unfold note.
  destruct (ReadMessage frame) as [m| |]; try exact E. destruct m; try exact E.
  destruct (CheckCRC _ frame [] []) as [b| |]; try exact E.
  destruct (ReadADSBMessage v a c _) as [x| |]; try exact E. destruct (pick x); [|exact E].
  destruct (icao =? b); [reflexivity|exact E].
Qed.
Lemma note_other : forall A (pick : AdsbReader.Message -> option A) v a c t frame icao, by_other icao frame ->
  note pick v a c t frame icao = t icao.
Proof.
  intros A pick v a c t frame icao (Hb & S & _). unfold note.
  destruct (ReadMessage frame) as [m| |] eqn:R; try reflexivity. destruct m; try reflexivity.
  destruct (CheckCRC _ frame [] []) as [b| |] eqn:C; try reflexivity.
  destruct (ReadADSBMessage v a c _) as [x| |]; try reflexivity. destruct (pick x); [|reflexivity].
  destruct (Z.eqb_spec icao b) as [<-|]; [exfalso|reflexivity].
  destruct (proj1 (Lossless.squitter_iff frame icao Hb)) as (ca & payload & X); [eauto|]. exact (S _ _ X).
Qed.

Lemma noted_own : forall A (pick : AdsbReader.Message -> option A) v a c frames own icao, heard icao frames own ->
  noted pick v a c frames icao = noted pick v a c own icao.
Proof.
  intros A pick v a c frames own icao H. unfold noted.
  induction H as [|frames own frame H IH|frames own frame H IH O]; [reflexivity|..]; rewrite !fold_left_app; cbn [fold_left].
  - apply note_same, IH.
  - rewrite note_other by exact O. exact IH.
Qed.

Theorem squitters_order : forall A (pick : AdsbReader.Message -> option A) version nicA nicC frames frames' own icao,
  heard icao frames own -> heard icao frames' own ->
  noted pick version nicA nicC frames icao = noted pick version nicA nicC frames' icao.
Proof.
  intros A pick v a c frames frames' own icao H H'.
  rewrite (noted_own A pick v a c _ _ _ H), (noted_own A pick v a c _ _ _ H'). reflexivity.
Qed.

(* ---- registers ---- *)
Section Registers.
Context {A : Type} (pick : CommbReader.Message -> option A).
Definition entry (icao : Z) (r : list (Z * bool) * (Z -> option A)) := (has icao (fst r), snd r icao).

Lemma keep_same : forall b data t t' icao, t icao = t' icao -> keep_first pick b data t icao = keep_first pick b data t' icao.
Proof.
  intros b data t t' icao E. unfold keep_first. destruct (ReadCommBMessage data); try exact E.
  destruct (first pick _); [|exact E]. destruct (icao =? b); [reflexivity|exact E].
Qed.
Lemma keep_other : forall b data t icao, b <> icao -> keep_first pick b data t icao = t icao.
Proof.
  intros b data t icao N. unfold keep_first. destruct (ReadCommBMessage data); try reflexivity.
  destruct (first pick _); [|reflexivity]. destruct (Z.eqb_spec icao b); congruence.
Qed.

(* a reply read with a list of addresses: kept when its sender is in the list *)
Lemma entry_reply : forall frame m data icao r, bytes frame -> ReadMessage frame = Ok m -> fst r <> [] ->
  GetDownLinkFormat m <> 11 -> GetDownLinkFormat m <> 17 -> GetDownLinkFormat m <> 18 ->
  snd (match CheckCRC m frame (fst r) [] with Ok b => (fst r, keep_first pick b data (snd r)) | _ => r end) icao =
    if has icao (fst r) then match CheckCRC m frame [] [] with Ok b => keep_first pick b data (snd r) icao | _ => snd r icao end else snd r icao.
Proof.
  intros frame m data icao r Hb Hm N N1 N2 N3.
  pose proof (fun al a => Radar.resolved frame m al a Hb Hm N1 N2 N3) as I.
  assert (Z0 : forall b, CheckCRC m frame (fst r) [] = Ok b -> CheckCRC m frame [] [] = Ok b /\ has b (fst r) = true).
  { intros b C. apply I in C as [R Ad]. split; [apply I; split; [exact R|left; reflexivity]|apply Radar.admits_has; assumption]. }
  assert (Z1 : forall b, CheckCRC m frame [] [] = Ok b -> has b (fst r) = true -> CheckCRC m frame (fst r) [] = Ok b).
  { intros b C Hh. apply I in C as [R _]. apply I. split; [exact R|apply Radar.admits_has; assumption]. }
  destruct (CheckCRC m frame (fst r) []) as [b| |] eqn:C; cbn [fst snd].
  - destruct (Z0 b eq_refl) as [C0 Hh]. rewrite C0. destruct (Z.eq_dec b icao) as [->|Ne].
    + rewrite Hh. reflexivity.
    + rewrite keep_other by exact Ne. destruct (has icao (fst r)); reflexivity.
  - destruct (CheckCRC m frame [] []) as [b| |] eqn:C0; [|destruct (has icao (fst r)); reflexivity..].
    destruct (has icao (fst r)) eqn:Hh; [|reflexivity]. destruct (Z.eq_dec b icao) as [->|Ne]; [|rewrite keep_other by exact Ne; reflexivity].
    specialize (Z1 icao eq_refl Hh). discriminate Z1.
  - destruct (CheckCRC m frame [] []) as [b| |] eqn:C0; [|destruct (has icao (fst r)); reflexivity..].
    destruct (has icao (fst r)) eqn:Hh; [|reflexivity]. destruct (Z.eq_dec b icao) as [->|Ne]; [|rewrite keep_other by exact Ne; reflexivity].
    specialize (Z1 icao eq_refl Hh). discriminate Z1.
Qed.

Lemma same_squitter : forall frame d al al', bytes frame -> ReadMessage frame = Ok (MDF17 d) ->
  match CheckCRC (MDF17 d) frame al [] with Ok b => Some b | _ => None end = match CheckCRC (MDF17 d) frame al' [] with Ok b => Some b | _ => None end.
Proof.
  intros frame d al al' Hb Hm. pose proof (fun l a => Radar.squitter_any frame d l a Hb Hm) as I.
  destruct (CheckCRC (MDF17 d) frame al []) as [b| |] eqn:C.
  - apply (proj1 (I _ _)) in C. apply (proj2 (I al' _)) in C. rewrite C. reflexivity.
  - destruct (CheckCRC (MDF17 d) frame al' []) as [b'| |] eqn:C'; try reflexivity.
    apply (proj1 (I _ _)) in C'. apply (proj2 (I al _)) in C'. congruence.
  - destruct (CheckCRC (MDF17 d) frame al' []) as [b'| |] eqn:C'; try reflexivity.
    apply (proj1 (I _ _)) in C'. apply (proj2 (I al _)) in C'. congruence.
Qed.

Lemma listen_same : forall r r' frame icao, bytes frame -> fst r <> [] -> fst r' <> [] -> entry icao r = entry icao r' ->
  entry icao (listen pick r frame) = entry icao (listen pick r' frame).
Proof.
  intros r r' frame icao Hb N N' E. unfold listen. destruct (ReadMessage frame) as [m| |] eqn:Hm; try exact E.
  destruct (message_kind frame m Hb Hm) as [G K]. cbv zeta in G, K.
  assert (E1 : has icao (fst r) = has icao (fst r')) by (unfold entry in E; congruence).
  assert (E2 : snd r icao = snd r' icao) by (unfold entry in E; congruence).
  destruct m as [d|d|d|d|d|d|d|d|d|d|d];
    try (destruct (CheckCRC _ frame (fst r) []); destruct (CheckCRC _ frame (fst r') []); exact E).
  - pose proof (same_squitter frame d (fst r) (fst r') Hb Hm) as Q.
    destruct (CheckCRC (MDF17 d) frame (fst r) []) as [b| |]; destruct (CheckCRC (MDF17 d) frame (fst r') []) as [b'| |]; try discriminate Q; try exact E.
    injection Q as <-. unfold entry. cbn [fst snd has existsb]. fold (has icao (fst r)) (has icao (fst r')). rewrite E1, E2. reflexivity.
  - unfold entry. rewrite !(entry_reply frame (MDF20 d)) by (assumption || (rewrite G, K; discriminate)).
    f_equal; [destruct (CheckCRC _ frame (fst r) []); destruct (CheckCRC _ frame (fst r') []); exact E1|].
    rewrite E1. destruct (has icao (fst r')); [|exact E2]. destruct (CheckCRC _ frame [] []); [apply keep_same, E2|exact E2..].
  - unfold entry. rewrite !(entry_reply frame (MDF21 d)) by (assumption || (rewrite G, K; discriminate)).
    f_equal; [destruct (CheckCRC _ frame (fst r) []); destruct (CheckCRC _ frame (fst r') []); exact E1|].
    rewrite E1. destruct (has icao (fst r')); [|exact E2]. destruct (CheckCRC _ frame [] []); [apply keep_same, E2|exact E2..].
Qed.

Lemma listen_by_other : forall r frame icao, by_other icao frame -> entry icao (listen pick r frame) = entry icao r.
Proof.
  intros r frame icao (Hb & NS & NR). unfold listen. destruct (ReadMessage frame) as [m| |] eqn:Hm; try reflexivity.
  destruct (CheckCRC m frame (fst r) []) as [a| |] eqn:C; try reflexivity.
  destruct (message_kind frame m Hb Hm) as [G K]. cbv zeta in G, K.
  destruct m as [d|d|d|d|d|d|d|d|d|d|d]; try reflexivity; unfold entry; cbn [fst snd].
  - cbn [has existsb fst]. destruct (Z.eqb_spec a icao) as [->|]; [|reflexivity]. exfalso.
    apply (Radar.squitter_any frame _ (fst r) icao Hb Hm) in C.
    destruct (proj1 (Lossless.squitter_iff frame icao Hb)) as (ca & payload & S); [eauto|]. exact (NS _ _ S).
  - rewrite keep_other; [reflexivity|]. intros ->. apply (Radar.resolved frame _ (fst r) icao Hb Hm) in C as [[fs R] _]; [|rewrite G, K; discriminate..].
    apply (NR fs R). rewrite K. cbn. tauto.
  - rewrite keep_other; [reflexivity|]. intros ->. apply (Radar.resolved frame _ (fst r) icao Hb Hm) in C as [[fs R] _]; [|rewrite G, K; discriminate..].
    apply (NR fs R). rewrite K. cbn. tauto.
Qed.

Lemma listened_own : forall addresses frames own icao, addresses <> [] -> Forall bytes own -> heard icao frames own ->
  fst (listened pick addresses frames) <> [] /\ fst (listened pick addresses own) <> [] /\
  entry icao (listened pick addresses frames) = entry icao (listened pick addresses own).
Proof.
  intros addresses frames own icao N B H. unfold listened.
  induction H as [|frames own frame H IH|frames own frame H IH O]; [auto|..]; rewrite !fold_left_app; cbn [fold_left].
  - apply Forall_app in B as [B1 B2]. inversion B2 as [|? ? Hb _]; subst. destruct (IH B1) as (X & Y & Z).
    split; [apply Answers.listen_nonempty, X|]. split; [apply Answers.listen_nonempty, Y|]. apply listen_same; assumption.
  - destruct (IH B) as (X & Y & Z). split; [apply Answers.listen_nonempty, X|]. split; [exact Y|].
    rewrite listen_by_other by exact O. exact Z.
Qed.
End Registers.

Theorem registers_order : forall A (pick : CommbReader.Message -> option A) addresses frames frames' own icao,
  addresses <> [] -> Forall bytes own -> heard icao frames own -> heard icao frames' own ->
  has icao (fst (listened pick addresses frames)) = has icao (fst (listened pick addresses frames')) /\
  snd (listened pick addresses frames) icao = snd (listened pick addresses frames') icao.
Proof.
  intros A pick addresses frames frames' own icao N B H H'.
  destruct (listened_own pick addresses _ _ icao N B H) as (_ & _ & E). destruct (listened_own pick addresses _ _ icao N B H') as (_ & _ & E').
  unfold entry in *. split; congruence.
Qed.

(* ---- which frames are of others ---- *)
Theorem other_squitter : forall capability payload icao icao' frame, Squitter capability icao' payload frame -> icao' <> icao -> by_other icao frame.
Proof.
  intros ca payload icao icao' frame S N. destruct (Radar.foreign_squitter _ _ _ _ _ S N) as (Hb & NS & _).
  split; [exact Hb|]. split; [exact NS|]. destruct (squitter_received _ _ _ _ S) as (_ & _ & d & R & _).
  pose proof (proj2 (message_kind frame _ Hb R)) as K. cbv zeta in K. intros fs _. rewrite K. cbn. lia.
Qed.

Theorem other_reply : forall fields icao icao' frame, Reply fields icao' frame -> bits 1 5 frame <> 17 -> icao' <> icao -> by_other icao frame.
Proof.
  intros fs icao icao' frame R E N. assert (Hb : bytes frame) by apply (Noise.reply_codeword _ _ _ R). split; [exact Hb|]. split.
  - intros ca payload S. apply E. destruct (squitter_received _ _ _ _ S) as (_ & _ & d & Q & _).
    pose proof (proj2 (message_kind frame _ Hb Q)) as K. cbv zeta in K. exact K.
  - intros fs' R'. exfalso. exact (N (Radar.sender_unique _ _ _ _ _ R R')).
Qed.

(* the same frames of two aircraft, received in two orders *)
Example order_example :
  let squitter := [0x8D; 0x48; 0x40; 0xD6; 0x20; 0x2C; 0xC3; 0x71; 0xC3; 0x2C; 0xE0; 0x57; 0x60; 0x98] in
  let other := [0x8D; 0x48; 0x50; 0x20; 0x99; 0x44; 0x09; 0x94; 0x08; 0x38; 0x17; 0x5B; 0x28; 0x4F] in
  let reply := [0x20; 0x0; 0x17; 0xb0; 0x4; 0xf9; 0xa1] in
  heard 0x4840D6 [squitter; other; reply] [squitter; reply] /\ heard 0x4840D6 [squitter; reply; other] [squitter; reply] /\
  altitudes (scanned [(0, true)] [squitter; other; reply]) 0x4840D6 = Some (coding_code Feet25, 37000).
Proof.
  intros squitter other reply.
  assert (B : forall f, In f [other] -> bytes f) by (intros f [<-|[]]; unfold other; repeat (constructor; [unfold byte; lia|]); constructor).
  assert (O : by_other 0x4840D6 other).
  { destruct (proj1 (Lossless.squitter_iff other 0x485020 (B _ (or_introl eq_refl)))) as (ca & payload & S).
    - eexists. split; [reflexivity|vm_compute; reflexivity].
    - exact (other_squitter ca payload 0x4840D6 0x485020 other S ltac:(lia)). }
  split; [|split].
  - change (heard 0x4840D6 ((([] ++ [squitter]) ++ [other]) ++ [reply]) (([] ++ [squitter]) ++ [reply])).
    apply heard_own, heard_other; [apply heard_own, heard_nothing|exact O].
  - change (heard 0x4840D6 ((([] ++ [squitter]) ++ [reply]) ++ [other]) (([] ++ [squitter]) ++ [reply])).
    apply heard_other; [apply heard_own, heard_own, heard_nothing|exact O].
  - vm_compute. reflexivity.
Qed.
