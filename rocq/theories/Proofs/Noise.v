(* C93: damaged transmissions. *)
From Verif.Proofs Require Import Tac.
From Verif.Spec Require Import Altitude ModeS Crc Squitter Reply Noise.
From Verif.Gen Require modes_messages modes_fields modes_common.
From Verif.Model Require Import Crc ModesReader Cmd.
From Verif.Spec Require Import Text Report Command.
From Verif.Proofs Require Import ModeSReader CrcPoly CrcCode CrcDistance CrcReader Octets Squitter Reply.
From Verif.Proofs Require Command Printout EndToEnd.
Require Import String.
Local Open Scope list_scope.
Local Open Scope Z_scope.

Lemma lxor_low : forall a x, 0 <= x < 2 ^ 24 -> Z.lxor (a * 2 ^ 24) x = a * 2 ^ 24 + x.
Proof.
  intros a x H. pose proof (lxor_split 24 a 0 0 x ltac:(lia) ltac:(lia) H) as L.
  rewrite Z.lxor_0_r, Z.lxor_0_l, Z.add_0_r in L. exact L.
Qed.

Lemma reply_codeword : forall fields overlay f, Reply fields overlay f ->
  bytes f /\ (len f = 7 \/ len f = 14) /\ 0 <= overlay < 2 ^ 24 /\ codeword (Z.lxor (be f) overlay).
Proof.
  intros fields ov f (F & W & Ov & p & P & E).
  assert (exists k, width fields = 8 * k /\ (k = 4 \/ k = 11)) as (k & Wk & Hk) by (destruct W; [exists 4|exists 11]; lia).
  assert (Rp : 0 <= Z.lxor p ov < 2 ^ 24) by (destruct P as [P _]; apply lxor_range; lia).
  assert (Fp : fits [(24, Z.lxor p ov)]) by (constructor; [cbn [fst snd]; lia|constructor]).
  assert (Wf : width (fields ++ [(24, Z.lxor p ov)]) = 8 * (k + 3)).
  { rewrite width_app, Wk. change (width [(24, Z.lxor p ov)]) with 24. lia. }
  assert (Ff : fits (fields ++ [(24, Z.lxor p ov)])) by (rewrite fits_app; auto).
  split; [rewrite E; apply message_bytes|]. split; [rewrite E, (message_len _ (k + 3)) by assumption; lia|]. split; [exact Ov|].
  rewrite E, (message_be _ (k + 3)) by assumption. rewrite packed_app by exact Fp.
  change (width [(24, Z.lxor p ov)]) with 24. rewrite packed_one.
  destruct P as [P C]. rewrite (message_be _ k) in C by assumption.
  rewrite Z.lxor_comm. rewrite <- (lxor_low _ (Z.lxor p ov)) by lia.
  rewrite Z.lxor_comm, Z.lxor_assoc, lxor_cancel. exact C.
Qed.

(* a damage is not a codeword *)
Lemma damage_seen : forall f g, bytes f -> len f <= 14 -> damaged f g -> ~ codeword (Z.lxor (be f) (be g)).
Proof.
  intros f g Bf Lf (Bg & L & N & D) C.
  destruct (min_distance f g Bf Bg ltac:(lia) Lf C ltac:(congruence)) as [D6 V].
  fold (errors f g) in D6, V. destruct D as [D|[D|D]].
  - lia.
  - apply Z.odd_spec in D. rewrite <- Z.negb_even, V in D. discriminate.
  - apply N. symmetry. apply (burst_detected 24); auto. lia.
Qed.

(* the format of what is read *)
Lemma read_format : forall g m, bytes g -> ReadMessage g = Ok m ->
  (extended g <-> (GetDownLinkFormat m = 17 \/ GetDownLinkFormat m = 18)).
Proof.
  intros g m Hb R. destruct (message_kind g m Hb R) as [K _]. unfold extended. rewrite K.
  destruct (Z.leb_spec 24 (bits 1 5 g)); lia.
Qed.

Lemma lxor_swap : forall f a g b, Z.lxor (Z.lxor f a) (Z.lxor g b) = Z.lxor (Z.lxor f g) (Z.lxor a b).
Proof. intros. apply lxor_4. Qed.

(* ---- extended squitters ---- *)

Lemma extended_read : forall g, bytes g -> len g = 14 -> extended g -> exists m, ReadMessage g = Ok m.
Proof.
  intros g Bg L [D|D]; eexists; [exact (df17_layout g Bg L D)|exact (df18_layout g Bg L D)].
Qed.

Lemma extended_refused : forall f g, bytes f -> len f = 14 -> codeword (be f) -> damaged f g -> extended g ->
  exists m, ReadMessage g = Ok m /\ forall addresses interrogators, exists e, CheckCRC m g addresses interrogators = Err e.
Proof.
  intros f g Bf Lf Cf D Eg. destruct D as (Bg & L & D). pose proof (conj Bg (conj L D)) as Dm.
  destruct (extended_read g Bg ltac:(lia) Eg) as (m & R). exists m. split; [exact R|]. intros al ai.
  destruct (extended_squitter_check g m al ai Bg R) as (_ & I & NP); [apply (read_format g m Bg R); exact Eg|].
  destruct (CheckCRC m g al ai) as [a|e|] eqn:E; [|eauto|congruence].
  exfalso. apply (damage_seen f g Bf ltac:(lia) Dm). apply codeword_lxor; [exact Cf|]. apply I. eauto.
Qed.


(* C93 *)
Theorem squitter_damaged : forall ca icao payload sent heard, Squitter ca icao payload sent -> damaged sent heard -> extended heard ->
  exists m, ReadMessage heard = Ok m /\ forall addresses interrogators, exists e, CheckCRC m heard addresses interrogators = Err e.
Proof.
  intros ca icao payload f g S D E. apply Printout.squitter_reply in S as [W S].
  destruct (reply_codeword _ _ _ S) as (Bf & _ & _ & C). rewrite Z.lxor_0_r in C.
  destruct (Printout.squitter_frame 17 ca icao payload f) as (_ & L & _); auto.
  exact (extended_refused f g Bf L C D E).
Qed.

Theorem device_damaged : forall cf icao payload sent heard, Reply ([(5, 18); (3, cf); (24, icao)] ++ payload) 0 sent -> width payload = 56 ->
  damaged sent heard -> extended heard ->
  exists m, ReadMessage heard = Ok m /\ forall addresses interrogators, exists e, CheckCRC m heard addresses interrogators = Err e.
Proof.
  intros cf icao payload f g S W D E.
  destruct (reply_codeword _ _ _ S) as (Bf & _ & _ & C). rewrite Z.lxor_0_r in C.
  destruct (Printout.squitter_frame 18 cf icao payload f) as (_ & L & _); auto.
  exact (extended_refused f g Bf L C D E).
Qed.

(* the command prints the reason of the refusal and nothing else *)
Theorem squitter_damaged_printed : forall ffmt matan2 level line ca icao payload sent heard,
  Squitter ca icao payload sent -> damaged sent heard -> extended heard -> hex_text line heard ->
  exists e, processSingleLine ffmt matan2 line level = Ok (endl ("Reading: " ++ line) ++ endl e)%string.
Proof.
  intros ffmt matan2 level line ca icao payload f g S D E H.
  destruct (squitter_damaged _ _ _ _ _ S D E) as (m & R & K). destruct (K [] []) as (e & K').
  destruct (Command.command_report ffmt matan2 line level) as (out & O & P). exists e. rewrite O. f_equal.
  destruct P as [e' N _|f' e' H' R'|f' m' e' H' R' C'|f' m' a' text more H' R' C' T' D'];
    [exfalso; exact (N g H)| | |]; pose proof (Command.hex_text_unique _ _ _ H H'); subst f'; try congruence.
Qed.

(* when the format itself is damaged, what is told does not depend on the aircraft but on the damage *)
Theorem squitter_misread : forall ca icao payload sent heard m addresses interrogators a,
  Squitter ca icao payload sent -> damaged sent heard -> ~ extended heard ->
  ReadMessage heard = Ok m -> CheckCRC m heard addresses interrogators = Ok a ->
  a <> 0 /\ codeword (Z.lxor (Z.lxor (be sent) (be heard)) a).
Proof.
  intros ca icao payload f g m al ai a S D E R K. apply Printout.squitter_reply in S as [W S].
  destruct (reply_codeword _ _ _ S) as (Bf & _ & _ & C). rewrite Z.lxor_0_r in C.
  destruct (Printout.squitter_frame 17 ca icao payload f) as (_ & L & _); auto.
  pose proof D as (Bg & _). rewrite (read_format g m Bg R) in E.
  destruct (overlay_check g m al ai Bg R) as (I & _); [tauto|tauto|]. apply I in K as [[_ K] _].
  assert (Q : codeword (Z.lxor (Z.lxor (be f) (be g)) a)) by (rewrite Z.lxor_assoc; apply codeword_lxor; assumption).
  split; [|exact Q]. intros ->. rewrite Z.lxor_0_r in Q. exact (damage_seen f g Bf ltac:(lia) D Q).
Qed.

(* ---- replies ---- *)
Theorem reply_damaged : forall fields overlay sent heard m addresses interrogators,
  Reply fields overlay sent -> damaged sent heard -> ~ extended heard -> ReadMessage heard = Ok m ->
  CheckCRC m heard addresses interrogators <> Ok overlay /\
  (only overlay addresses -> only overlay interrogators -> exists e, CheckCRC m heard addresses interrogators = Err e).
Proof.
  intros fields ov f g m al ai S D E R.
  destruct (reply_codeword _ _ _ S) as (Bf & L & _ & C).
  pose proof D as (Bg & _). rewrite (read_format g m Bg R) in E.
  destruct (overlay_check g m al ai Bg R) as (I & _ & NP); [tauto|tauto|].
  assert (N : CheckCRC m g al ai <> Ok ov).
  { intros K. apply I in K as [[_ K] _]. apply (damage_seen f g Bf ltac:(lia) D).
    pose proof (codeword_lxor _ _ C K) as Q. rewrite lxor_4, Z.lxor_nilpotent, Z.lxor_0_r in Q. exact Q. }
  split; [exact N|]. intros [A1 A2] [I1 I2].
  destruct (CheckCRC m g al ai) as [a|e|] eqn:K; [|eauto|congruence].
  exfalso. apply N. f_equal. pose proof (proj1 (I a) eq_refl) as [_ K0]. clear K. rename K0 into K. destruct (GetDownLinkFormat m =? 11).
  - destruct K as [K|(v & K)]; [contradiction|exact (I2 _ _ K)].
  - destruct K as [K|(v & K)]; [contradiction|exact (A2 _ _ K)].
Qed.

(* ---- all-call replies ---- *)
Lemma below_pow2 : forall x k, 0 <= k -> (forall p, k <= p -> Z.testbit x p = false) -> 0 <= x < 2 ^ k.
Proof.
  intros x k Hk H. assert (E : x = x mod 2 ^ k).
  { apply Z.bits_inj'. intros n Hn. destruct (Z_lt_le_dec n k).
    - rewrite Z.mod_pow2_bits_low by lia. reflexivity.
    - rewrite Z.mod_pow2_bits_high, H by lia. reflexivity. }
  rewrite E. apply Z.mod_pos_bound. apply Z.pow_pos_nonneg; lia.
Qed.

(* one, two or three errors before the last seven bits: the remainder is not a code of interrogator *)
Definition high_table : list Z := Eval vm_compute in List.map synz (zseq 7 49).
Lemma singles : List.forallb (fun a => 128 <=? a) high_table = true.
Proof. vm_compute. reflexivity. Qed.
Lemma doubles : List.forallb (fun a => List.forallb (fun b => (a =? b) || (128 <=? Z.lxor a b)) high_table) high_table = true.
Proof. vm_compute. reflexivity. Qed.
Lemma triples : List.forallb (fun a => List.forallb (fun b => (a =? b) || List.forallb (fun c => (a =? c) || (b =? c) || (128 <=? Z.lxor a (Z.lxor b c))) high_table) high_table) high_table = true.
Proof. vm_compute. reflexivity. Qed.

Lemma high_in : forall p, 7 <= p < 56 -> In (synz p) high_table.
Proof.
  intros p Hp. change high_table with (List.map synz (zseq 7 49)). apply List.in_map. apply zseq_in. lia.
Qed.

Lemma high_errors : forall l, NoDup l -> Forall (fun p => 7 <= p < 56) l -> (1 <= List.length l <= 3)%nat -> 128 <= xorsum (List.map synz l).
Proof.
  intros l D P N.
  assert (NE : forall a b, 7 <= a < 56 -> 7 <= b < 56 -> a <> b -> (synz a =? synz b) = false).
  { intros a b Ha Hb Hn. apply Z.eqb_neq. intros Q. apply Hn. apply syn_inj; [lia|lia|exact Q]. }
  destruct l as [|a [|b [|c [|d l]]]]; cbn [List.length] in N; try lia; clear N;
    cbn [List.map xorsum List.fold_right]; rewrite Z.lxor_0_r;
    repeat (match goal with X : Forall _ (_ :: _) |- _ => inversion X; clear X; subst | X : NoDup (_ :: _) |- _ => inversion X; clear X; subst end);
    cbn [In] in *.
  - pose proof singles as S. rewrite List.forallb_forall in S. apply Z.leb_le. apply S. apply high_in. assumption.
  - pose proof doubles as S. rewrite List.forallb_forall in S. specialize (S _ (high_in a ltac:(assumption))). cbv beta in S.
    rewrite List.forallb_forall in S. specialize (S _ (high_in b ltac:(assumption))). cbv beta in S.
    rewrite NE in S by (try assumption; intuition congruence). apply Z.leb_le. exact S.
  - pose proof triples as S. rewrite List.forallb_forall in S. specialize (S _ (high_in a ltac:(assumption))). cbv beta in S.
    rewrite List.forallb_forall in S. specialize (S _ (high_in b ltac:(assumption))). cbv beta in S.
    rewrite NE in S by (try assumption; intuition congruence). cbn [orb] in S.
    rewrite List.forallb_forall in S. specialize (S _ (high_in c ltac:(assumption))). cbv beta in S.
    rewrite !NE in S by (try assumption; intuition congruence). apply Z.leb_le. exact S.
Qed.

Theorem all_call_damaged : forall capability icao interrogator sent heard m addresses interrogators x,
  Reply (all_call capability icao) interrogator sent -> interrogator < 128 ->
  bytes heard -> len heard = 7 -> 1 <= distance 49 sent heard <= 3 ->
  ReadMessage heard = Ok m -> CheckCRC m heard addresses interrogators = Ok x -> 128 <= x.
Proof.
  intros ca icao ii f g m al ai x S Hi Bg Lg D R K.
  destruct (reply_codeword _ _ _ S) as (Bf & _ & Ri & C).
  destruct (reply_parts (all_call ca icao) [] ii f eq_refl) as (_ & _ & _ & Lf & _); [rewrite app_nil_r; exact S|]. specialize (Lf eq_refl).
  destruct (read_len g m Bg R) as (L14 & _).
  destruct (overlay_check g m al ai Bg R) as (I & _); [lia|lia|]. apply I in K as [[Rx K] _].
  destruct (Z_lt_le_dec x 128) as [Hx|Hx]; [exfalso|exact Hx].
  pose proof (codeword_lxor _ _ C K) as Q. rewrite lxor_4 in Q.
  set (l := diffs 49 f g).
  assert (Pl : Forall (fun p => 7 <= p < 56) l).
  { apply Forall_forall. intros p Hp. apply diffs_in in Hp as (i & Hi' & -> & _). lia. }
  assert (Pl' : Forall (fun p => 0 <= p) l) by (eapply Forall_impl; [|exact Pl]; cbn beta; lia).
  pose proof (high_errors l (diffs_nodup _ _ _) Pl) as Hh. 
  rewrite diffs_length in D. fold l in D. specialize (Hh ltac:(lia)).
  destruct (xorsum_syn l Pl') as [Rs Cs].
  set (X := xorsum (List.map (fun p => 2 ^ p) l)) in *. set (s := xorsum (List.map synz l)) in *.
  assert (Lo : 0 <= Z.lxor (Z.lxor (be f) (be g)) X < 2 ^ 7).
  { apply below_pow2; [lia|]. intros p Hp. rewrite Z.lxor_spec. rewrite <- (diffs_xor f g Bf Bg ltac:(lia)).
    assert (P56 : Forall (fun p => 0 <= p) (diffs (Z.to_nat (8 * len f)) f g)).
    { apply Forall_forall. intros q Hq. apply diffs_in in Hq as (i & Hi' & -> & _). lia. }
    unfold X. rewrite (testbit_xorsum (diffs _ f g)) by (auto using diffs_nodup; lia).
    rewrite (testbit_xorsum l) by (first [exact (diffs_nodup _ _ _)|assumption|lia]).
    assert (E : memZ p (diffs (Z.to_nat (8 * len f)) f g) = memZ p l); [|rewrite E; apply xorb_nilpotent].
    apply eq_iff_eq_true. rewrite !memZ_In. unfold l. rewrite !diffs_in. split; intros (i & Hi' & -> & N); exists i; (split; [lia|auto]). }
  assert (Z' : Z.lxor s (Z.lxor (Z.lxor (Z.lxor (be f) (be g)) X) (Z.lxor ii x)) = 0).
  { apply codeword_small.
    - pose proof (codeword_lxor _ _ Cs Q) as Y.
      match goal with Y : codeword ?a |- codeword ?b => replace b with a; [exact Y|] end.
      apply Z.bits_inj'. intros n Hn. rewrite !Z.lxor_spec.
      destruct (Z.testbit X n), (Z.testbit s n), (Z.testbit (be f) n), (Z.testbit (be g) n), (Z.testbit ii n), (Z.testbit x n); reflexivity.
    - apply lxor_range; [lia|exact Rs|]. assert (A : 0 <= Z.lxor (Z.lxor (Z.lxor (be f) (be g)) X) (Z.lxor ii x) < 2 ^ 7); [|lia].
      apply lxor_range; [lia|exact Lo|]. apply lxor_range; change (2 ^ 7) with 128; lia. }
  apply Z.lxor_eq in Z'.
  assert (A : 0 <= Z.lxor (Z.lxor (Z.lxor (be f) (be g)) X) (Z.lxor ii x) < 2 ^ 7).
  { apply lxor_range; [lia|exact Lo|]. apply lxor_range; change (2 ^ 7) with 128; lia. }
  change (2 ^ 7) with 128 in A. lia.
Qed.

(* ---- one wrong bit ---- *)
(* the frame with its bit k inverted *)
Definition flip (k : Z) (f : list Z) : list Z := octets_of (List.length f) (Z.lxor (be f) (2 ^ (8 * len f - k))).

Lemma flip_be : forall k f, bytes f -> 1 <= k <= 8 * len f -> be (flip k f) = Z.lxor (be f) (2 ^ (8 * len f - k)).
Proof.
  intros k f B K. unfold flip. apply be_octets_of. change (Z.of_nat (List.length f)) with (len f).
  pose proof (be_range f B) as R. rewrite Bits.pow256 in * by lia. apply lxor_range; [lia|exact R|].
  split; [apply Z.pow_nonneg; lia|]. apply Z.pow_lt_mono_r; lia.
Qed.
Lemma flip_len : forall k f, len (flip k f) = len f.
Proof. intros. unfold flip. rewrite octets_of_len. reflexivity. Qed.
Lemma flip_bytes : forall k f, bytes (flip k f).
Proof. intros. apply octets_of_bytes. Qed.

Lemma flip_bits : forall k f i j, bytes f -> 1 <= k <= 8 * len f -> 1 <= i -> i <= j -> j <= 8 * len f ->
  bits i j (flip k f) = if (i <=? k) && (k <=? j) then Z.lxor (bits i j f) (2 ^ (j - k)) else bits i j f.
Proof.
  intros k f i j B K Hi Hij Hj. apply Z.bits_inj'. intros n Hn.
  rewrite bits_testbit by (rewrite ?flip_len; lia). rewrite flip_len, flip_be by assumption.
  rewrite Z.lxor_spec. destruct (Z.ltb_spec n (j - i + 1)).
  - rewrite testbit_pow2 by lia. destruct (Z.leb_spec i k), (Z.leb_spec k j); cbn [andb];
      rewrite ?Z.lxor_spec, ?testbit_pow2, bits_testbit by lia; destruct (Z.ltb_spec n (j - i + 1)); try lia;
      destruct (Z.eqb_spec (8 * len f - j + n) (8 * len f - k)); try lia; rewrite ?xorb_false_r; try reflexivity;
      destruct (Z.eqb_spec n (j - k)); try lia; try reflexivity; rewrite ?xorb_false_r; reflexivity.
  - destruct (Z.leb_spec i k), (Z.leb_spec k j); cbn [andb];
      rewrite ?Z.lxor_spec, ?testbit_pow2, bits_testbit by lia; destruct (Z.ltb_spec n (j - i + 1)); try lia; try reflexivity.
    destruct (Z.eqb_spec n (j - k)); try lia. reflexivity.
Qed.

Lemma flip_distance : forall n k f, bytes f -> 1 <= k <= 8 * len f -> Z.of_nat n <= 8 * len f ->
  distance n f (flip k f) = if k <=? Z.of_nat n then 1 else 0.
Proof.
  induction n as [|n IH]; intros k f B K L; [cbn [distance]; destruct (Z.leb_spec k (Z.of_nat 0)); lia|].
  cbn [distance]. rewrite IH by (try assumption; lia). unfold bit. rewrite flip_bits by (try assumption; lia).
  destruct (Z.leb_spec (Z.of_nat (S n)) k), (Z.leb_spec k (Z.of_nat (S n))); cbn [andb]; try lia;
    rewrite ?eqb_reflx; destruct (Z.leb_spec k (Z.of_nat n)); try lia.
  replace (Z.of_nat (S n) - k) with 0 by lia.
  destruct (bits_1 (Z.of_nat (S n)) f) as [E|E]; rewrite E; cbn; lia.
Qed.

Lemma flip_errors : forall k f, bytes f -> 1 <= k <= 8 * len f -> errors f (flip k f) = 1.
Proof. intros k f B K. unfold errors. rewrite flip_distance by (try assumption; lia). destruct (Z.leb_spec k (Z.of_nat (Z.to_nat (8 * len f)))); lia. Qed.

Lemma flip_octets : forall k f a b, bytes f -> 1 <= k <= 8 * len f -> 1 <= a -> a <= b -> b <= len f -> k <= 8 * (a - 1) \/ 8 * b < k ->
  octets a b (flip k f) = octets a b f.
Proof.
  intros k f a b B K Ha Hab Hb Hk.
  assert (Q : bits 1 (8 * (b - a + 1)) (octets a b (flip k f)) = bits 1 (8 * (b - a + 1)) (octets a b f)).
  { rewrite !bits_octets by (rewrite ?flip_len; auto using flip_bytes; lia). rewrite flip_bits by (try assumption; lia).
    destruct (Z.leb_spec (8 * (a - 1) + 1) k), (Z.leb_spec k (8 * (a - 1) + 8 * (b - a + 1))); cbn [andb]; try reflexivity; lia. }
  apply be_inj; try (apply octets_bytes; auto using flip_bytes).
  - rewrite !octets_len by (rewrite ?flip_len; lia). reflexivity.
  - assert (W : forall l, bytes l -> len l = b - a + 1 -> bits 1 (8 * (b - a + 1)) l = be l).
    { intros l Bl Ll. unfold bits. rewrite Ll. replace (8 * (b - a + 1) - 8 * (b - a + 1)) with 0 by lia. rewrite Z.pow_0_r, Z.div_1_r.
      replace (8 * (b - a + 1) - 1 + 1) with (8 * (b - a + 1)) by lia. apply Z.mod_small. pose proof (be_range l Bl) as R. rewrite Ll, Bits.pow256 in R by lia. exact R. }
    rewrite !W in Q; try (apply octets_bytes; auto using flip_bytes); try (apply octets_len; rewrite ?flip_len; lia). exact Q.
Qed.

(* For every extended squitter, one wrong bit in the format is enough to read a Comm-B reply of another aircraft,
   always the same, with the payload of the squitter as its register. *)
Theorem squitter_one_bit_refuted : forall ca icao payload sent, Squitter ca icao payload sent ->
  exists heard d, errors sent heard = 1 /\ answered heard 0xF1B77E (MDF21 d) /\
    modes_messages.MessageDF21_MessageCommB d = message payload.
Proof.
  intros ca icao payload f S. apply Printout.squitter_reply in S as [W S].
  destruct (reply_codeword _ _ _ S) as (Bf & _ & _ & C). rewrite Z.lxor_0_r in C.
  destruct (Printout.squitter_frame 17 ca icao payload f) as (_ & L & Df & _ & _ & O & _); auto.
  set (g := flip 3 f). assert (Bg : bytes g) by apply flip_bytes. assert (Lg : len g = 14) by (unfold g; rewrite flip_len; exact L).
  assert (Dg : bits 1 5 g = 21) by (unfold g; rewrite flip_bits by (auto; lia); rewrite Df; reflexivity).
  pose proof (df21_layout g Bg Lg Dg) as R. exists g. eexists.
  split; [apply flip_errors; [exact Bf|lia]|]. split.
  - split; [exact R|]. intros al ai x.
    destruct (overlay_check g _ al ai Bg R) as (I & _); [discriminate|discriminate|]. 
    change (if GetDownLinkFormat _ =? 11 then ai else al) with al in I. rewrite I.
    destruct (overlay_core g Bg ltac:(lia)) as (r & _ & U). rewrite (U x).
    assert (A : 0xF1B77E = Z.lxor r (parity_field g)).
    { apply U. split; [lia|]. unfold g. rewrite flip_be by (auto; lia). rewrite L. change (8 * 14 - 3) with 109.
      rewrite Z.lxor_assoc. apply codeword_lxor; [exact C|]. exact (proj2 (syn_ok 109)). }
    rewrite <- A. split; intros [-> Q]; split; auto.
  - cbn [modes_messages.MessageDF21_MessageCommB]. rewrite <- O. apply flip_octets; auto; lia.
Qed.

(* For every all-call reply, a wrong bit in the address gives another address, and the check without codes of
   interrogators does not see it. *)
Theorem all_call_one_bit_refuted : forall capability icao interrogator sent k,
  Reply (all_call capability icao) interrogator sent -> 9 <= k <= 32 ->
  exists heard d x, errors sent heard = 1 /\ ReadMessage heard = Ok (MDF11 d) /\ CheckCRC (MDF11 d) heard [] [] = Ok x /\
    modes_fields.AddressAnnounced_Address (modes_messages.MessageDF11_AddressAnnounced d) = Z.lxor icao (2 ^ (32 - k)).
Proof.
  intros ca icao ii f k S Hk.
  destruct (reply_codeword _ _ _ S) as (Bf & _ & Ri & C).
  destruct (reply_parts (all_call ca icao) [] ii f eq_refl) as (_ & F & _ & Lf & _ & B & _); [rewrite app_nil_r; exact S|]. specialize (Lf eq_refl).
  assert (Df : bits 1 5 f = 11) by lookr 0%nat 1%nat.
  assert (Af : bits 9 32 f = icao) by lookr 2%nat 1%nat.
  set (g := flip k f). assert (Bg : bytes g) by apply flip_bytes. assert (Lg : len g = 7) by (unfold g; rewrite flip_len; exact Lf).
  assert (Dg : bits 1 5 g = 11).
  { unfold g. rewrite flip_bits by (auto; lia). rewrite Df. destruct (Z.leb_spec k 5); [lia|]. rewrite andb_false_r. reflexivity. }
  assert (Ag : bits 9 32 g = Z.lxor icao (2 ^ (32 - k))).
  { unfold g. rewrite flip_bits by (auto; lia). rewrite Af. destruct (Z.leb_spec 9 k), (Z.leb_spec k 32); try lia. reflexivity. }
  pose proof (df11_layout g Bg Lg Dg) as R. 
  destruct (overlay_check g _ [] [] Bg R) as (I & (x & Hx) & _); [discriminate|discriminate|].
  exists g. eexists. exists x. split; [apply flip_errors; [exact Bf|lia]|]. split; [exact R|]. split.
  - apply I. split; [exact Hx|left; reflexivity].
  - cbn. exact Ag.
Qed.

(* six wrong bits may not be seen: another address is told *)
Theorem squitter_six_bits_refuted : exists ca icao payload sent heard m,
  Squitter ca icao payload sent /\ errors sent heard = 6 /\ extended heard /\ ReadMessage heard = Ok m /\
  CheckCRC m heard [] [] = Ok 0x48C8D6 /\ icao = 0x4840D6.
Proof.
  destruct EndToEnd.identification_example as [S _].
  exists 5, 0x4840D6, (identification_payload 4 0 [11; 12; 13; 49; 48; 50; 51; 32]). eexists.
  exists [0x8D;0x48;0xC8;0xD6;0xA0;0xAC;0xC3;0x71;0xC3;0x2C;0xE0;0x57;0x62;0x99]. eexists. split; [exact S|].
  split; [vm_compute; reflexivity|]. split; [left; vm_compute; reflexivity|].
  split; [vm_compute; reflexivity|]. split; [vm_compute; reflexivity|reflexivity].
Qed.

(* ---- concrete cases ---- *)
Lemma near : forall f g, bytes g -> len g = len f -> g <> f -> errors f g <= 5 -> damaged f g.
Proof. intros f g B L N E. split; [exact B|]. split; [exact L|]. split; [exact N|]. left. exact E. Qed.

Ltac all_bytes := repeat (apply Forall_cons; [unfold byte; lia|]); apply Forall_nil.

Example damaged_example : exists ca icao payload sent heard,
  Squitter ca icao payload sent /\ damaged sent heard /\ extended heard /\ hex_text "8D4840D6202CC371C32CE057609B" heard.
Proof.
  destruct EndToEnd.identification_example as [S _]. do 4 eexists.
  exists [0x8D;0x48;0x40;0xD6;0x20;0x2C;0xC3;0x71;0xC3;0x2C;0xE0;0x57;0x60;0x9B]. split; [exact S|].
  split; [apply near; [all_bytes|reflexivity|discriminate|vm_compute; discriminate]|].
  split; [left; vm_compute; reflexivity|].
  apply Command.decode_text. vm_compute. reflexivity.
Qed.

Example damaged_reply_example : exists fields sent heard m,
  Reply fields 0x4840D6 sent /\ damaged sent heard /\ ~ extended heard /\ ReadMessage heard = Ok m /\
  only 0x4840D6 [(0x4840D6, true)].
Proof.
  destruct Reply.altitude_reply_example as [_ S]. do 2 eexists.
  exists [0x20; 0x0; 0x17; 0xb0; 0x4; 0xf9; 0xa2]. eexists. split; [exact S|].
  split; [apply near; [all_bytes|reflexivity|discriminate|vm_compute; discriminate]|].
  split; [intros [X|X]; vm_compute in X; discriminate|].
  split; [vm_compute; reflexivity|]. split; [discriminate|]. intros c v [X|[]]. congruence.
Qed.

Example all_call_damaged_example : exists sent heard m, Reply (all_call 5 0x4840D6) 7 sent /\ bytes heard /\ len heard = 7 /\
  1 <= distance 49 sent heard <= 3 /\ ReadMessage heard = Ok m.
Proof.
  destruct Reply.all_call_example as (f & S).
  destruct (reply_codeword _ _ _ S) as (Bf & _ & _).
  destruct (reply_parts (all_call 5 0x4840D6) [] 7 f eq_refl) as (_ & F & _ & Lf & _ & B & _); [rewrite app_nil_r; exact S|]. specialize (Lf eq_refl).
  assert (Df : bits 1 5 f = 11) by lookr 0%nat 1%nat.
  exists f, (flip 20 f). eexists. split; [exact S|]. split; [apply flip_bytes|]. split; [rewrite flip_len; exact Lf|].
  split; [rewrite flip_distance by (auto; lia); cbn; lia|].
  apply df11_layout; [apply flip_bytes|rewrite flip_len; exact Lf|]. rewrite flip_bits by (auto; lia). exact Df.
Qed.
