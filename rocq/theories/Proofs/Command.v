(* The command: processSingleLine. *)
From Verif.Proofs Require Import Tac Octets CommB1 AcasReader ModeSReader CrcReader AdsbApi CommBApi Texts.
From Verif.Spec Require Import Text Report Command ModeS.
From Verif.Gen Require acas_ra modes_common modes_fields modes_messages.
From Verif.Model Require Import Crc ModesReader Cmd.
From Verif.Model Require AdsbReader CommbReader.
Require Import String Ascii.
Local Open Scope Z_scope.

Lemma hex_char_eq : forall c, fromHexChar c = hex_char c.
Proof. intros [[] [] [] [] [] [] [] []]; reflexivity. Qed.

Lemma hex_char_range : forall c x, hex_char c = Some x -> 0 <= x < 16.
Proof. intros [[] [] [] [] [] [] [] []] x H; cbn in H; try discriminate; injection H as <-; lia. Qed.

Lemma nibbles : forall x y, 0 <= x < 16 -> 0 <= y < 16 -> Z.lor (Z.shiftl x 4) y = 16 * x + y.
Proof.
  intros x y Hx Hy. rewrite Z.shiftl_mul_pow2 by lia. change (2 ^ 4) with 16.
  assert (L : Z.land (x * 16) y = 0).
  { replace (x * 16) with (Z.shiftl x 4) by (rewrite Z.shiftl_mul_pow2 by lia; reflexivity).
    apply Z.bits_inj'. intros n Hn. rewrite Z.land_spec, Z.bits_0, Z.shiftl_spec by lia.
    destruct (Z_lt_le_dec n 4).
    - rewrite Z.testbit_neg_r by lia. reflexivity.
    - rewrite (Z.bits_above_log2 y n), Bool.andb_false_r; auto; [lia|].
      destruct (Z.eq_dec y 0) as [->|]; [cbn; lia|]. assert (Z.log2 y < 4); [|lia].
      apply Z.log2_lt_pow2; [lia|]. change (2 ^ 4) with 16. lia. }
  rewrite <- Z.lxor_lor by exact L. rewrite <- Z.add_nocarry_lxor by exact L. lia.
Qed.

(* decoding the text *)
Theorem decode_text : forall s l, DecodeString s = Ok l <-> hex_text s l.
Proof.
  assert (G : forall n s, (String.length s <= n)%nat -> forall l, DecodeString s = Ok l <-> hex_text s l).
  { induction n as [|n IH]; intros s L l.
    - destruct s; [|cbn in L; lia]. split; intro H; [injection H as <-; constructor|inversion H; reflexivity].
    - destruct s as [|a [|b s]].
      + split; intro H; [injection H as <-; constructor|inversion H; reflexivity].
      + cbn. split; intro H; [destruct (fromHexChar a); discriminate|inversion H].
      + cbn [DecodeString]. rewrite !hex_char_eq. cbn in L. assert (L' : (String.length s <= n)%nat) by lia.
        split; intro H.
        * destruct (hex_char a) as [x|] eqn:A; [|discriminate]. destruct (hex_char b) as [y|] eqn:B; [|discriminate].
          destruct (DecodeString s) as [r|e|] eqn:R; cbn [bind] in H; try discriminate.
          rewrite (nibbles x y) in H by eauto using hex_char_range. injection H as <-. constructor; auto. apply IH; auto.
        * inversion H as [|? ? x y ? r A B R E1 E2]; subst. rewrite A, B.
          apply (IH s L') in R. rewrite R. cbn [bind]. rewrite (nibbles x y) by eauto using hex_char_range. reflexivity. }
  intros s l. apply (G (String.length s)). lia.
Qed.

Lemma decode_total : forall s, DecodeString s <> Panic.
Proof.
  assert (G : forall n s, (String.length s <= n)%nat -> DecodeString s <> Panic).
  { induction n as [|n IH]; intros s L; destruct s as [|a [|b s]]; cbn in L; try lia; try discriminate.
    - cbn. destruct (fromHexChar a); discriminate.
    - cbn [DecodeString]. destruct (fromHexChar a), (fromHexChar b); try discriminate.
      assert (H := IH s ltac:(lia)). destruct (DecodeString s); cbn; congruence. }
  intro s. apply (G (String.length s)). lia.
Qed.

(* why a text cannot be decoded *)
Lemma not_hex_more : forall a b s e, hex_char a <> None -> hex_char b <> None -> not_hex s e ->
  not_hex (String a (String b s)) e.
Proof.
  intros a b s e A B H. destruct H as [before c after code quoted F C O Q R|s F O].
  - change (String a (String b (before ++ String c after))) with ((String a (String b before)) ++ String c after)%string.
    apply not_hex_char; auto. cbn. auto.
  - apply not_hex_odd; cbn; auto. destruct O as [k ->]. exists (S k). lia.
Qed.

Lemma invalid_byte_named : forall c, exists code quoted, invalidByte c = ("encoding/hex: invalid byte: U+00" ++ code ++ quoted)%string /\
  hex_octet (Z.of_nat (nat_of_ascii c)) code /\
  (32 <= Z.of_nat (nat_of_ascii c) <= 126 -> quoted = (" '" ++ String c "'")%string) /\
  (Z.of_nat (nat_of_ascii c) < 32 -> quoted = EmptyString).
Proof.
  intro c. eexists _, _. split; [reflexivity|]. split; [|split].
  - exists (Z.of_nat (nat_of_ascii c) / 16), (Z.of_nat (nat_of_ascii c) mod 16), (hex_digit (Z.of_nat (nat_of_ascii c) / 16)),
      (hex_digit (Z.of_nat (nat_of_ascii c) mod 16)).
    destruct c as [[] [] [] [] [] [] [] []]; repeat split; vm_compute; reflexivity.
  - intro H. destruct c as [[] [] [] [] [] [] [] []]; try (vm_compute in H; destruct H as [H1 H2]; exfalso; (apply H1 + apply H2); reflexivity);
    vm_compute; reflexivity.
  - intro H. destruct c as [[] [] [] [] [] [] [] []]; try (vm_compute in H; discriminate H); vm_compute; reflexivity.
Qed.

Lemma named : forall before c after, hex_only before -> hex_char c = None ->
  not_hex (before ++ String c after) (invalidByte c).
Proof.
  intros before c after F C. destruct (invalid_byte_named c) as (code & quoted & -> & O & Q & R).
  apply not_hex_char; assumption.
Qed.

Theorem decode_reason : forall s e, DecodeString s = Err e -> not_hex s e.
Proof.
  assert (G : forall n s, (String.length s <= n)%nat -> forall e, DecodeString s = Err e -> not_hex s e).
  { induction n as [|n IH]; intros s L e; destruct s as [|a [|b s]]; cbn in L; try lia; try discriminate.
    - cbn [DecodeString]. rewrite hex_char_eq. destruct (hex_char a) eqn:A; intro E; injection E as <-.
      + apply not_hex_odd; [cbn; split; [congruence|exact I]|exists 0%nat; reflexivity].
      + exact (named EmptyString a EmptyString I A).
    - cbn [DecodeString]. rewrite !hex_char_eq. destruct (hex_char a) eqn:A.
      2: { intro E. injection E as <-. exact (named EmptyString a (String b s) I A). }
      destruct (hex_char b) eqn:B.
      2: { intro E. injection E as <-.
           exact (named (String a EmptyString) b s ltac:(cbn; split; [congruence|exact I]) B). }
      pose proof (IH s ltac:(lia)) as H. destruct (DecodeString s) as [r|x|]; cbn [bind]; intro E; try discriminate.
      injection E as <-. apply not_hex_more; try congruence. apply H. reflexivity. }
  intros s e. apply (G (String.length s)). lia.
Qed.

Theorem hex_text_bytes : forall s l, hex_text s l -> bytes l.
Proof.
  intros s l H. induction H; constructor; auto.
  pose proof (hex_char_range _ _ H). pose proof (hex_char_range _ _ H0). unfold byte. lia.
Qed.

(* no text is the writing of two frames *)
Theorem hex_text_unique : forall s l l', hex_text s l -> hex_text s l' -> l = l'.
Proof. intros s l l' A B. apply decode_text in A, B. congruence. Qed.

Lemma str_app_assoc : forall a b c : string, ((a ++ b) ++ c)%string = (a ++ (b ++ c))%string.
Proof. induction a as [|x a IH]; intros; cbn; [reflexivity|rewrite IH; reflexivity]. Qed.

Lemma print_commb : forall ffmt l i, 0 <= i -> l <> [] ->
  exists t, listed ffmt l t /\ printCommB ffmt i l = Ok ((if i >? 0 then endl "-------------------------------" else EmptyString) ++ t)%string.
Proof.
  intros ffmt l. induction l as [|m l IH]; intros i Hi N; [congruence|].
  destruct (commb_text_total ffmt m) as [t Ht]. cbn [printCommB]. rewrite Ht. cbn [bind]. destruct l as [|n l].
  - exists (endl t). split; [constructor; exact Ht|]. cbn [printCommB bind].
    f_equal. f_equal. unfold line, endl. rewrite str_app_assoc. reflexivity.
  - destruct (IH (i + 1) ltac:(lia) ltac:(discriminate)) as (r & Lr & ->). cbn [bind].
    replace (i + 1 >? 0) with true by (symmetry; apply Z.gtb_lt; lia).
    exists (endl t ++ endl "-------------------------------" ++ r)%string. split; [constructor; assumption|]. reflexivity.
Qed.


Lemma adsb_section : forall ffmt matan2 level data, bytes data ->
  exists t, shown (AdsbReader.Message_ToString ffmt matan2) (AdsbReader.ReadADSBMessage level false false data) t /\
  processADSBMessage ffmt matan2 data level = Ok (endl " -- ADSB Information --" ++ endl t)%string.
Proof.
  intros ffmt matan2 level data Hb. unfold processADSBMessage. pose proof (adsb_total level false false data Hb) as T.
  destruct (AdsbReader.ReadADSBMessage level false false data) as [m|e|]; [| |congruence].
  - destruct (adsb_text_total ffmt matan2 m) as [t Ht]. rewrite Ht. exists t. split; [constructor; exact Ht|reflexivity].
  - exists e. split; [constructor|reflexivity].
Qed.

Lemma octets_len : forall i j data, 1 <= i -> i <= j + 1 -> j <= len data -> len (octets i j data) = j - i + 1.
Proof.
  intros i j data Hi Hij Hj. unfold octets, len in *. rewrite firstn_length, skipn_length. lia.
Qed.

Lemma commb_section : forall ffmt matan2 level frame, bytes frame -> len frame = 14 -> (bits 1 5 frame = 20 \/ bits 1 5 frame = 21) ->
  exists t, details ffmt matan2 level frame t /\ processCommBMessage ffmt (octets 5 11 frame) = Ok t.
Proof.
  intros ffmt matan2 level frame Hb Hl K. unfold processCommBMessage.
  destruct (commb_total (octets 5 11 frame) (octets_bytes 5 11 frame Hb)) as [T E].
  destruct (CommbReader.ReadCommBMessage (octets 5 11 frame)) as [l|e|] eqn:R; [| |congruence].
  - destruct l as [|m l].
    + eexists. split; [apply details_commb_unknown; auto|reflexivity].
    + destruct (print_commb ffmt (m :: l) 0 ltac:(lia) ltac:(discriminate)) as (t & Lt & P).
      replace (len (m :: l) =? 0) with false by (symmetry; apply Z.eqb_neq; unfold len; cbn; lia).
      rewrite P. eexists. split; [eapply details_commb; eauto|reflexivity].
  - exfalso. apply (proj1 E); [eexists; reflexivity|]. rewrite octets_len by lia. reflexivity.
Qed.

Lemma acas_section : forall ffmt matan2 level frame m, bytes frame -> len frame = 14 -> bits 1 5 frame = 16 ->
  modes_messages.MessageDF16_MessageACAS m = octets 5 11 frame ->
  exists t, details ffmt matan2 level frame t /\ postProcessMessage16 ffmt m = Ok t.
Proof.
  intros ffmt matan2 level frame m Hb Hl K B. unfold postProcessMessage16. rewrite B.
  assert (S1 : slice (octets 5 11 frame) 1 (len (octets 5 11 frame)) = Ok (octets 6 11 frame)).
  { clear - Hl. split_list frame Hl. reflexivity. }
  assert (S0 : exists b, idx (octets 5 11 frame) 0 = Ok b /\ Z.shiftr (Z.land b 0xF0) 4 = bits 33 36 frame /\
    Z.land b 0x0F = bits 37 40 frame /\ bits 33 40 frame = 16 * bits 33 36 frame + bits 37 40 frame).
  { clear - Hl Hb. split_list frame Hl. eexists. split; [reflexivity|]. normbits Hb.
    split; [reflexivity|]. split; [reflexivity|].
    rewrite (bits_join 33 36 40) by (try lia; unfold len; cbn; lia). change (40 - 36) with 4. change (2 ^ 4) with 16.
    change (36 + 1) with 37. lia. }
  destruct S0 as (b & -> & Hv1 & Hv2 & E). cbn [bind]. cbv zeta. rewrite Hv1, Hv2, S1. cbn [bind].
  destruct ((bits 33 36 frame =? 3) && (bits 37 40 frame =? 0)) eqn:Q.
  - assert (bits 33 40 frame = 0x30) by lia.
    pose proof (read_ra_total (octets 6 11 frame) (octets_bytes 6 11 frame Hb)) as T.
    destruct (acas_ra.ReadResolutionAdvisory (octets 6 11 frame)) as [ra|e|] eqn:R; [| |congruence].
    + destruct (ra_text_total ffmt ra) as [t Ht]. rewrite Ht. eexists. split; [|reflexivity].
      apply details_acas; auto. rewrite R. constructor. exact Ht.
    + eexists. split; [|reflexivity]. apply details_acas; auto. rewrite R. constructor.
  - eexists. split; [apply details_acas_unknown; auto|].
    + pose proof (bits_range 37 40 frame ltac:(lia)) as R37. change (2 ^ (40 - 37 + 1)) with 16 in R37. intro. lia.
    + unfold endl. rewrite ?str_app_assoc. reflexivity.
Qed.

(* one line of input: the command always ends, with the text of the specification *)
Theorem command_report : forall ffmt matan2 str level,
  exists out, processSingleLine ffmt matan2 str level = Ok out /\ report ffmt matan2 level str out.
Proof.
  intros ffmt matan2 str level. unfold processSingleLine. cbv zeta.
  pose proof (decode_total str) as TD. destruct (DecodeString str) as [frame|e|] eqn:D; [| |congruence].
  2: { eexists. split; [reflexivity|]. unfold line, endl. rewrite ?str_app_assoc.
       assert (N : forall frame, ~ hex_text str frame) by (intros f K; apply decode_text in K; congruence).
       pose proof (report_not_hex ffmt matan2 level str e N (decode_reason _ _ D)) as R. unfold endl in R. rewrite ?str_app_assoc in R. exact R. }
  apply decode_text in D. pose proof (hex_text_bytes _ _ D) as Hb.
  destruct (ReadMessage frame) as [m|e|] eqn:RM.
  3: { destruct (read_message_total frame Hb) as [[x E]|[x E]]; congruence. }
  2: { eexists. split; [reflexivity|]. unfold line.
       pose proof (report_unreadable ffmt matan2 level str frame e D RM) as R. unfold endl in R. rewrite ?str_app_assoc in R |- *. exact R. }
  pose proof (check_crc_total frame m [] [] Hb RM) as TC.
  destruct (CheckCRC m frame [] []) as [address|e|] eqn:CR; [| |congruence].
  2: { eexists. split; [reflexivity|]. unfold line.
       pose proof (report_bad_parity ffmt matan2 level str frame m e D RM CR) as R. unfold endl in R. rewrite ?str_app_assoc in R |- *. exact R. }
  destruct (modes_text_total frame m Hb RM) as [text HT].
  destruct (message_kind frame m Hb RM) as [G K].
  assert (P : exists more, details ffmt matan2 level frame more /\ postProcess ffmt matan2 m level = Ok more).
  { assert (L : 16 <= bits 1 5 frame -> len frame = 14) by (intro; eapply accepted_length; eauto).
    unfold postProcess. cbv zeta. rewrite G. clear G TC CR HT.
    destruct m as [m|m|m|m|m|m|m|m|m|m|m];
      try (rewrite K; cbn; eexists; split; [apply details_other; lia|reflexivity]).
    - rewrite K. cbn. apply acas_section; auto. apply L; lia. apply body_df16; auto.
    - rewrite K. cbn. unfold postProcessMessage17. rewrite (body_df17 frame m Hb RM).
      destruct (adsb_section ffmt matan2 level (octets 5 11 frame) (octets_bytes 5 11 frame Hb)) as (t & St & E).
      eexists. split; [apply details_adsb; [auto|exact St]|exact E].
    - rewrite K. cbn. unfold postProcessMessage18. destruct (body_df18 frame m Hb RM) as [-> ->]. cbv zeta.
      pose proof (bits_range 6 8 frame ltac:(lia)) as R. change (2 ^ (8 - 6 + 1)) with 8 in R.
      unfold modes_fields.ControlFieldADSB, modes_fields.ControlFieldADSBReserved, modes_fields.ControlFieldTISBFineFormat,
        modes_fields.ControlFieldTISBCoarseFormat, modes_fields.ControlFieldTISBReservedManagement, modes_fields.ControlFieldTISBRelayADSB.
      destruct ((bits 6 8 frame =? 0) || (bits 6 8 frame =? 1)) eqn:Q1.
      { destruct (adsb_section ffmt matan2 level (octets 5 11 frame) (octets_bytes 5 11 frame Hb)) as (t & St & E).
        eexists. split; [apply details_adsb; [lia|exact St]|exact E]. }
      destruct ((bits 6 8 frame =? 2) || (bits 6 8 frame =? 3) || (bits 6 8 frame =? 4) || (bits 6 8 frame =? 5)) eqn:Q2.
      + eexists. split; [apply details_tisb; lia|reflexivity].
      + eexists. split; [apply details_none; lia|reflexivity].
    - rewrite K. cbn. unfold postProcessMessage20. rewrite (body_df20 frame m Hb RM).
      apply commb_section; auto. apply L; lia.
    - rewrite K. cbn. unfold postProcessMessage21. rewrite (body_df21 frame m Hb RM).
      apply commb_section; auto. apply L; lia.
    - assert (24 <= bits 1 5 frame).
      { destruct (proj1 (read_message_accepts frame Hb) (ex_intro _ _ RM)) as [[[A B]|[A B]] _];
          unfold short_format, long_format in B; rewrite (bits_join 1 2 5) in * by lia;
          pose proof (bits_range 3 5 frame ltac:(lia)) as R; change (2 ^ (5 - 3 + 1)) with 8 in R;
          change (2 + 1) with 3 in *; change (5 - 2) with 3 in *; change (2 ^ 3) with 8 in *; lia. }
      replace (24 <=? bits 1 5 frame) with true by (symmetry; apply Z.leb_le; assumption).
      cbn. eexists. split; [apply details_other; lia|reflexivity]. }
  destruct P as (more & Dt & ->).
  assert (O : origin m address = Ok ((if (bits 1 5 frame =? 11)%Z then "In reply to interrogator: " else "From: ") ++
     endl (modes_common.ICAOAddress_ToString address))%string).
  { unfold origin. rewrite G. destruct m; try (rewrite K; reflexivity).
    change (24 = if 24 <=? bits 1 5 frame then 24 else bits 1 5 frame) in G.
    destruct (24 <=? bits 1 5 frame) eqn:Q; [|lia].
    replace (bits 1 5 frame =? 11) with false by lia. reflexivity. }
  rewrite O. cbn [bind]. rewrite HT. cbn [bind]. eexists. split; [reflexivity|].
  pose proof (report_message ffmt matan2 level str frame m address text more D RM CR HT Dt) as R.
  unfold line, endl in *. rewrite ?str_app_assoc in *. exact R.
Qed.

(* in particular *)
Theorem command_never_panics : forall ffmt matan2 str level, processSingleLine ffmt matan2 str level <> Panic.
Proof. intros. destruct (command_report ffmt matan2 str level) as (out & E & _). congruence. Qed.

(* the whole report of a real squitter (identification, KLM1023) *)
Example command_example : forall ffmt matan2, exists text,
  processSingleLine ffmt matan2 "8D4840D6202CC371C32CE0576098" 0 =
  Ok ("Reading: 8D4840D6202CC371C32CE0576098" ++ nl ++ " -- Mode-S Information --" ++ nl ++ "From: 48 40 D6 " ++ nl ++ text)%string.
Proof. intros. eexists. vm_compute. reflexivity. Qed.
