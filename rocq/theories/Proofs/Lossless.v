(* C105: a message keeps its frame, and stands for the frame its fields make. *)
From Verif.Proofs Require Import Tac.
From Verif.Spec Require Import Altitude ModeS Crc Squitter Reply Lossless.
From Verif.Gen Require modes_messages modes_fields modes_common.
From Verif.Model Require Import Crc ModesReader.
From Verif.Proofs Require Import CommB1 ModesFields ModeSReader CrcPoly CrcCode CrcReader Octets Squitter.
Local Open Scope Z_scope.

Lemma raw_frame : forall frame m, bytes frame -> ReadMessage frame = Ok m -> raw m = frame_data frame.
Proof.
  intros frame m Hb Hm.
  destruct (proj1 (read_message_accepts frame Hb)) as [F A]; [eauto|].
  unfold short_format, long_format in F. destruct F as [[Hl [K|[K|[K|K]]]]|[Hl [K|K]]].
  - destruct A as (c & alt & A); [unfold has_altitude; lia|]. rewrite (df0_layout frame c alt) in Hm by assumption. injection Hm as <-. reflexivity.
  - destruct A as (c & alt & A); [unfold has_altitude; lia|]. rewrite (df4_layout frame c alt) in Hm by assumption. injection Hm as <-. reflexivity.
  - rewrite df5_layout in Hm by assumption. injection Hm as <-. reflexivity.
  - rewrite df11_layout in Hm by assumption. injection Hm as <-. reflexivity.
  - assert (D : In (bits 1 5 frame) [16; 17; 18; 19; 20; 21]) by (cbn [In]; lia).
    cbn [In] in D. destruct D as [D|[D|[D|[D|[D|[D|[]]]]]]]; symmetry in D.
    + destruct A as (c & alt & A); [unfold has_altitude; lia|]. rewrite (df16_layout frame c alt) in Hm by assumption. injection Hm as <-. reflexivity.
    + rewrite df17_layout in Hm by assumption. injection Hm as <-. reflexivity.
    + rewrite df18_layout in Hm by assumption. injection Hm as <-. reflexivity.
    + rewrite df19_layout in Hm by assumption. injection Hm as <-. reflexivity.
    + destruct A as (c & alt & A); [unfold has_altitude; lia|]. rewrite (df20_layout frame c alt) in Hm by assumption. injection Hm as <-. reflexivity.
    + rewrite df21_layout in Hm by assumption. injection Hm as <-. reflexivity.
  - rewrite df24_layout in Hm by (try apply long24; assumption). injection Hm as <-. reflexivity.
Qed.

Lemma frame_bytes : forall frame, bytes frame -> (len frame = 7 \/ len frame = 14) ->
  (8 * bits 1 5 frame + bits 6 8 frame) :: octets 2 (len frame - 3) frame ++ octets (len frame - 2) (len frame) frame = frame.
Proof.
  intros frame Hb Hl.
  assert (E : 8 * bits 1 5 frame + bits 6 8 frame = nth 0 frame 0).
  { replace (8 * bits 1 5 frame + bits 6 8 frame) with (bits 1 8 frame).
    - assert (Ht : exists tl, frame = [nth 0 frame 0] ++ tl) by (destruct Hl as [Hl|Hl]; split_list frame Hl; eexists; reflexivity).
      destruct Ht as (tl & Et). rewrite Et at 1. rewrite Et in Hb. apply bytes_app in Hb as [H0 Ht].
      rewrite bits_app_l by (assumption || reflexivity || (unfold len; cbn; lia)).
      unfold bits. change (8 * len [nth 0 frame 0] - 8) with 0. unfold be. cbn [fold_left].
      apply bytes_cons in H0 as [H0 _]. unfold byte in H0. change (2 ^ 0) with 1. change (2 ^ (8 - 1 + 1)) with 256.
      rewrite Z.div_1_r. rewrite Z.mul_0_r, Z.add_0_l. apply Z.mod_small. lia.
    - rewrite (bits_join 1 5 8) by lia. change (2 ^ (8 - 5)) with 8. change (5 + 1) with 6. lia. }
  rewrite E. destruct Hl as [Hl|Hl]; rewrite Hl; split_list frame Hl; reflexivity.
Qed.

Theorem frame_kept : forall frame m, bytes frame -> ReadMessage frame = Ok m -> rebuilt m = frame.
Proof.
  intros frame m Hb Hm. unfold rebuilt. rewrite (raw_frame frame m Hb Hm).
  destruct (read_len frame m Hb Hm) as (_ & _ & L). apply frame_bytes; assumption.
Qed.

Theorem frame_unique : forall frame frame' m, bytes frame -> bytes frame' ->
  ReadMessage frame = Ok m -> ReadMessage frame' = Ok m -> frame = frame'.
Proof. intros f g m Hf Hg Ef Eg. rewrite <- (frame_kept f m Hf Ef). apply frame_kept; assumption. Qed.

(* ---- a frame cut into fields ---- *)
Fixpoint cut (i : Z) (ws : list Z) (frame : list Z) : list field :=
  match ws with [] => [] | w :: r => (w, bits (i + 1) (i + w) frame) :: cut (i + w) r frame end.
Fixpoint total (ws : list Z) : Z := match ws with [] => 0 | w :: r => w + total r end.

Lemma cut_width : forall ws i frame, width (cut i ws frame) = total ws.
Proof. induction ws as [|w r IH]; intros; cbn; [reflexivity|]. unfold width in IH. rewrite IH. reflexivity. Qed.

Lemma cut_fits : forall ws i frame, Forall (fun w => 0 < w) ws -> fits (cut i ws frame).
Proof.
  induction ws as [|w r IH]; intros i frame P; [constructor|]. inversion P; subst. constructor; [|apply IH; assumption].
  cbn [fst snd]. split; [lia|]. pose proof (bits_range (i + 1) (i + w) frame ltac:(lia)) as R.
  replace (i + w - (i + 1) + 1) with w in R by lia. exact R.
Qed.

Lemma bits_none : forall frame, bits 1 0 frame = 0.
Proof. intros. unfold bits. change (2 ^ (0 - 1 + 1)) with 1. apply Z.mod_1_r. Qed.

Lemma total_nonneg : forall ws, Forall (fun w => 0 < w) ws -> 0 <= total ws.
Proof. induction 1; cbn; lia. Qed.

Lemma cut_packed : forall ws i frame, Forall (fun w => 0 < w) ws -> 0 <= i -> i + total ws <= 8 * len frame ->
  fold_left (fun acc f => acc * 2 ^ fst f + snd f) (cut i ws frame) (bits 1 i frame) = bits 1 (i + total ws) frame.
Proof.
  induction ws as [|w r IH]; intros i frame P Hi L; cbn [cut fold_left total].
  - f_equal. lia.
  - cbn [total] in L. inversion P; subst. cbn [fst snd]. pose proof (total_nonneg r ltac:(assumption)).
    replace (i + (w + total r)) with (i + w + total r) by lia.
    rewrite <- IH by (assumption || lia). f_equal.
    destruct (Z.eq_dec i 0) as [->|N].
    + rewrite bits_none. cbn [Z.add Z.mul]. reflexivity.
    + rewrite (bits_join 1 i (i + w)) by lia. replace (i + w - i) with w by lia. reflexivity.
Qed.

Lemma octets_of_be : forall l, bytes l -> octets_of (List.length l) (be l) = l.
Proof.
  induction l as [|b l IH] using rev_ind; intros Hb; [reflexivity|].
  apply bytes_app in Hb as [Hl Hb]. apply bytes_cons in Hb as [Hb _]. unfold byte in Hb.
  rewrite app_length, Nat.add_comm. cbn [List.length Nat.add octets_of].
  rewrite be_app. change (256 ^ len [b]) with 256. unfold be at 2 4. cbn [fold_left]. rewrite Z.mul_0_r, Z.add_0_l.
  rewrite (Z.add_comm (be l * 256)), Z.div_add, Z.div_small, Z.add_0_l, Z.mod_add, Z.mod_small by lia.
  rewrite IH by exact Hl. reflexivity.
Qed.

Lemma bits_whole : forall l, bytes l -> bits 1 (8 * len l) l = be l.
Proof.
  intros l Hb. unfold bits. rewrite Z.sub_diag, Z.div_1_r. replace (8 * len l - 1 + 1) with (8 * len l) by lia.
  rewrite <- Bits.pow256 by apply len_nonneg. apply Z.mod_small, be_range, Hb.
Qed.

(* the first bytes of a frame, cut into fields *)
Lemma cut_message : forall ws k frame, bytes frame -> Forall (fun w => 0 < w) ws -> total ws = 8 * k -> 1 <= k <= len frame ->
  message (cut 0 ws frame) = octets 1 k frame.
Proof.
  intros ws k frame Hb P T K.
  pose proof (octets_len 1 k frame ltac:(lia) ltac:(lia) ltac:(lia)) as L.
  pose proof (octets_bytes 1 k frame Hb) as B.
  unfold message. rewrite cut_width, T, (Z.mul_comm 8), Z.div_mul by lia.
  rewrite <- (octets_of_be (octets 1 k frame) B). f_equal.
  - unfold len in L. lia.
  - unfold packed. pose proof (cut_packed ws 0 frame P ltac:(lia) ltac:(lia)) as C. rewrite bits_none in C. rewrite C.
    rewrite <- (bits_whole _ B), L, T. rewrite bits_octets by (assumption || lia). f_equal; lia.
Qed.

Lemma cut_app : forall u v i frame, cut i (u ++ v) frame = cut i u frame ++ cut (i + total u) v frame.
Proof.
  induction u as [|w r IH]; intros; cbn [cut total app].
  - rewrite Z.add_0_r. reflexivity.
  - rewrite IH, Z.add_assoc. reflexivity.
Qed.

Lemma octets_all : forall frame, octets 1 (len frame) frame = frame.
Proof. intros. unfold octets. change (Z.to_nat (1 - 1)) with 0%nat. cbn [skipn]. apply firstn_all2. unfold len. lia. Qed.

(* a frame is a reply made of its own fields *)
Lemma cut_reply : forall ws frame a, bytes frame -> (len frame = 7 \/ len frame = 14) ->
  Forall (fun w => 0 < w) ws -> total ws = 8 * (len frame - 3) ->
  0 <= a < 2 ^ 24 -> codeword (Z.lxor (be frame) a) -> Reply (cut 0 ws frame) a frame.
Proof.
  intros ws frame a Hb Hl P T Ra C.
  destruct (frame_split frame Hb Hl) as (Bb & Lb & Eb & Rp).
  split; [apply cut_fits, P|]. split; [rewrite cut_width; lia|]. split; [exact Ra|].
  exists (Z.lxor (parity_field frame) a). split.
  - rewrite (cut_message ws (len frame - 3)) by (assumption || lia). fold (body frame).
    split; [apply lxor_range; lia|]. rewrite <- Z.lxor_assoc, <- Eb. exact C.
  - rewrite lxor_cancel.
    replace (cut 0 ws frame ++ [(24, parity_field frame)]) with (cut 0 (ws ++ [24]) frame).
    + rewrite (cut_message _ (len frame)), octets_all; [reflexivity|assumption| | |lia].
      * apply Forall_app. split; [exact P|]. constructor; [lia|constructor].
      * clear - T. assert (A : forall u v, total (u ++ v) = total u + total v) by (induction u; intros; cbn; [reflexivity|rewrite IHu; lia]).
        rewrite A, T. cbn [total]. lia.
    + rewrite cut_app. f_equal. cbn [cut]. unfold parity_field. rewrite T. do 3 f_equal; lia.
Qed.

Lemma block_octets : forall a b frame, bytes frame -> 1 <= a -> a <= b -> b <= len frame ->
  block (octets a b frame) = (8 * (b - a + 1), bits (8 * (a - 1) + 1) (8 * (a - 1) + 8 * (b - a + 1)) frame).
Proof.
  intros a b frame Hb Ha Hab Hl. unfold block. rewrite <- (bits_whole (octets a b frame)) by (apply octets_bytes, Hb).
  rewrite octets_len by assumption. f_equal. rewrite bits_octets by (assumption || lia). reflexivity.
Qed.

(* the fields of a frame that is read *)
Lemma fields_written : forall frame m, bytes frame -> ReadMessage frame = Ok m ->
  exists ws, Forall (fun w => 0 < w) ws /\ total ws = 8 * (len frame - 3) /\ written m (cut 0 ws frame).
Proof.
  intros frame m Hb Hm.
  destruct (proj1 (read_message_accepts frame Hb)) as [F A]; [eauto|].
  assert (Bl : len frame = 14 -> block (octets 5 11 frame) = (56, bits 33 88 frame)).
  { intros Hl. rewrite block_octets by (assumption || lia). reflexivity. }
  assert (Bd : len frame = 14 -> block (octets 2 11 frame) = (80, bits 9 88 frame)).
  { intros Hl. rewrite block_octets by (assumption || lia). reflexivity. }
  assert (P : forall ws, forallb (Z.ltb 0) ws = true -> Forall (fun w => 0 < w) ws).
  { intros ws E. apply Forall_forall. intros w I. rewrite forallb_forall in E. apply Z.ltb_lt, E, I. }
  unfold short_format, long_format in F. destruct F as [[Hl [K|[K|[K|K]]]]|[Hl [K|K]]]; rewrite Hl.
  - destruct A as (c & alt & A); [unfold has_altitude; lia|]. rewrite (df0_layout frame c alt) in Hm by assumption. injection Hm as <-.
    exists [5; 1; 1; 1; 3; 2; 4; 2; 13]. split; [apply P; reflexivity|]. split; [reflexivity|].
    cbv [cut Z.add Pos.add Pos.add_carry Pos.succ]. rewrite K. refine (written_0 _ _ _ _ _).
  - destruct A as (c & alt & A); [unfold has_altitude; lia|]. rewrite (df4_layout frame c alt) in Hm by assumption. injection Hm as <-.
    exists [5; 3; 5; 4; 2; 13]. split; [apply P; reflexivity|]. split; [reflexivity|].
    cbv [cut Z.add Pos.add Pos.add_carry Pos.succ]. rewrite K. refine (written_4 _ _).
  - rewrite df5_layout in Hm by assumption. injection Hm as <-.
    exists [5; 3; 5; 4; 2; 13]. split; [apply P; reflexivity|]. split; [reflexivity|].
    cbv [cut Z.add Pos.add Pos.add_carry Pos.succ]. rewrite K. refine (written_5 _ _).
  - rewrite df11_layout in Hm by assumption. injection Hm as <-.
    exists [5; 3; 24]. split; [apply P; reflexivity|]. split; [reflexivity|].
    cbv [cut Z.add Pos.add Pos.add_carry Pos.succ]. rewrite K. refine (written_11 _).
  - specialize (Bl Hl). assert (D : In (bits 1 5 frame) [16; 17; 18; 19; 20; 21]) by (cbn [In]; lia).
    cbn [In] in D. destruct D as [D|[D|[D|[D|[D|[D|[]]]]]]]; symmetry in D.
    + destruct A as (c & alt & A); [unfold has_altitude; lia|]. rewrite (df16_layout frame c alt) in Hm by assumption. injection Hm as <-.
      exists [5; 1; 2; 3; 2; 4; 2; 13; 56]. split; [apply P; reflexivity|]. split; [reflexivity|].
      cbv [cut Z.add Pos.add Pos.add_carry Pos.succ]. rewrite D, <- Bl. refine (written_16 _ _ _ _ _).
    + rewrite df17_layout in Hm by assumption. injection Hm as <-.
      exists [5; 3; 24; 56]. split; [apply P; reflexivity|]. split; [reflexivity|].
      cbv [cut Z.add Pos.add Pos.add_carry Pos.succ]. rewrite D, <- Bl. refine (written_17 _).
    + rewrite df18_layout in Hm by assumption. injection Hm as <-.
      exists [5; 3; 24; 56]. split; [apply P; reflexivity|]. split; [reflexivity|].
      cbv [cut Z.add Pos.add Pos.add_carry Pos.succ]. rewrite D, <- Bl. refine (written_18 _).
    + rewrite df19_layout in Hm by assumption. injection Hm as <-.
      exists [5; 3; 80]. split; [apply P; reflexivity|]. split; [reflexivity|].
      cbv [cut Z.add Pos.add Pos.add_carry Pos.succ]. rewrite D. refine (written_19 _ _).
    + destruct A as (c & alt & A); [unfold has_altitude; lia|]. rewrite (df20_layout frame c alt) in Hm by assumption. injection Hm as <-.
      exists [5; 3; 5; 4; 2; 13; 56]. split; [apply P; reflexivity|]. split; [reflexivity|].
      cbv [cut Z.add Pos.add Pos.add_carry Pos.succ]. rewrite D, <- Bl. refine (written_20 _ _).
    + rewrite df21_layout in Hm by assumption. injection Hm as <-.
      exists [5; 3; 5; 4; 2; 13; 56]. split; [apply P; reflexivity|]. split; [reflexivity|].
      cbv [cut Z.add Pos.add Pos.add_carry Pos.succ]. rewrite D, <- Bl. refine (written_21 _ _).
  - specialize (Bd Hl). pose proof (long24 frame Hb Hl K) as L. rewrite df24_layout in Hm by assumption. injection Hm as <-.
    exists [2; 1; 1; 4; 80]. split; [apply P; reflexivity|]. split; [reflexivity|].
    cbv [cut Z.add Pos.add Pos.add_carry Pos.succ]. rewrite L, <- Bd. refine (written_24 _ _).
Qed.

(* what the check of the parity lets through is the frame an aircraft makes of the fields of the message *)
Theorem accepted_sent : forall frame m addresses interrogators a, bytes frame -> ReadMessage frame = Ok m ->
  CheckCRC m frame addresses interrogators = Ok a ->
  exists fields, written m fields /\
    match announced m with
    | Some address => a = address /\ Reply fields 0 frame
    | None => Reply fields a frame
    end.
Proof.
  intros frame m al ai a Hb Hm Hc.
  destruct (fields_written frame m Hb Hm) as (ws & P & T & W). exists (cut 0 ws frame). split; [exact W|].
  destruct (read_len frame m Hb Hm) as (_ & _ & L). destruct (message_kind frame m Hb Hm) as [G K]. cbv zeta in G, K.
  destruct (announced m) as [ad|] eqn:E.
  - assert (Q : GetDownLinkFormat m = 17 \/ GetDownLinkFormat m = 18).
    { destruct m; try discriminate E; rewrite G, K; auto. }
    destruct (extended_squitter_check frame m al ai Hb Hm Q) as (I & J & _).
    apply I in Hc as Hc'. destruct Hc' as [_ ->]. split.
    + destruct (read_len frame m Hb Hm) as (L14 & _ & _). specialize (L14 Q).
      destruct m; try discriminate E; injection E as <-.
      * rewrite df17_layout in Hm by assumption. injection Hm as <-. reflexivity.
      * rewrite df18_layout in Hm by assumption. injection Hm as <-. reflexivity.
    + apply cut_reply; try assumption; [lia|]. rewrite Z.lxor_0_r. apply J. eauto.
  - assert (Q : GetDownLinkFormat m <> 17 /\ GetDownLinkFormat m <> 18).
    { destruct m; try discriminate E; rewrite ?G, ?K; try (split; discriminate).
      destruct (Z.leb_spec 24 (bits 1 5 frame)); [split; discriminate|].
      exfalso. assert (J : bits 1 5 frame = bits 1 2 frame * 8 + bits 3 5 frame) by (apply (bits_join 1 2 5); lia).
      pose proof (bits_range 3 5 frame ltac:(lia)). lia. }
    destruct Q as [Q1 Q2]. destruct (overlay_check frame m al ai Hb Hm Q1 Q2) as (I & _ & _).
    apply I in Hc as [[R C] _]. apply cut_reply; assumption.
Qed.

(* a squitter the library accepts, and no other frame, is an extended squitter *)
Theorem squitter_iff : forall frame icao, bytes frame ->
  (exists d, ReadMessage frame = Ok (MDF17 d) /\ CheckCRC (MDF17 d) frame [] [] = Ok icao) <->
  exists capability payload, Squitter capability icao payload frame.
Proof.
  intros frame icao Hb. split.
  - intros (d & Hm & Hc). destruct (accepted_sent _ _ _ _ _ Hb Hm Hc) as (fs & W & E & R).
    inversion W; subst. cbn [announced] in *. destruct R as (F & Wd & _ & p & Pp & Ef).
    apply fits_app in F as [F1 F2]. eexists _, _. split; [exact F1|]. split; [exact F2|]. split.
    + rewrite width_app in Wd. change (width (header _ _)) with 32 in Wd.
      destruct Wd as [Wd|Wd]; [|lia].
      destruct (read_len frame _ Hb Hm) as (L14 & _ & _). specialize (L14 (or_introl eq_refl)).
      exfalso. rewrite Ef in L14. rewrite (message_len _ 7) in L14; [discriminate| |].
      * rewrite !fits_app. repeat split; try assumption. rewrite Z.lxor_0_r. eapply parity_fits, Pp.
      * rewrite !width_app. change (width (header _ _)) with 32. change (width [(24, Z.lxor p 0)]) with 24. lia.
    + exists p. split; [exact Pp|]. rewrite Z.lxor_0_r, <- app_assoc in Ef. exact Ef.
  - intros (ca & payload & S). destruct (squitter_received ca icao payload frame S) as (_ & _ & d & R & C & _). eauto.
Qed.

(* the squitter of the Mode S literature *)
Example kept_example : exists d, ReadMessage [0x8D; 0x48; 0x40; 0xD6; 0x20; 0x2C; 0xC3; 0x71; 0xC3; 0x2C; 0xE0; 0x57; 0x60; 0x98] = Ok (MDF17 d) /\
  CheckCRC (MDF17 d) [0x8D; 0x48; 0x40; 0xD6; 0x20; 0x2C; 0xC3; 0x71; 0xC3; 0x2C; 0xE0; 0x57; 0x60; 0x98] [] [] = Ok 0x4840D6 /\
  rebuilt (MDF17 d) = [0x8D; 0x48; 0x40; 0xD6; 0x20; 0x2C; 0xC3; 0x71; 0xC3; 0x2C; 0xE0; 0x57; 0x60; 0x98].
Proof. eexists. split; [reflexivity|]. split; [vm_compute; reflexivity|reflexivity]. Qed.
