(* C115: the registers kept of a known aircraft are those it answered last. *)
From Verif.Proofs Require Import Tac.
From Verif.Spec Require Import Altitude ModeS Crc Squitter Reply Adsb Identification CommB CommBMessages Lossless Noise Radar Answers.
From Verif.Gen Require modes_messages modes_fields bds00 bds07 bds20 bds50 bds60.
From Verif.Model Require Import Crc ModesReader CommbReader.
From Verif.Proofs Require Import ModesFields ModeSReader CrcReader Octets CommB1 CommB2 CommBApi Squitter.
From Verif.Proofs Require Lossless Noise Radar.
From Coq Require Import List.
Local Open Scope Z_scope.

(* ---- the candidates ---- *)
Lemma first_some : forall A (pick : Message -> option A) l x, first pick l = Some x -> exists m, In m l /\ pick m = Some x.
Proof.
  intros A pick l x. induction l as [|m l IH]; cbn [first]; [discriminate|].
  destruct (pick m) eqn:E.
  - intros H. injection H as <-. exists m. split; [left; reflexivity|exact E].
  - intros H. destruct (IH H) as (m' & I & P). exists m'. split; [right; exact I|exact P].
Qed.
Lemma first_none : forall A (pick : Message -> option A) l m x, first pick l = None -> In m l -> pick m = Some x -> False.
Proof.
  intros A pick l m x. induction l as [|m' l IH]; cbn [first]; [intros _ []|].
  destruct (pick m') eqn:E; [discriminate|]. intros H [->|I] P; [congruence|exact (IH H I P)].
Qed.

Lemma not_taken : forall data, bytes data -> len data = 7 -> ~ taken data ->
  forall m, exclusive m -> decodes data m -> ~ coherent m.
Proof.
  intros data Hb Hl N m X D C. apply N. unfold taken. destruct m; unfold exclusive in X; cbn [CommBMessages.number] in X; try lia.
  - left. cbn [decodes] in D. apply read_bds00 in D; tauto.
  - right; left. pose proof (proj1 (plausible_07 data Hb Hl) (ex_intro _ _ (conj D C))). tauto.
  - right; right. exact (proj1 (plausible_20 data Hb Hl) (ex_intro _ _ (conj D C))).
Qed.

(* when the field is taken by an exclusive register, the other registers are not candidates *)
Lemma taken_only : forall data l m, bytes data -> len data = 7 -> taken data -> ReadCommBMessage data = Ok l -> In m l -> exclusive m.
Proof.
  intros data l m Hb Hl T R I. destruct (commb_exclusive data Hb Hl) as (E0 & E7 & E20).
  destruct (Z.eq_dec (bits 1 56 data) 0) as [Z0|NZ].
  { rewrite (E0 Z0) in R. injection R as <-. destruct I as [<-|[]]. left. reflexivity. }
  assert (D7 : (exists x, decodes data (B07 x) /\ coherent (B07 x)) \/ ~ exists x, decodes data (B07 x) /\ coherent (B07 x)).
  { rewrite (plausible_07 data Hb Hl). unfold coherent_07.
    destruct (Z.eq_dec (bits 4 6 data) 0); [|right; tauto]. destruct (Z.eq_dec (bits 9 56 data) 0); [|right; tauto].
    destruct (Z_le_dec (bits 1 2 data) 2); [left|right]; tauto. }
  destruct D7 as [(x & D & C)|N7].
  { rewrite (E7 x NZ D C) in R. injection R as <-. destruct I as [<-|[]]. right; left. reflexivity. }
  destruct T as [T|[T|T]]; [contradiction| |].
  - exfalso. apply N7. apply (plausible_07 data Hb Hl). tauto.
  - apply (plausible_20 data Hb Hl) in T as (x & D & C).
    rewrite (E20 x NZ) in R; [|intros m' D' C'; apply N7; eauto|exact D|exact C].
    injection R as <-. destruct I as [<-|[]]. right; right. reflexivity.
Qed.

(* for each subject: what is kept, and when *)
Lemma identity_kept : forall data, bytes data -> len data = 7 -> exists l, ReadCommBMessage data = Ok l /\
  (about_identity data -> first identity_of l = Some (text (List.map shown (char_codes data)))) /\
  (~ about_identity data -> first identity_of l = None).
Proof.
  intros data Hb Hl. destruct (ReadCommBMessage data) as [l|e|] eqn:R.
  2,3: exfalso; destruct (commb_total data Hb) as [T1 T2]; try congruence; apply (proj1 T2); eauto.
  exists l. split; [reflexivity|].
  assert (K : forall m x, In m l -> identity_of m = Some x -> about_identity data).
  { intros m x I P. destruct m as [| | | |y| | | | | |]; try discriminate P. destruct (commb_sound data l _ Hb R I) as [D C].
    exact (proj1 (plausible_20 data Hb Hl) (ex_intro _ _ (conj D C))). }
  split.
  - intros Ab. destruct (commb_exclusive data Hb Hl) as (_ & _ & E20).
    destruct (proj2 (plausible_20 data Hb Hl) Ab) as (x & D & C). destruct Ab as [A1 A2].
    assert (S8 : bits 1 8 data = 32) by exact A1.
    assert (NZ : bits 1 56 data <> 0).
    { assert (J : bits 1 56 data = bits 1 8 data * 2 ^ 48 + bits 9 56 data) by (apply (bits_join 1 8 56); lia). pose proof (bits_range 9 56 data ltac:(lia)). lia. }
    assert (N7 : forall m', decodes data (B07 m') -> ~ coherent (B07 m')).
    { intros m' D' C'. destruct (proj1 (plausible_07 data Hb Hl) (ex_intro _ _ (conj D' C'))) as [[_ X9] _].
      unfold legal_characters, char_codes in A2. inversion A2 as [|? ? A3 _]; subst. apply A3.
      replace (bits 9 14 data) with 0; [reflexivity|].
      assert (J : bits 9 56 data = bits 9 14 data * 2 ^ 42 + bits 15 56 data) by (apply (bits_join 9 14 56); lia). pose proof (bits_range 15 56 data ltac:(lia)). pose proof (bits_range 9 14 data ltac:(lia)).
      lia. }
    rewrite (E20 x NZ N7 D C) in R. injection R as <-. cbn [first identity_of].
    cbn [decodes] in D. apply (read_bds20_iff data x Hb Hl) in D as [_ ->]. reflexivity.
  - intros N. destruct (first identity_of l) as [x|] eqn:F; [|reflexivity]. exfalso.
    destruct (first_some _ _ _ _ F) as (m & I & P). exact (N (K m x I P)).
Qed.

Lemma free_kept : forall data, bytes data -> len data = 7 -> ~ taken data ->
  exists l, ReadCommBMessage data = Ok l /\ forall m, In m l <-> decodes data m /\ coherent m.
Proof.
  intros data Hb Hl N. destruct (commb_complete data Hb Hl (not_taken data Hb Hl N)) as (l & R & _ & I). eauto.
Qed.

Lemma track_kept : forall data, bytes data -> len data = 7 -> exists l, ReadCommBMessage data = Ok l /\
  (about_track data -> exists x, first track_of_register l = Some x /\ TrackOf data x) /\
  (~ about_track data -> first track_of_register l = None).
Proof.
  intros data Hb Hl. destruct (ReadCommBMessage data) as [l|e|] eqn:R.
  2,3: exfalso; destruct (commb_total data Hb) as [T1 T2]; try congruence; apply (proj1 T2); eauto.
  exists l. split; [reflexivity|]. destruct (track_and_turn_report data Hb Hl) as (y & Q & V & _ & _).
  assert (K : forall m x, In m l -> track_of_register m = Some x -> about_track data /\ x = y).
  { intros m x I P. destruct m as [| | | | | | | | |z|]; try discriminate P. injection P as ->. destruct (commb_sound data l _ Hb R I) as [D C].
    split; [split|cbn [decodes] in D; congruence].
    - exact (proj1 (plausible_50 data Hb Hl) (ex_intro _ _ (conj D C))).
    - intros T. pose proof (taken_only data l _ Hb Hl T R I) as X. unfold exclusive in X. cbn [CommBMessages.number] in X. lia. }
  split.
  - intros [A1 A2]. destruct (free_kept data Hb Hl A2) as (l' & R' & I). rewrite R in R'. injection R' as <-.
    destruct (proj2 (plausible_50 data Hb Hl) A1) as (z & DC). apply I in DC.
    destruct (first track_of_register l) as [x|] eqn:F; [|exfalso; exact (first_none _ _ _ _ _ F DC eq_refl)].
    destruct (first_some _ _ _ _ F) as (m & Im & P). destruct (K m x Im P) as [_ ->]. eauto.
  - intros N. destruct (first track_of_register l) as [x|] eqn:F; [|reflexivity]. exfalso.
    destruct (first_some _ _ _ _ F) as (m & I & P). exact (N (proj1 (K m x I P))).
Qed.

Lemma heading_kept : forall data, bytes data -> len data = 7 -> exists l, ReadCommBMessage data = Ok l /\
  (about_heading data -> exists x, first heading_of_register l = Some x /\ HeadingOf data x) /\
  (~ about_heading data -> first heading_of_register l = None).
Proof.
  intros data Hb Hl. destruct (ReadCommBMessage data) as [l|e|] eqn:R.
  2,3: exfalso; destruct (commb_total data Hb) as [T1 T2]; try congruence; apply (proj1 T2); eauto.
  exists l. split; [reflexivity|]. destruct (heading_and_speed_report data Hb Hl) as (y & Q & V & _ & _).
  assert (K : forall m x, In m l -> heading_of_register m = Some x -> about_heading data /\ x = y).
  { intros m x I P. destruct m as [| | | | | | | | | |z]; try discriminate P. injection P as ->. destruct (commb_sound data l _ Hb R I) as [D C].
    split; [split|cbn [decodes] in D; congruence].
    - exact (proj1 (plausible_60 data Hb Hl) (ex_intro _ _ (conj D C))).
    - intros T. pose proof (taken_only data l _ Hb Hl T R I) as X. unfold exclusive in X. cbn [CommBMessages.number] in X. lia. }
  split.
  - intros [A1 A2]. destruct (free_kept data Hb Hl A2) as (l' & R' & I). rewrite R in R'. injection R' as <-.
    destruct (proj2 (plausible_60 data Hb Hl) A1) as (z & DC). apply I in DC.
    destruct (first heading_of_register l) as [x|] eqn:F; [|exfalso; exact (first_none _ _ _ _ _ F DC eq_refl)].
    destruct (first_some _ _ _ _ F) as (m & Im & P). destruct (K m x Im P) as [_ ->]. eauto.
  - intros N. destruct (first heading_of_register l) as [x|] eqn:F; [|reflexivity]. exfalso.
    destruct (first_some _ _ _ _ F) as (m & I & P). exact (N (proj1 (K m x I P))).
Qed.

(* ---- one frame ---- *)
Section Subject.
Context {A : Type} (pick : Message -> option A) (about : list Z -> Prop) (meaning : list Z -> A -> Prop).
Context (P : forall data, bytes data -> len data = 7 -> exists l, ReadCommBMessage data = Ok l /\
  (about data -> exists x, first pick l = Some x /\ meaning data x) /\ (~ about data -> first pick l = None)).

Lemma listen_nonempty : forall r frame, fst r <> [] -> fst (listen pick r frame) <> [].
Proof.
  intros r frame N. unfold listen. destruct (ReadMessage frame) as [m| |]; try exact N.
  destruct (CheckCRC m frame (fst r) []) as [a| |]; try exact N. destruct m; cbn; try exact N. discriminate.
Qed.

Lemma listen_squitter : forall r frame icao ca payload, Squitter ca icao payload frame ->
  has icao (fst (listen pick r frame)) = true /\ snd (listen pick r frame) icao = snd r icao.
Proof.
  intros r frame icao ca payload S.
  destruct (squitter_received ca icao payload frame S) as (_ & _ & d & R & C & _).
  assert (Hb : bytes frame) by (destruct S as (_ & _ & _ & p & _ & ->); apply message_bytes).
  unfold listen. rewrite R. apply (Radar.squitter_any frame d (fst r) icao Hb R) in C. rewrite C.
  cbn [fst snd has existsb]. rewrite Z.eqb_refl. split; reflexivity.
Qed.

(* a Comm-B reply is read, with its register *)
Lemma commb_read : forall frame, bytes frame -> commb_reply frame -> exists m, ReadMessage frame = Ok m /\
  (exists d, m = MDF20 d /\ modes_messages.MessageDF20_MessageCommB d = register_of frame) \/ 
  ReadMessage frame = Ok m /\ (exists d, m = MDF21 d /\ modes_messages.MessageDF21_MessageCommB d = register_of frame).
Proof.
  intros frame Hb (L & [(D & c & f & H)|D]).
  - eexists. left. split; [exact (df20_layout frame c f Hb L D H)|]. eexists. split; reflexivity.
  - eexists. right. split; [exact (df21_layout frame Hb L D)|]. eexists. split; reflexivity.
Qed.

Lemma register_ok : forall frame, bytes frame -> len frame = 14 -> bytes (register_of frame) /\ len (register_of frame) = 7.
Proof.
  intros frame Hb L. unfold register_of. split.
  - apply octets_bytes, Hb.
  - rewrite octets_len by lia. reflexivity.
Qed.

Lemma kept_here : forall data icao table, bytes data -> len data = 7 -> about data ->
  exists x, keep_first pick icao data table icao = Some x /\ meaning data x.
Proof.
  intros data icao table Hb Hl Ab. destruct (P data Hb Hl) as (l & R & Y & _). destruct (Y Ab) as (x & F & M).
  exists x. unfold keep_first. rewrite R, F, Z.eqb_refl. auto.
Qed.
Lemma kept_not : forall data a icao table, bytes data -> len data = 7 -> (a = icao -> ~ about data) ->
  keep_first pick a data table icao = table icao.
Proof.
  intros data a icao table Hb Hl N. destruct (P data Hb Hl) as (l & R & _ & Y). unfold keep_first. rewrite R.
  destruct (first pick l) as [x|] eqn:F; [|reflexivity]. destruct (Z.eqb_spec icao a) as [->|]; [|reflexivity].
  exfalso. specialize (Y (N eq_refl)). congruence.
Qed.

Lemma listen_register : forall r frame icao fields, fst r <> [] -> Reply fields icao frame -> commb_reply frame -> about (register_of frame) ->
  has icao (fst (listen pick r frame)) = has icao (fst r) /\
  if has icao (fst r) then exists x, snd (listen pick r frame) icao = Some x /\ meaning (register_of frame) x
  else snd (listen pick r frame) icao = snd r icao.
Proof.
  intros r frame icao fs N R D Ab. assert (Hb : bytes frame) by apply (Noise.reply_codeword _ _ _ R).
  destruct (register_ok frame Hb (proj1 D)) as [Rb Rl].
  destruct (commb_read frame Hb D) as (m & [(Hm & d & -> & E)|(Hm & d & -> & E)]).
  all: destruct (message_kind frame _ Hb Hm) as [G K]; cbv zeta in G, K; rewrite K in G.
  all: match type of Hm with _ = Ok ?m0 => assert (C : if has icao (fst r) then CheckCRC m0 frame (fst r) [] = Ok icao else forall a, CheckCRC m0 frame (fst r) [] <> Ok a) end;
    [destruct (has icao (fst r)) eqn:H;
      [apply (Radar.resolved frame _ (fst r) icao Hb Hm); [rewrite G; discriminate..|]; split; [eauto|]; apply Radar.admits_has; assumption
      |intros a C; apply (Radar.resolved frame _ (fst r) a Hb Hm) in C; [|rewrite G; discriminate..]; destruct C as [[fs' R'] Ad];
       assert (a = icao) as -> by exact (Radar.sender_unique _ _ _ _ _ R' R); apply Radar.admits_has in Ad; [congruence|exact N]]|].
  all: unfold listen; rewrite Hm; destruct (has icao (fst r)) eqn:H;
    [rewrite C; cbn [fst snd]; split; [exact H|]; rewrite E; apply kept_here; assumption
    |match goal with |- context [CheckCRC ?x ?y ?z ?w] => destruct (CheckCRC x y z w) as [a| |] eqn:Q end;
     [exfalso; exact (C a eq_refl)|split; [exact H|reflexivity]|split; [exact H|reflexivity]]].
Qed.

Lemma listen_other : forall r frame icao, bytes frame ->
  (forall capability payload, ~ Squitter capability icao payload frame) ->
  (forall fields, Reply fields icao frame -> commb_reply frame -> ~ about (register_of frame)) ->
  has icao (fst (listen pick r frame)) = has icao (fst r) /\ snd (listen pick r frame) icao = snd r icao.
Proof.
  intros r frame icao Hb NS NR. unfold listen. destruct (ReadMessage frame) as [m| |] eqn:Hm; try (split; reflexivity).
  destruct (CheckCRC m frame (fst r) []) as [a| |] eqn:C; try (split; reflexivity).
  pose proof (Radar.readable frame m Hb Hm) as Rd. destruct (message_kind frame m Hb Hm) as [G K]. cbv zeta in G, K.
  assert (Q : commb_reply frame -> GetDownLinkFormat m <> 11 -> GetDownLinkFormat m <> 17 -> GetDownLinkFormat m <> 18 -> a = icao -> ~ about (register_of frame)).
  { intros D N1 N2 N3 ->. apply (Radar.resolved frame m (fst r) icao Hb Hm N1 N2 N3) in C as [[fs R] _]. exact (NR fs R D). }
  destruct m as [| | | | |d| | |d|d|]; try (split; reflexivity); cbn [fst snd].
  - split; [|reflexivity]. cbn [has existsb fst]. destruct (Z.eqb_spec a icao) as [->|]; [|reflexivity]. exfalso.
    apply (Radar.squitter_any frame _ (fst r) icao Hb Hm) in C.
    destruct (proj1 (Lossless.squitter_iff frame icao Hb)) as (ca & payload & S); [eauto|]. exact (NS _ _ S).
  - split; [reflexivity|]. destruct Rd as [_ Rd]. destruct (proj1 (read_message_accepts frame Hb)) as [L _]; [eauto|]. unfold short_format, long_format in L.
    assert (D : commb_reply frame) by (split; [lia|left; auto]).
    destruct (commb_read frame Hb D) as (m' & [(Hm' & d' & -> & E)|(Hm' & d' & -> & E)]); rewrite Hm in Hm'; [|discriminate Hm'].
    injection Hm' as <-. rewrite E. destruct (register_ok frame Hb (proj1 D)) as [Rb Rl]. apply kept_not; [exact Rb|exact Rl|].
    apply Q; [exact D|rewrite G, K; discriminate..].
  - split; [reflexivity|]. destruct (proj1 (read_message_accepts frame Hb)) as [L _]; [eauto|]. unfold short_format, long_format in L.
    assert (D : commb_reply frame) by (split; [lia|right; auto]).
    destruct (commb_read frame Hb D) as (m' & [(Hm' & d' & -> & E)|(Hm' & d' & -> & E)]); rewrite Hm in Hm'; [discriminate Hm'|].
    injection Hm' as <-. rewrite E. destruct (register_ok frame Hb (proj1 D)) as [Rb Rl]. apply kept_not; [exact Rb|exact Rl|].
    apply Q; [exact D|rewrite G, K; discriminate..].
Qed.

(* ---- any history ---- *)
Theorem last_kept : forall addresses frames icao known last, addresses <> [] ->
  last_answer about icao (has icao addresses) frames known last ->
  has icao (fst (listened pick addresses frames)) = known /\
  match last with
  | Some data => exists x, snd (listened pick addresses frames) icao = Some x /\ meaning data x
  | None => snd (listened pick addresses frames) icao = None
  end.
Proof.
  intros addresses frames icao k last N T.
  enough (J : fst (listened pick addresses frames) <> [] /\ has icao (fst (listened pick addresses frames)) = k /\
    match last with
    | Some data => exists x, snd (listened pick addresses frames) icao = Some x /\ meaning data x
    | None => snd (listened pick addresses frames) icao = None
    end) by tauto.
  induction T as [|frames frame k before ca payload T IH S|frames frame k before fs T IH R D Ab|frames frame k before T IH Hb NS NR];
    [split; [exact N|split; reflexivity]|..]; unfold listened in *; rewrite fold_left_app; cbn [fold_left];
    destruct IH as (IN & E1 & E2); (split; [apply listen_nonempty, IN|]).
  - destruct (listen_squitter (fold_left (listen pick) frames (addresses, fun _ => None)) frame icao ca payload S) as [-> ->]. auto.
  - destruct (listen_register _ frame icao fs IN R D Ab) as [-> L]. split; [exact E1|]. rewrite E1 in L.
    destruct k; [exact L|rewrite L; exact E2].
  - destruct (listen_other (fold_left (listen pick) frames (addresses, fun _ => None)) frame icao Hb NS NR) as [-> ->]. auto.
Qed.
End Subject.

Theorem identity_answered : forall addresses frames icao known last, addresses <> [] ->
  last_answer about_identity icao (has icao addresses) frames known last ->
  snd (listened identity_of addresses frames) icao =
    match last with Some data => Some (text (List.map shown (char_codes data))) | None => None end.
Proof.
  intros addresses frames icao k last N T.
  destruct (last_kept identity_of about_identity (fun data x => x = text (List.map shown (char_codes data)))) with (2 := N) (3 := T) as [_ K].
  - intros data Hb Hl. destruct (identity_kept data Hb Hl) as (l & R & Y & Z). exists l. split; [exact R|]. split; [eauto|exact Z].
  - destruct last as [data|]; [|exact K]. destruct K as (x & -> & ->). reflexivity.
Qed.

Theorem track_answered : forall addresses frames icao known last, addresses <> [] ->
  last_answer about_track icao (has icao addresses) frames known last ->
  match last with
  | Some data => exists x, snd (listened track_of_register addresses frames) icao = Some x /\ TrackOf data x
  | None => snd (listened track_of_register addresses frames) icao = None
  end.
Proof.
  intros addresses frames icao k last N T. exact (proj2 (last_kept track_of_register about_track TrackOf track_kept _ _ _ _ _ N T)).
Qed.

Theorem heading_answered : forall addresses frames icao known last, addresses <> [] ->
  last_answer about_heading icao (has icao addresses) frames known last ->
  match last with
  | Some data => exists x, snd (listened heading_of_register addresses frames) icao = Some x /\ HeadingOf data x
  | None => snd (listened heading_of_register addresses frames) icao = None
  end.
Proof.
  intros addresses frames icao k last N T. exact (proj2 (last_kept heading_of_register about_heading HeadingOf heading_kept _ _ _ _ _ N T)).
Qed.

(* every sequence of frames is a history, of every aircraft *)
Lemma commb_decided : forall frame icao, bytes frame ->
  (exists fields, Reply fields icao frame /\ commb_reply frame) \/ ~ exists fields, Reply fields icao frame /\ commb_reply frame.
Proof.
  intros frame icao Hb. destruct (ReadMessage frame) as [m| |] eqn:Hm.
  2,3: right; intros (fs & _ & D); destruct (commb_read frame Hb D) as (m' & [(Hm' & _)|(Hm' & _)]); congruence.
  destruct (message_kind frame m Hb Hm) as [G K]. cbv zeta in G, K.
  destruct (proj1 (read_message_accepts frame Hb)) as [L Al]; [eauto|]. unfold short_format, long_format in L.
  assert (F : bits 1 5 frame = 20 \/ bits 1 5 frame = 21 \/ ~ commb_reply frame) by (unfold commb_reply; lia).
  assert (Y : (bits 1 5 frame = 20 \/ bits 1 5 frame = 21) -> (exists fields, Reply fields icao frame /\ commb_reply frame) \/ ~ exists fields, Reply fields icao frame /\ commb_reply frame).
  { intros Q. assert (N : GetDownLinkFormat m <> 11 /\ GetDownLinkFormat m <> 17 /\ GetDownLinkFormat m <> 18).
    { rewrite G. destruct (Z.leb_spec 24 (bits 1 5 frame)); lia. }
    destruct N as (N1 & N2 & N3). pose proof (Radar.resolved frame m [] icao Hb Hm N1 N2 N3) as I.
    assert (D : commb_reply frame).
    { split; [lia|]. destruct Q as [Q|Q]; [left; split; [exact Q|apply Al; unfold has_altitude; lia]|right; exact Q]. }
    assert (W : CheckCRC m frame [] [] = Ok icao \/ CheckCRC m frame [] [] <> Ok icao).
    { destruct (CheckCRC m frame [] []) as [b| |]; [destruct (Z.eq_dec b icao) as [->|]; [left; reflexivity|right; congruence]|right; discriminate|right; discriminate]. }
    destruct W as [W|W].
    - left. apply I in W as [[fs R] _]. eauto.
    - right. intros (fs & R & _). apply W, I. split; [eauto|left; reflexivity]. }
  destruct F as [F|[F|F]]; [apply Y; auto|apply Y; auto|]. right. intros (fs & _ & D). exact (F D).
Qed.

Theorem every_history : forall (about : list Z -> Prop) icao start frames, (forall data, about data \/ ~ about data) -> Forall bytes frames ->
  exists known last, last_answer about icao start frames known last.
Proof.
  intros about icao start frames Dec. induction frames as [|frame frames IH] using rev_ind; intros B; [do 2 eexists; constructor|].
  apply Forall_app in B as [B1 B2]. inversion B2 as [|? ? Hb _]; subst. destruct (IH B1) as (k & last & T).
  assert (S : (exists ca payload, Squitter ca icao payload frame) \/ ~ exists ca payload, Squitter ca icao payload frame).
  { pose proof (Lossless.squitter_iff frame icao Hb) as [I J].
    destruct (ReadMessage frame) as [m| |] eqn:Hm; [|right; intros X; destruct (J X) as (d & Y & _); discriminate Y..].
    destruct m; try (right; intros X; destruct (J X) as (d' & Y & _); discriminate Y).
    match goal with _ : _ = Ok (MDF17 ?d) |- _ => destruct (CheckCRC (MDF17 d) frame [] []) as [b| |] eqn:C end.
    - destruct (Z.eq_dec b icao) as [->|N]; [left; apply I; eauto|].
      right; intros X; destruct (J X) as (d' & Y & Z). injection Y as <-. congruence.
    - right; intros X; destruct (J X) as (d' & Y & Z). injection Y as <-. congruence.
    - right; intros X; destruct (J X) as (d' & Y & Z). injection Y as <-. congruence. }
  destruct S as [(ca & payload & S)|NS]; [do 2 eexists; exact (answer_address _ _ _ _ _ _ _ _ _ T S)|].
  assert (NS' : forall ca payload, ~ Squitter ca icao payload frame) by (intros ca payload X; apply NS; eauto).
  destruct (commb_decided frame icao Hb) as [(fs & R & D)|ND].
  - destruct (Dec (register_of frame)) as [Ab|Ab].
    + do 2 eexists. exact (answer_register _ _ _ _ _ _ _ _ T R D Ab).
    + do 2 eexists. refine (answer_other _ _ _ _ _ _ _ T Hb NS' _). auto.
  - do 2 eexists. refine (answer_other _ _ _ _ _ _ _ T Hb NS' _). intros fs R D. exfalso. apply ND. eauto.
Qed.

(* two published replies of known aircraft, with a callsign and with a track report *)
Lemma answered_once : forall (about : list Z -> Prop) icao f m, bytes f -> ReadMessage f = Ok m ->
  GetDownLinkFormat m <> 11 -> GetDownLinkFormat m <> 17 -> GetDownLinkFormat m <> 18 -> CheckCRC m f [] [] = Ok icao ->
  commb_reply f -> about (register_of f) -> last_answer about icao true [f] true (Some (register_of f)).
Proof.
  intros about icao f m Hb Hm N1 N2 N3 C D Ab. apply (Radar.resolved f m [] icao Hb Hm N1 N2 N3) in C as [[fs R] _].
  exact (answer_register about icao true [] f true None fs (answer_nothing _ _ _) R D Ab).
Qed.

Example identity_example :
  let f := [0xA0; 0x00; 0x08; 0x3E; 0x20; 0x2C; 0xC3; 0x71; 0xC3; 0x1D; 0xE0; 0xAA; 0x1C; 0xCF] in
  last_answer about_identity 0x484163 true [f] true (Some [0x20; 0x2C; 0xC3; 0x71; 0xC3; 0x1D; 0xE0]) /\
  snd (listened identity_of [(0x484163, true)] [f]) 0x484163 = Some "KLM1017 "%string /\
  snd (listened identity_of [(0x484164, true)] [f]) 0x484163 = None.
Proof.
  intros f. split; [|vm_compute; split; reflexivity].
  assert (Hb : bytes f) by (unfold f; repeat (constructor; [unfold byte; lia|]); constructor).
  assert (D : commb_reply f).
  { split; [reflexivity|left]. split; [reflexivity|]. destruct (ReadMessage f) as [m| |] eqn:Hm; [|vm_compute in Hm; discriminate Hm..].
    destruct (proj1 (read_message_accepts f Hb)) as [_ Al]; [eauto|]. apply Al. right; right; right. reflexivity. }
  destruct (commb_read f Hb D) as (m & [(Hm & d & -> & _)|(Hm & d & -> & _)]).
  - refine (answered_once about_identity 0x484163 f _ Hb Hm _ _ _ _ D _); try (destruct (message_kind f _ Hb Hm) as [G _]; rewrite G; vm_compute; discriminate).
    + assert (Q : match ReadMessage f with Ok m => CheckCRC m f [] [] | _ => Panic end = Ok 0x484163) by (vm_compute; reflexivity).
      rewrite Hm in Q. exact Q.
    + split; [reflexivity|]. unfold legal_characters. vm_compute. repeat (constructor; [discriminate|]). constructor.
  - exfalso. pose proof (proj2 (message_kind f _ Hb Hm)) as K. vm_compute in K. discriminate K.
Qed.

Example track_example :
  let f := [0xA0; 0x00; 0x13; 0x9B; 0x81; 0x95; 0x15; 0x36; 0xE0; 0x24; 0xD4; 0x91; 0x9F; 0x3C] in
  last_answer about_track 6823257 true [f] true (Some [0x81; 0x95; 0x15; 0x36; 0xE0; 0x24; 0xD4]).
Proof.
  intros f. assert (Hb : bytes f) by (unfold f; repeat (constructor; [unfold byte; lia|]); constructor).
  assert (D : commb_reply f).
  { split; [reflexivity|left]. split; [reflexivity|]. destruct (ReadMessage f) as [m| |] eqn:Hm; [|vm_compute in Hm; discriminate Hm..].
    destruct (proj1 (read_message_accepts f Hb)) as [_ Al]; [eauto|]. apply Al. right; right; right. reflexivity. }
  destruct (commb_read f Hb D) as (m & [(Hm & d & -> & _)|(Hm & d & -> & _)]).
  - refine (answered_once about_track 6823257 f _ Hb Hm _ _ _ _ D _); try (destruct (message_kind f _ Hb Hm) as [G _]; rewrite G; vm_compute; discriminate).
    + assert (Q : match ReadMessage f with Ok m => CheckCRC m f [] [] | _ => Panic end = Ok 6823257) by (vm_compute; reflexivity).
      rewrite Hm in Q. exact Q.
    + split.
      * split; [left; reflexivity|]. unfold absent_is_zero. repeat split; try (vm_compute; discriminate).
      * intros [T|[(_ & T & _)|[T _]]]; vm_compute in T; discriminate T.
  - exfalso. pose proof (proj2 (message_kind f _ Hb Hm)) as K. vm_compute in K. discriminate K.
Qed.

(* the three subjects are decided by the bits *)
Lemma dec_and : forall P Q : Prop, P \/ ~ P -> Q \/ ~ Q -> P /\ Q \/ ~ (P /\ Q).
Proof. tauto. Qed.
Lemma dec_or : forall P Q : Prop, P \/ ~ P -> Q \/ ~ Q -> (P \/ Q) \/ ~ (P \/ Q).
Proof. tauto. Qed.
Lemma dec_imp : forall P Q : Prop, P \/ ~ P -> Q \/ ~ Q -> (P -> Q) \/ ~ (P -> Q).
Proof. tauto. Qed.
Lemma dec_not : forall P : Prop, P \/ ~ P -> ~ P \/ ~ ~ P.
Proof. tauto. Qed.
Lemma dec_Zeq : forall a b : Z, a = b \/ a <> b.
Proof. intros a b. destruct (Z.eq_dec a b); auto. Qed.
Lemma dec_Zle : forall a b : Z, a <= b \/ ~ a <= b.
Proof. intros a b. destruct (Z_le_dec a b); auto. Qed.
Lemma dec_beq : forall a b : bool, a = b \/ a <> b.
Proof. intros a b. destruct (Bool.bool_dec a b); auto. Qed.
Lemma dec_Qle : forall a b : Q, (a <= b)%Q \/ ~ (a <= b)%Q.
Proof. intros a b. unfold Qle. apply dec_Zle. Qed.
Lemma dec_legal : forall data, legal_characters data \/ ~ legal_characters data.
Proof.
  intros data. unfold legal_characters. induction (char_codes data) as [|c l [IH|IH]]; [left; constructor| |].
  - destruct (ia5 c) eqn:E; [left; constructor; [congruence|exact IH]|right; intros H; inversion H; contradiction].
  - right. intros H. inversion H. contradiction.
Qed.

Ltac decide_it := repeat first [apply dec_and | apply dec_or | apply dec_Zle | apply dec_Qle | apply dec_Zeq | apply dec_beq | apply dec_legal | apply dec_not | apply dec_imp].

Theorem subjects_decided : forall data,
  (about_identity data \/ ~ about_identity data) /\ (about_track data \/ ~ about_track data) /\ (about_heading data \/ ~ about_heading data).
Proof.
  intros data. unfold about_track, about_heading, taken, about_identity, recognised_20, coherent_50, coherent_60, coherent_07, absent_is_zero.
  split; [|split]; decide_it.
Qed.
