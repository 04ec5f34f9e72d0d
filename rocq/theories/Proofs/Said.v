(* C114: the callsign, the emergency and the velocity of each aircraft are those it said last. *)
From Verif.Proofs Require Import Tac.
From Verif.Spec Require Import Altitude Floats Adsb Identification Velocity Status AdsbMessages Crc Squitter Said.
From Verif.Gen Require modes_messages bds08 bds09 bds61 adsb_aircraft_identification_and_category adsb_aircraft_status adsb_airborne_velocity.
From Verif.Model Require Import Crc ModesReader AdsbReader.
From Verif.Proofs Require Import ModeSReader CrcReader Octets AdsbApi Squitter.
From Verif.Proofs Require Lossless Status61.
From Coq Require Import List.
Local Open Scope Z_scope.

Lemma note_step : forall A (pick : AdsbReader.Message -> option A) v a c table frame icao ca payload d,
  ReadMessage frame = Ok (MDF17 d) -> CheckCRC (MDF17 d) frame [] [] = Ok icao ->
  modes_messages.MessageDF17_MessageExtendedSquitter d = message payload -> Squitter ca icao payload frame ->
  note pick v a c table frame icao =
    match ReadADSBMessage v a c (message payload) with
    | Ok m => match pick m with Some x => Some x | None => table icao end
    | _ => table icao
    end.
Proof.
  intros A pick v a c table frame icao ca payload d R C E S. unfold note. rewrite R, C, E.
  destruct (ReadADSBMessage v a c (message payload)) as [m| |]; try reflexivity.
  destruct (pick m); [rewrite Z.eqb_refl|]; reflexivity.
Qed.

Theorem last_noted : forall A (pick : AdsbReader.Message -> option A) (about : list Z -> Prop) (meaning : list Z -> A -> Prop) v a c,
  (forall data, bytes data -> len data = 7 -> about data -> exists m x, ReadADSBMessage v a c data = Ok m /\ pick m = Some x /\ meaning data x) ->
  (forall data m x, bytes data -> len data = 7 -> ReadADSBMessage v a c data = Ok m -> pick m = Some x -> about data) ->
  forall frames icao last, last_sent about icao frames last ->
  match last with
  | Some data => exists x, noted pick v a c frames icao = Some x /\ meaning data x
  | None => noted pick v a c frames icao = None
  end.
Proof.
  intros A pick about meaning v a c P N frames icao last T.
  induction T as [|frames frame before ca payload T IH S Ab|frames frame before T IH Hb No]; [reflexivity|..];
    unfold noted in *; rewrite fold_left_app; cbn [fold_left].
  - destruct (squitter_received _ _ _ _ S) as (Hb & Hl & d & R & C & E).
    rewrite (note_step _ pick v a c _ frame icao ca payload d R C E S).
    destruct (P _ Hb Hl Ab) as (m & x & Q & K & M). rewrite Q, K. eauto.
  - enough (K : note pick v a c (fold_left (note pick v a c) frames (fun _ => None)) frame icao = fold_left (note pick v a c) frames (fun _ => None) icao)
      by (rewrite K; exact IH).
    generalize (fold_left (note pick v a c) frames (fun _ => None)). intros table. unfold note.
    destruct (ReadMessage frame) as [m| |] eqn:R; try reflexivity. destruct m; try reflexivity.
    destruct (CheckCRC _ frame [] []) as [address| |] eqn:C; try reflexivity.
    destruct (ReadADSBMessage v a c _) as [m'| |] eqn:Q; try reflexivity.
    destruct (pick m') as [x|] eqn:K; try reflexivity.
    destruct (Z.eqb_spec icao address) as [<-|]; [exfalso|reflexivity].
    destruct (proj1 (Lossless.squitter_iff frame icao Hb)) as (ca & payload & S); [eauto|].
    destruct (squitter_received _ _ _ _ S) as (Hb' & Hl & d' & R' & _ & E). rewrite R in R'. injection R' as <-. rewrite E in Q.
    exact (No _ _ S (N _ _ _ Hb' Hl Q K)).
Qed.

(* every sequence of frames is a history *)
Theorem every_history : forall (about : list Z -> Prop) icao frames, (forall data, about data \/ ~ about data) -> Forall bytes frames ->
  exists last, last_sent about icao frames last.
Proof.
  intros about icao frames D. induction frames as [|frame frames IH] using rev_ind; intros B; [exists None; constructor|].
  apply Forall_app in B as [B1 B2]. inversion B2 as [|? ? Hb _]; subst. destruct (IH B1) as [last T].
  assert (Q : (exists ca payload, Squitter ca icao payload frame) \/ ~ exists ca payload, Squitter ca icao payload frame).
  { assert (W : (exists d, ReadMessage frame = Ok (MDF17 d) /\ CheckCRC (MDF17 d) frame [] [] = Ok icao) \/
                ~ exists d, ReadMessage frame = Ok (MDF17 d) /\ CheckCRC (MDF17 d) frame [] [] = Ok icao).
    { destruct (ReadMessage frame) as [m| |]; [|right; intros (d & X & _); discriminate..].
      destruct m; try (right; intros (d' & X & _); discriminate).
      match goal with |- context [Ok (MDF17 ?d)] => destruct (CheckCRC (MDF17 d) frame [] []) as [b| |] eqn:C end.
      - destruct (Z.eq_dec b icao) as [->|N]; [left; eexists; split; [reflexivity|exact C]|].
        right. intros (d' & X & Y). injection X as <-. congruence.
      - right. intros (d' & X & Y). injection X as <-. congruence.
      - right. intros (d' & X & Y). injection X as <-. congruence. }
    pose proof (Lossless.squitter_iff frame icao Hb) as [I J]. destruct W as [W|W]; [left; apply I, W|right; intros X; apply W, J, X]. }
  destruct Q as [(ca & payload & S)|Q].
  - destruct (D (message payload)) as [Y|Y].
    + eexists. exact (sent_about _ _ _ _ _ _ _ T S Y).
    + eexists. refine (sent_other _ _ _ _ _ T Hb _). intros ca' payload' S'.
      destruct (squitter_received _ _ _ _ S) as (_ & _ & d & R & _ & E). destruct (squitter_received _ _ _ _ S') as (_ & _ & d' & R' & _ & E').
      rewrite R in R'. injection R' as <-. rewrite <- E', E. exact Y.
  - eexists. refine (sent_other _ _ _ _ _ T Hb _). intros ca payload S. exfalso. apply Q. eauto.
Qed.

Theorem callsign_said : forall v nicA nicC frames icao last, last_sent about_callsign icao frames last ->
  noted callsign_of v nicA nicC frames icao =
    match last with Some data => Some (text (List.map shown (char_codes data))) | None => None end.
Proof.
  intros v a c frames icao last T.
  pose proof (last_noted _ callsign_of about_callsign (fun data x => x = text (List.map shown (char_codes data))) v a c) as L.
  refine (_ (L _ _ frames icao last T)).
  - destruct last as [data|]; [|auto]. intros (x & E & ->). exact E.
  - intros data Hb Hl Ab. eexists. eexists. split; [apply identification_ok; [exact Hb|exact Hl|apply k_ident, Ab]|]. split; reflexivity.
  - intros data m x Hb Hl Q K. destruct m; try discriminate K. destruct (adsb_kind _ _ _ _ _ Hb Q) as [_ W]. inversion W. assumption.
Qed.

Theorem emergency_said : forall v nicA nicC frames icao last, last_sent about_emergency icao frames last ->
  noted emergency_of v nicA nicC frames icao =
    match last with Some data => Some (bits 9 11 data, bits 12 24 data) | None => None end.
Proof.
  intros v a c frames icao last T.
  pose proof (last_noted _ emergency_of about_emergency (fun data x => x = (bits 9 11 data, bits 12 24 data)) v a c) as L.
  refine (_ (L _ _ frames icao last T)).
  - destruct last as [data|]; [|auto]. intros (x & E & ->). exact E.
  - intros data Hb Hl (A1 & A2 & A3). assert (K : KindOf data KStatus) by (apply k_status; exact A1).
    pose proof (status_emergency data A2 A3) as M. apply (status_message_partial v a c data Hb Hl K) in M; [|lia|lia].
    eexists. eexists. split; [exact M|]. split; reflexivity.
  - intros data m x Hb Hl Q K. destruct m as [| | | | | |s| |]; try discriminate K. destruct (adsb_kind _ _ _ _ _ Hb Q) as [_ W].
    assert (W1 : bits 1 5 data = 28) by (inversion W; assumption). split; [exact W1|].
    rewrite (read_status v a c data Hb Hl W) in Q. rewrite (Status61.read_bds61_code data Hb Hl W1) in Q. unfold rmap in Q.
    destruct (Z.eqb_spec (bits 6 8 data) 0); [exfalso; destruct (_ =? 0) in Q; [injection Q as <-; discriminate K|discriminate Q]|].
    destruct (Z.eqb_spec (bits 6 8 data) 1) as [B2|].
    + destruct (Z.eqb_spec (bits 25 56 data) 0) as [B3|]; [auto|discriminate Q].
    + exfalso. destruct (_ =? 2) in Q; [|discriminate Q]. destruct (acas_ra.ReadResolutionAdvisory _) in Q; try discriminate Q.
      injection Q as <-. discriminate K.
Qed.

Theorem velocity_said : forall v nicA nicC frames icao last, last_sent about_velocity icao frames last ->
  match last with
  | Some data => exists x, noted velocity_of_message v nicA nicC frames icao = Some x /\ VelocityOf data x
  | None => noted velocity_of_message v nicA nicC frames icao = None
  end.
Proof.
  intros v a c frames icao last T.
  refine (last_noted _ velocity_of_message about_velocity VelocityOf v a c _ _ frames icao last T).
  - intros data Hb Hl (A1 & A2). destruct (velocity_ok v a c data Hb Hl (k_velocity data A1) A2) as (x & V & Q).
    eexists. exists x. split; [exact Q|]. split; [reflexivity|exact V].
  - intros data m x Hb Hl Q K. destruct m; try discriminate K. destruct (adsb_kind _ _ _ _ _ Hb Q) as [_ W].
    assert (W1 : bits 1 5 data = 19) by (inversion W; assumption). split; [exact W1|].
    destruct (Z_le_dec 1 (bits 6 8 data)) as [L1|L1]; [destruct (Z_le_dec (bits 6 8 data) 4) as [L2|L2]; [lia|]|];
      (destruct (velocity_bad_subtype v a c data Hb Hl W ltac:(lia)) as [e E]; congruence).
Qed.

(* the squitter of a published example: KLM1023; then garbage *)
Example said_example : exists data,
  last_sent about_callsign 0x4840D6 [[0x8D; 0x48; 0x40; 0xD6; 0x20; 0x2C; 0xC3; 0x71; 0xC3; 0x2C; 0xE0; 0x57; 0x60; 0x98]; [1; 2; 3]] (Some data) /\
  text (List.map shown (char_codes data)) = "KLM1023 "%string /\
  noted callsign_of 0 false false [[0x8D; 0x48; 0x40; 0xD6; 0x20; 0x2C; 0xC3; 0x71; 0xC3; 0x2C; 0xE0; 0x57; 0x60; 0x98]; [1; 2; 3]] 0x4840D6 = Some "KLM1023 "%string.
Proof.
  destruct Lossless.kept_example as (d & X & Y & _).
  set (f := [0x8D; 0x48; 0x40; 0xD6; 0x20; 0x2C; 0xC3; 0x71; 0xC3; 0x2C; 0xE0; 0x57; 0x60; 0x98]) in *.
  assert (Hb : bytes f) by (unfold f; repeat (constructor; [unfold byte; lia|]); constructor).
  destruct (proj1 (Lossless.squitter_iff f 0x4840D6 Hb)) as (ca & payload & S); [eauto|].
  destruct (squitter_received _ _ _ _ S) as (_ & _ & d' & R & _ & E).
  assert (M : message payload = [0x20; 0x2C; 0xC3; 0x71; 0xC3; 0x2C; 0xE0]).
  { rewrite <- E. clear - R. unfold f in R. cbv in R. injection R as <-. reflexivity. }
  exists (message payload). split; [|split].
  - change [f; [1; 2; 3]] with (([] ++ [f]) ++ [[1; 2; 3]]). refine (sent_other _ _ _ _ _ (sent_about _ _ _ _ _ _ _ (sent_nothing _ _) S _) _ _).
    + rewrite M. vm_compute. split; discriminate.
    + repeat (constructor; [unfold byte; lia|]); constructor.
    + intros ca' payload' S'. exfalso. destruct (squitter_received _ _ _ _ S') as (_ & _ & d'' & R' & _). discriminate R'.
  - rewrite M. vm_compute. reflexivity.
  - vm_compute. reflexivity.
Qed.

(* two more published squitters: an emergency report and a velocity *)
Lemma sent_once : forall (about : list Z -> Prop) icao f d data, bytes f ->
  ReadMessage f = Ok (MDF17 d) -> CheckCRC (MDF17 d) f [] [] = Ok icao -> modes_messages.MessageDF17_MessageExtendedSquitter d = data ->
  about data -> last_sent about icao [f] (Some data).
Proof.
  intros about icao f d data Hb R C E Ab. destruct (proj1 (Lossless.squitter_iff f icao Hb)) as (ca & payload & S); [eauto|].
  destruct (squitter_received _ _ _ _ S) as (_ & _ & d' & R' & _ & E'). rewrite R in R'. injection R' as <-. rewrite E in E'. rewrite E' in *.
  exact (sent_about about icao [] f None ca payload (sent_nothing _ _) S Ab).
Qed.

Example emergency_example :
  last_sent about_emergency 0xA2C1B6 [[0x8D; 0xA2; 0xC1; 0xB6; 0xE1; 0x12; 0xB6; 0x00; 0x00; 0x00; 0x00; 0x76; 0x07; 0x59]] (Some [0xE1; 0x12; 0xB6; 0; 0; 0; 0]) /\
  noted emergency_of 2 false false [[0x8D; 0xA2; 0xC1; 0xB6; 0xE1; 0x12; 0xB6; 0x00; 0x00; 0x00; 0x00; 0x76; 0x07; 0x59]] 0xA2C1B6 = Some (0, 0x12B6).
Proof.
  split; [|vm_compute; reflexivity].
  eapply sent_once; [repeat (constructor; [unfold byte; lia|]); constructor|reflexivity|vm_compute; reflexivity|reflexivity|].
  repeat split.
Qed.

Example velocity_example :
  last_sent about_velocity 0x485020 [[0x8D; 0x48; 0x50; 0x20; 0x99; 0x44; 0x09; 0x94; 0x08; 0x38; 0x17; 0x5B; 0x28; 0x4F]] (Some [0x99; 0x44; 0x09; 0x94; 0x08; 0x38; 0x17]).
Proof.
  eapply sent_once; [repeat (constructor; [unfold byte; lia|]); constructor|reflexivity|vm_compute; reflexivity|reflexivity|].
  split; [reflexivity|vm_compute; split; discriminate].
Qed.

(* the three subjects are decided by the bits *)
Theorem subjects_decided : forall data,
  (about_callsign data \/ ~ about_callsign data) /\ (about_emergency data \/ ~ about_emergency data) /\ (about_velocity data \/ ~ about_velocity data).
Proof. intros data. unfold about_callsign, about_emergency, about_velocity. lia. Qed.
