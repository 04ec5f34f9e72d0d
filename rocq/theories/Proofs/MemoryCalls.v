(* The programs of MemoryCode give the results of the models on lists. *)
From Verif Require Import GoBase.
From Verif.Gen Require bitutils adsb modes_common modes_fields modes_messages bds_encoding bds00 bds05 bds07 bds08 bds08_fields bds10 bds17
  bds20 bds30 bds40 bds44 bds45 bds50 bds60 adsb_airborne_position adsb_airborne_velocity
  adsb_aircraft_identification_and_category adsb_aircraft_operational_status
  adsb_aircraft_status adsb_no_position_information adsb_surface_position
  adsb_target_state_and_status.
From Verif.Model Require Import Memory MemoryCode.
From Verif.Model Require Crc ModesReader AdsbReader CommbReader.
From Verif.Proofs Require Import MemoryLogic MemoryRules.
Require Import Lia PeanoNat.
Local Open Scope Z_scope.

Lemma shows_len : forall R own s l, shows R own s l -> slen s = len l.
Proof. intros R own s l (arr & _ & _ & N). unfold slen, len. rewrite N. reflexivity. Qed.

Lemma has_len : forall R o own s l, has R o own s l -> slen s = len l.
Proof. intros R o own s l (_ & _ & _ & _ & _ & N). unfold slen, len. rewrite N. reflexivity. Qed.

Lemma shows_polynomial : forall R own, nth_error R 0 = Some Crc.crcPolynomial -> shows R own polynomial Crc.crcPolynomial.
Proof.
  intros R own H. exists Crc.crcPolynomial. unfold lookup. cbn [array polynomial].
  destruct R as [|x R]; [discriminate|]. split; [exact H|]. split; reflexivity.
Qed.

Lemma shows_coding : forall R own, nth_error R 1 = Some bds_encoding.IdentificationCharacterCoding ->
  shows R own characterCoding bds_encoding.IdentificationCharacterCoding.
Proof.
  intros R own H. exists bds_encoding.IdentificationCharacterCoding. unfold lookup. cbn [array characterCoding].
  destruct R as [|x [|y R]]; try discriminate. split; [exact H|]. split; reflexivity.
Qed.

(* one read or write of a private slice *)
Ltac own_load H := eapply wp_load; [eapply has_shows; exact H|reflexivity|].
Ltac own_store H := eapply wp_store; [exact H|reflexivity|]; clear H; let o := fresh "own" in intros o H;
  cbn [write Z.to_nat Pos.to_nat Pos.iter_op Nat.add List.firstn List.skipn List.app] in H.

Lemma wp_parityBody : forall R own0 data l crc i c0 c1 c2 d own (Q : unit -> owned -> Prop),
  nth_error R 0 = Some Crc.crcPolynomial -> shows R own0 data l -> has R own0 own crc [c0; c1; c2] ->
  Crc.parityStep l i (c0, c1, c2) = Ok d ->
  (forall own', has R own0 own' crc [fst (fst d); snd (fst d); snd d] -> Q tt own') ->
  wp R (parityBody data crc i) own Q.
Proof.
  intros R own0 data l crc i c0 c1 c2 d own Q RP SH H E K.
  unfold parityBody, load, store. cbn [Memory.bind repeatFrom].
  own_load H. own_load H. own_store H.
  change (1 - 1) with 0. change (1 + 1 - 1) with 1. change (1 + 1) with 2.
  own_load H. own_load H. own_store H. own_load H. own_store H.
  own_load H. own_load H. own_store H. own_load H. own_store H.
  rewrite (has_len _ _ _ _ _ H). change (len _ - 1) with 2.
  unfold Crc.parityStep in E. change (slen polynomial * 8 + i) with (3 * 8 + i).
  rewrite (shows_len _ _ _ _ SH).
  set (invert := negb (Z.land c0 128 =? 0)) in *.
  destruct (Z.quot (3 * 8 + i) 8 <? len l) eqn:B.
  - cbn [Memory.bind]. own_load H.
    destruct (idx l (Z.quot (3 * 8 + i) 8)) as [dd|e|] eqn:I; cbn [GoBase.bind] in E; try discriminate.
    eapply wp_load; [eapply shows_grows; [eapply has_grows; exact H|exact SH]|exact I|].
    own_store H. destruct invert; cbn [Memory.bind repeatFrom].
    + own_load H. eapply wp_load; [apply shows_polynomial; exact RP|reflexivity|]. own_store H.
      own_load H. eapply wp_load; [apply shows_polynomial; exact RP|reflexivity|]. own_store H.
      own_load H. eapply wp_load; [apply shows_polynomial; exact RP|reflexivity|]. own_store H.
      injection E as <-. apply K. exact H.
    + injection E as <-. apply K. exact H.
  - cbn [Memory.bind]. cbn [GoBase.bind] in E. destruct invert; cbn [Memory.bind repeatFrom].
    + own_load H. eapply wp_load; [apply shows_polynomial; exact RP|reflexivity|]. own_store H.
      own_load H. eapply wp_load; [apply shows_polynomial; exact RP|reflexivity|]. own_store H.
      own_load H. eapply wp_load; [apply shows_polynomial; exact RP|reflexivity|]. own_store H.
      injection E as <-. apply K. exact H.
    + injection E as <-. apply K. exact H.
Qed.

Lemma wp_parityLoop : forall R own0 data l crc n i c d own (Q : unit -> owned -> Prop),
  nth_error R 0 = Some Crc.crcPolynomial -> shows R own0 data l ->
  has R own0 own crc [fst (fst c); snd (fst c); snd c] ->
  Crc.parityLoop l n i c = Ok d ->
  (forall own', has R own0 own' crc [fst (fst d); snd (fst d); snd d] -> Q tt own') ->
  wp R (repeatFrom n i (parityBody data crc)) own Q.
Proof.
  intros R own0 data l crc n. induction n as [|n IH]; intros i c d own Q RP SH H E K.
  - cbn in E. injection E as <-. cbn. apply K. exact H.
  - cbn [Crc.parityLoop] in E. cbn [repeatFrom]. destruct (Crc.parityStep l i c) as [c'|e|] eqn:S; try discriminate.
    cbn [GoBase.bind] in E. apply wp_bind. destruct c as [[c0 c1] c2]. eapply wp_parityBody; try eassumption.
    intros own' H'. eapply IH; try eassumption.
Qed.

Lemma gives_parity : forall R own data l v, nth_error R 0 = Some Crc.crcPolynomial -> shows R own data l ->
  Crc.computeParity l = Ok v -> gives R own (computeParity data) v.
Proof.
  intros R own data l v RP SH E Q K. unfold Crc.computeParity in E. unfold computeParity, make, load, store.
  destruct (idx l 0) as [c0|e|] eqn:I0; cbn [GoBase.bind] in E; try discriminate.
  destruct (idx l 1) as [c1|e|] eqn:I1; cbn [GoBase.bind] in E; try discriminate.
  destruct (idx l 2) as [c2|e|] eqn:I2; cbn [GoBase.bind] in E; try discriminate.
  destruct (Crc.parityLoop l (Z.to_nat (len l * 8)) 0 (c0, c1, c2)) as [d|e|] eqn:L; cbn [GoBase.bind] in E; try discriminate.
  cbn [Memory.bind size polynomial repeatFrom]. apply wp_make. intros crc own1 H. cbn [List.repeat] in H.
  change (0 + 1) with 1. change (1 + 1) with 2.
  eapply wp_load; [eapply shows_grows; [eapply has_grows; exact H|exact SH]|exact I0|]. own_store H.
  eapply wp_load; [eapply shows_grows; [eapply has_grows; exact H|exact SH]|exact I1|]. own_store H.
  eapply wp_load; [eapply shows_grows; [eapply has_grows; exact H|exact SH]|exact I2|]. own_store H.
  apply wp_bind. rewrite (shows_len _ _ _ _ SH).
  eapply (wp_parityLoop R own data l crc _ 0 (c0, c1, c2)); try eassumption.
  clear H. intros own' H. own_load H. own_load H. own_load H. cbn [wp].
  destruct d as [[d0 d1] d2]. cbn [fst snd] in *. injection E as <-. apply K. eapply has_grows. exact H.
Qed.

(* indexing, slicing and the parity return a value or panic *)
Lemma slice_not_err : forall A (l : list A) lo hi e, GoBase.slice l lo hi <> Err e.
Proof. intros A l lo hi e. unfold GoBase.slice. destruct (_ && _); discriminate. Qed.

Lemma parityStep_not_err : forall l i c e, Crc.parityStep l i c <> Err e.
Proof.
  intros l i [[c0 c1] c2] e. unfold Crc.parityStep.
  destruct (_ <? len l); [destruct (idx l _) eqn:I; cbn [GoBase.bind]; [|exfalso; exact (idx_not_err _ _ _ _ I)|discriminate]|cbn [GoBase.bind]];
    destruct (negb _); discriminate.
Qed.

Lemma parityLoop_not_err : forall l n i c e, Crc.parityLoop l n i c <> Err e.
Proof.
  intros l n. induction n as [|n IH]; intros i c e; cbn [Crc.parityLoop]; [discriminate|].
  destruct (Crc.parityStep l i c) as [c'|e'|] eqn:E; cbn [GoBase.bind]; [apply IH|exfalso; exact (parityStep_not_err _ _ _ _ E)|discriminate].
Qed.

Lemma parity_not_err : forall l e, Crc.computeParity l <> Err e.
Proof.
  intros l e. unfold Crc.computeParity.
  destruct (idx l 0) eqn:I0; cbn [GoBase.bind]; [|exfalso; exact (idx_not_err _ _ _ _ I0)|discriminate].
  destruct (idx l 1) eqn:I1; cbn [GoBase.bind]; [|exfalso; exact (idx_not_err _ _ _ _ I1)|discriminate].
  destruct (idx l 2) eqn:I2; cbn [GoBase.bind]; [|exfalso; exact (idx_not_err _ _ _ _ I2)|discriminate].
  destruct (Crc.parityLoop l _ 0 _) as [[[? ?] ?]|e'|] eqn:E; cbn [GoBase.bind]; [discriminate|exfalso; exact (parityLoop_not_err _ _ _ _ _ E)|discriminate].
Qed.

(* the next bind of the model, of which the result [N] is not a panic *)
Ltac ok_idx N l i v I :=
  destruct (idx l i) as [v|?|] eqn:I; cbn [GoBase.bind] in N |- *;
  [|exfalso; exact (idx_not_err _ _ _ _ I)|contradiction N; reflexivity].

Lemma gives_crc : forall R own m data l a b, nth_error R 0 = Some Crc.crcPolynomial -> shows R own data l ->
  Crc.CheckCRC m l a b <> Panic -> gives R own (CheckCRC m data a b) (Crc.CheckCRC m l a b).
Proof.
  intros R own m data l a b RP SH N Q K. unfold Crc.CheckCRC in *. unfold CheckCRC.
  destruct (Crc.GetDownLinkFormat m =? 11); [|destruct ((Crc.GetDownLinkFormat m =? 17) || (Crc.GetDownLinkFormat m =? 18))].
  - unfold Crc.checkCRCDF11 in *. unfold checkCRCDF11.
    destruct (GoBase.slice l 0 4) as [bo|e|] eqn:B; cbn [GoBase.bind] in *; [|exfalso; exact (slice_not_err _ _ _ _ _ B)|contradiction N; reflexivity].
    eapply wp_cut; [exact SH|exact B|]. intros s' _ _ SH'.
    destruct (Crc.computeParity bo) as [cp|e|] eqn:P; cbn [GoBase.bind] in *; [|exfalso; exact (parity_not_err _ _ P)|contradiction N; reflexivity].
    apply wp_bind. eapply gives_parity; try eassumption. intros o1 G1. unfold load; cbn [Memory.bind].
    ok_idx N l 4 d4 I4. ok_idx N l 5 d5 I5. ok_idx N l 6 d6 I6.
    pose proof (shows_grows _ _ _ _ _ G1 SH) as SH1.
    eapply wp_load; [exact SH1|exact I4|]. eapply wp_load; [exact SH1|exact I5|]. eapply wp_load; [exact SH1|exact I6|].
    cbn [wp]. apply K. exact G1.
  - unfold Crc.checkCRCDF17And18 in *. unfold checkCRCDF17And18, load. cbn [Memory.bind].
    ok_idx N l 1 d1 I1. ok_idx N l 2 d2 I2. ok_idx N l 3 d3 I3.
    eapply wp_load; [exact SH|exact I1|]. eapply wp_load; [exact SH|exact I2|]. eapply wp_load; [exact SH|exact I3|].
    destruct (GoBase.slice l 0 11) as [bo|e|] eqn:B; cbn [GoBase.bind] in *; [|exfalso; exact (slice_not_err _ _ _ _ _ B)|contradiction N; reflexivity].
    eapply wp_cut; [exact SH|exact B|]. intros s' _ _ SH'.
    destruct (Crc.computeParity bo) as [cp|e|] eqn:P; cbn [GoBase.bind] in *; [|exfalso; exact (parity_not_err _ _ P)|contradiction N; reflexivity].
    apply wp_bind. eapply gives_parity; try eassumption. intros o1 G1.
    ok_idx N l 11 d11 I11. ok_idx N l 12 d12 I12. ok_idx N l 13 d13 I13.
    pose proof (shows_grows _ _ _ _ _ G1 SH) as SH1.
    eapply wp_load; [exact SH1|exact I11|]. eapply wp_load; [exact SH1|exact I12|]. eapply wp_load; [exact SH1|exact I13|].
    cbn [wp]. apply K. exact G1.
  - unfold Crc.checkCRCOther in *. unfold checkCRCOther, load. cbn [Memory.bind]. rewrite (shows_len _ _ _ _ SH).
    destruct (GoBase.slice l 0 (len l - 3)) as [bo|e|] eqn:B; cbn [GoBase.bind] in *; [|exfalso; exact (slice_not_err _ _ _ _ _ B)|contradiction N; reflexivity].
    eapply wp_cut; [exact SH|exact B|]. intros s' _ _ SH'.
    destruct (Crc.computeParity bo) as [cp|e|] eqn:P; cbn [GoBase.bind] in *; [|exfalso; exact (parity_not_err _ _ P)|contradiction N; reflexivity].
    apply wp_bind. eapply gives_parity; try eassumption. intros o1 G1.
    ok_idx N l (len l - 3) p0 I0. ok_idx N l (len l - 2) p1 I1. ok_idx N l (len l - 1) p2 I2.
    pose proof (shows_grows _ _ _ _ _ G1 SH) as SH1.
    eapply wp_load; [exact SH1|exact I0|]. eapply wp_load; [exact SH1|exact I1|]. eapply wp_load; [exact SH1|exact I2|].
    cbn [wp]. apply K. exact G1.
Qed.

(* ---- ReadMessage ---- *)

(* the content of a message *)
Definition bodyOf (m : Crc.ModeSMessage) : list Z :=
  match m with
  | Crc.MDF16 m => modes_messages.MessageDF16_MessageACAS m
  | Crc.MDF17 m => modes_messages.MessageDF17_MessageExtendedSquitter m
  | Crc.MDF18 m => modes_messages.MessageDF18_MessageExtendedSquitter m
  | Crc.MDF20 m => modes_messages.MessageDF20_MessageCommB m
  | Crc.MDF21 m => modes_messages.MessageDF21_MessageCommB m
  | Crc.MDF24 m => modes_messages.MessageDF24_MessageCommD m
  | _ => []
  end.

(* the message comes from this data *)
Definition from (d : modes_common.MessageData) (m : Crc.ModeSMessage) : Prop :=
  withBytes (withBytes m [] [] []) (modes_common.MessageData_Payload d) (modes_common.MessageData_Parity d) (bodyOf m) = m /\
  match m with
  | Crc.MDF16 _ | Crc.MDF17 _ | Crc.MDF18 _ | Crc.MDF20 _ | Crc.MDF21 _ => modes_fields.ReadMessageCommB d = Ok (bodyOf m)
  | Crc.MDF24 _ => modes_fields.ReadMessageCommD d = Ok (bodyOf m)
  | _ => True
  end.

Ltac binds E := repeat (cbn [GoBase.bind] in E;
  match type of E with
  | (if ?b then _ else _) = Ok _ => destruct b; [try discriminate E|]
  | match ?r with _ => _ end = Ok _ => destruct r eqn:?; try discriminate E
  | (let* _ := ?r in _) = Ok _ => destruct r eqn:?; try discriminate E
  end).

Ltac from_tac d E f := unfold rmap in E; destruct (f d) as [m'|?|] eqn:P; try discriminate E; injection E as <-;
  unfold f in P; binds P; try discriminate P;
  repeat match type of P with context [let '(_, _) := ?x in _] => destruct x end;
  repeat match goal with x : (_ * _)%type |- _ => destruct x end;
  cbn [GoBase.bind] in P; binds P; injection P as <-; destruct d; split; [reflexivity|].

Lemma from_DF0 : forall d m, rmap Crc.MDF0 (modes_messages.ParseDF0 d) = Ok m -> from d m.
Proof. intros d m E. from_tac d E modes_messages.ParseDF0. exact I. Qed.
Lemma from_DF4 : forall d m, rmap Crc.MDF4 (modes_messages.ParseDF4 d) = Ok m -> from d m.
Proof. intros d m E. from_tac d E modes_messages.ParseDF4. exact I. Qed.
Lemma from_DF5 : forall d m, rmap Crc.MDF5 (modes_messages.ParseDF5 d) = Ok m -> from d m.
Proof. intros d m E. from_tac d E modes_messages.ParseDF5. exact I. Qed.
Lemma from_DF11 : forall d m, rmap Crc.MDF11 (modes_messages.ParseDF11 d) = Ok m -> from d m.
Proof. intros d m E. from_tac d E modes_messages.ParseDF11. exact I. Qed.
Lemma from_DF19 : forall d m, rmap Crc.MDF19 (modes_messages.ParseDF19 d) = Ok m -> from d m.
Proof. intros d m E. from_tac d E modes_messages.ParseDF19. exact I. Qed.
Lemma from_DF16 : forall d m, rmap Crc.MDF16 (modes_messages.ParseDF16 d) = Ok m -> from d m.
Proof. intros d m E. from_tac d E modes_messages.ParseDF16. assumption. Qed.
Lemma from_DF17 : forall d m, rmap Crc.MDF17 (modes_messages.ParseDF17 d) = Ok m -> from d m.
Proof. intros d m E. from_tac d E modes_messages.ParseDF17. assumption. Qed.
Lemma from_DF18 : forall d m, rmap Crc.MDF18 (modes_messages.ParseDF18 d) = Ok m -> from d m.
Proof. intros d m E. from_tac d E modes_messages.ParseDF18. assumption. Qed.
Lemma from_DF20 : forall d m, rmap Crc.MDF20 (modes_messages.ParseDF20 d) = Ok m -> from d m.
Proof. intros d m E. from_tac d E modes_messages.ParseDF20. assumption. Qed.
Lemma from_DF21 : forall d m, rmap Crc.MDF21 (modes_messages.ParseDF21 d) = Ok m -> from d m.
Proof. intros d m E. from_tac d E modes_messages.ParseDF21. assumption. Qed.
Lemma from_DF24 : forall d m, rmap Crc.MDF24 (modes_messages.ParseDF24 d) = Ok m -> from d m.
Proof. intros d m E. from_tac d E modes_messages.ParseDF24. assumption. Qed.

(* copying the content *)
Lemma wp_copy_B : forall R own pay d bo (Q : Memory.slice -> owned -> Prop),
  shows R own pay (modes_common.MessageData_Payload d) -> modes_fields.ReadMessageCommB d = Ok bo ->
  (forall s own', has R own own' s bo -> Q s own') -> wp R (copyBody 3 7 pay) own Q.
Proof.
  intros R own pay d bo Q SH E K. unfold modes_fields.ReadMessageCommB in E. unfold copyBody, make, load, store.
  set (p := modes_common.MessageData_Payload d) in *. clearbody p.
  change (i64 (0 + 3)) with (0 + 3) in E. change (i64 (1 + 3)) with (0 + 1 + 3) in E. change (i64 (2 + 3)) with (0 + 1 + 1 + 3) in E.
  change (i64 (3 + 3)) with (0 + 1 + 1 + 1 + 3) in E. change (i64 (4 + 3)) with (0 + 1 + 1 + 1 + 1 + 3) in E.
  change (i64 (5 + 3)) with (0 + 1 + 1 + 1 + 1 + 1 + 3) in E. change (i64 (6 + 3)) with (0 + 1 + 1 + 1 + 1 + 1 + 1 + 3) in E.
  binds E. injection E as <-. cbn [Memory.bind repeatFrom]. apply wp_make. intros s own1 H. cbn [List.repeat] in H.
  repeat match goal with
  | |- wp _ (Load pay _ _) _ _ => eapply wp_load; [eapply shows_grows; [eapply has_grows; exact H|exact SH]|eassumption|]
  | |- wp _ (Store s _ _ _) _ _ => own_store H
  end.
  cbn [wp]. apply K. exact H.
Qed.

Lemma wp_copy_D : forall R own pay d bo (Q : Memory.slice -> owned -> Prop),
  shows R own pay (modes_common.MessageData_Payload d) -> modes_fields.ReadMessageCommD d = Ok bo ->
  (forall s own', has R own own' s bo -> Q s own') -> wp R (copyBody 0 10 pay) own Q.
Proof.
  intros R own pay d bo Q SH E K. unfold modes_fields.ReadMessageCommD in E. unfold copyBody, make, load, store.
  set (p := modes_common.MessageData_Payload d) in *. clearbody p.
  binds E. injection E as <-. cbn [Memory.bind repeatFrom]. apply wp_make. intros s own1 H. cbn [List.repeat] in H.
  repeat match goal with
  | |- wp _ (Load pay _ _) _ _ => eapply wp_load; [eapply shows_grows; [eapply has_grows; exact H|exact SH]|eassumption|]
  | |- wp _ (Store s _ _ _) _ _ => own_store H
  end.
  cbn [wp]. apply K. exact H.
Qed.

(* what ReadMessage leaves: the slices of the message and what they show *)
Definition told (R : memory) (own' : owned) (s : Memory.slice) (pure : res Crc.ModeSMessage) (r : res stored) : Prop :=
  match pure with
  | Ok m => exists x p q b, r = Ok x /\
      payload x = mkSlice (array s) (start s + 1) (size s - 4) /\ parity x = mkSlice (array s) (start s + (size s - 3)) 3 /\
      shows R own' (payload x) p /\ shows R own' (parity x) q /\
      match body x with Some sb => has R nothing own' sb b | None => b = [] end /\
      withBytes (others x) p q b = m
  | Err e => r = Err e
  | Panic => False
  end.

Lemma wp_parse : forall R data df ff pay par p q f (Q : res stored -> owned -> Prop),
  pay = mkSlice (array data) (start data + 1) (size data - 4) -> par = mkSlice (array data) (start data + (size data - 3)) 3 ->
  shows R nothing pay p -> shows R nothing par q ->
  let d := modes_common.mkMessageData df ff p q in
  f d <> Panic -> (forall m, f d = Ok m -> from d m) ->
  (forall r own', told R own' data (f d) r -> Q r own') -> wp R (parse df ff pay par f) nothing Q.
Proof.
  intros R data df ff pay par p q f Q A1 A2 S1 S2 d N F K. unfold parse.
  apply wp_bind. apply (gives_bytes R nothing pay p S1). intros o1 G1.
  apply wp_bind. apply (gives_bytes R o1 par q (shows_grows _ _ _ _ _ G1 S2)). intros o2 G2.
  pose proof (shows_grows _ _ _ _ _ G2 (shows_grows _ _ _ _ _ G1 S1)) as T1.
  pose proof (shows_grows _ _ _ _ _ G2 (shows_grows _ _ _ _ _ G1 S2)) as T2.
  change (modes_common.mkMessageData df ff p q) with d.
  destruct (f d) as [m|e|] eqn:E; [|cbn; apply K; reflexivity|contradiction N; reflexivity].
  destruct (F m eq_refl) as [W B].
  assert (DONE : forall o sb b, grows o2 o -> match sb with Some s => has R o2 o s b | None => b = [] end -> b = bodyOf m ->
    Q (Ok (mkStored (withBytes m [] [] []) pay par sb)) o).
  { intros o sb b G H BE. apply K. exists (mkStored (withBytes m [] [] []) pay par sb), p, q, b. cbn [payload parity body others].
    split; [reflexivity|]. split; [exact A1|]. split; [exact A2|].
    split; [exact (shows_grows _ _ _ _ _ G T1)|]. split; [exact (shows_grows _ _ _ _ _ G T2)|].
    split; [|subst b; exact W]. destruct sb as [sb|]; [|exact H].
    destruct H as (_ & H2 & _ & H4). split; [intros a l C; discriminate C|]. split; [exact H2|]. split; [reflexivity|exact H4]. }
  apply wp_bind. unfold readBody.
  destruct m; cbn [wp Memory.bind]; try (apply (DONE o2 None []); [apply grows_refl|reflexivity|reflexivity]);
    apply wp_bind; [eapply (wp_copy_B R o2 pay d); [exact T1|exact B|] ..|eapply (wp_copy_D R o2 pay d); [exact T1|exact B|]];
    intros s own' H; cbn [wp Memory.bind]; (eapply (DONE own' (Some s)); [eapply has_grows; exact H|exact H|reflexivity]).
Qed.

Lemma wp_read : forall R s l (Q : res stored -> owned -> Prop),
  shows R nothing s l -> ModesReader.ReadMessage l <> Panic ->
  (forall r own', told R own' s (ModesReader.ReadMessage l) r -> Q r own') -> wp R (ReadMessage s) nothing Q.
Proof.
  intros R s l Q SH N K. unfold ReadMessage. unfold ModesReader.ReadMessage in *. rewrite (shows_len _ _ _ _ SH).
  destruct (negb (len l =? 7) && negb (len l =? 14)) eqn:SZ; [cbn; apply K; reflexivity|].
  destruct (idx l 0) as [m0|e|] eqn:I0; cbn [GoBase.bind] in *; [|exfalso; exact (idx_not_err _ _ _ _ I0)|contradiction N; reflexivity].
  unfold load. cbn [Memory.bind]. eapply wp_load; [exact SH|exact I0|].
  destruct (GoBase.slice l 1 (len l - 3)) as [p|e|] eqn:B1; cbn [GoBase.bind] in *; [|exfalso; exact (slice_not_err _ _ _ _ _ B1)|contradiction N; reflexivity].
  eapply wp_cut; [exact SH|exact B1|]. intros pay _ A1 S1.
  destruct (GoBase.slice l (len l - 3) (len l)) as [q|e|] eqn:B2; cbn [GoBase.bind] in *; [|exfalso; exact (slice_not_err _ _ _ _ _ B2)|contradiction N; reflexivity].
  eapply wp_cut; [exact SH|exact B2|]. intros par _ A2 S2.
  assert (SZ' : 7 <= len l) by (destruct (Z.eqb_spec (len l) 7), (Z.eqb_spec (len l) 14); cbn in SZ; try discriminate; lia).
  assert (SS : size s = List.length l) by (destruct SH as (arr & _ & _ & X); symmetry; exact X).
  replace (Z.to_nat (len l - 3 - 1)) with (size s - 4)%nat in A1 by (unfold len in *; lia).
  change (Z.to_nat 1) with 1%nat in A1.
  replace (Z.to_nat (len l - 3)) with (size s - 3)%nat in A2 by (unfold len in *; lia).
  replace (Z.to_nat (len l - (len l - 3))) with 3%nat in A2 by lia.
  cbv zeta. set (df := Z.shiftr (Z.land m0 248) 3) in *. cbn [modes_common.MessageData_DownLinkFormat] in *.
  repeat match goal with |- wp _ (if ?b then _ else _) _ _ =>
    destruct b; [eapply wp_parse; [exact A1|exact A2|exact S1|exact S2|exact N| |exact K]|] end.
  - apply from_DF0.
  - apply from_DF4.
  - apply from_DF5.
  - apply from_DF11.
  - apply from_DF16.
  - apply from_DF17.
  - apply from_DF18.
  - apply from_DF19.
  - apply from_DF20.
  - apply from_DF21.
  - apply from_DF24.
  - cbn. apply K. reflexivity.
Qed.

(* ---- the identification ---- *)
Lemma gives_identification : forall R own data d0 d1 d2 d3 d4 d5 d6 x0 x1 x2 x3 x4 x5 x6 x7,
  nth_error R 1 = Some bds_encoding.IdentificationCharacterCoding ->
  shows R own data [d0; d1; d2; d3; d4; d5; d6] ->
  idx bds_encoding.IdentificationCharacterCoding (Z.shiftr (Z.land d1 0xfc) 2) = Ok x0 ->
  idx bds_encoding.IdentificationCharacterCoding (u8 ((u8 (Z.shiftl (Z.land d1 3) 4)) + (Z.shiftr (Z.land d2 0xf0) 4))) = Ok x1 ->
  idx bds_encoding.IdentificationCharacterCoding (u8 ((u8 (Z.shiftl (Z.land d2 0xf) 2)) + (Z.shiftr (Z.land d3 0xc0) 6))) = Ok x2 ->
  idx bds_encoding.IdentificationCharacterCoding (Z.land d3 0x3f) = Ok x3 ->
  idx bds_encoding.IdentificationCharacterCoding (Z.shiftr (Z.land d4 0xfc) 2) = Ok x4 ->
  idx bds_encoding.IdentificationCharacterCoding (u8 ((u8 (Z.shiftl (Z.land d4 3) 4)) + (Z.shiftr (Z.land d5 0xf0) 4))) = Ok x5 ->
  idx bds_encoding.IdentificationCharacterCoding (u8 ((u8 (Z.shiftl (Z.land d5 0xf) 2)) + (Z.shiftr (Z.land d6 0xc0) 6))) = Ok x6 ->
  idx bds_encoding.IdentificationCharacterCoding (Z.land d6 0x3f) = Ok x7 ->
  gives R own (readIdentification data) (string_of_bytes [x0; x1; x2; x3; x4; x5; x6; x7]).
Proof.
  intros R own data d0 d1 d2 d3 d4 d5 d6 x0 x1 x2 x3 x4 x5 x6 x7 RC SH E0 E1 E2 E3 E4 E5 E6 E7 Q K.
  unfold readIdentification, make, load, store. cbn [Memory.bind].
  apply wp_make. intros codes own1 H. cbn [List.repeat] in H.
  repeat match goal with
  | |- wp _ (Load data _ _) _ _ => eapply wp_load; [eapply shows_grows; [eapply has_grows; exact H|exact SH]|reflexivity|]
  | |- wp _ (Store codes _ _ _) _ _ => own_store H
  end.
  pose proof (has_grows _ _ _ _ _ H) as G1. pose proof (has_shows _ _ _ _ _ H) as SC. clear H.
  match type of SC with shows _ ?o _ _ => generalize dependent o end. intros oA G2 SC.
  apply wp_make. intros chars oB H. cbn [List.repeat] in H. cbn [repeatFrom Memory.bind].
  change (0 + 1) with 1. change (1 + 1) with 2. change (2 + 1) with 3. change (3 + 1) with 4. change (4 + 1) with 5. change (5 + 1) with 6. change (6 + 1) with 7.
  repeat (eapply wp_load; [eapply shows_grows; [eapply has_grows; exact H|exact SC]|reflexivity|];
          eapply wp_load; [apply shows_coding; exact RC|eassumption|]; own_store H).
  apply wp_bind. apply (gives_bytes _ _ _ _ (has_shows _ _ _ _ _ H)). intros o4 G4. cbn [wp]. apply K.
  eapply grows_trans; [exact G2|]. eapply grows_trans; [eapply has_grows; exact H|exact G4].
Qed.

Lemma seven : forall l : list Z, negb (len l =? 7) = false ->
  exists d0 d1 d2 d3 d4 d5 d6, l = [d0; d1; d2; d3; d4; d5; d6].
Proof.
  intros l H. apply Bool.negb_false_iff, Z.eqb_eq in H. unfold len in H.
  destruct l as [|d0 [|d1 [|d2 [|d3 [|d4 [|d5 [|d6 [|d7 l]]]]]]]]; cbn [List.length] in H; try lia.
  exists d0, d1, d2, d3, d4, d5, d6. reflexivity.
Qed.

(* the next character of the model *)
Ltac next_char N x I :=
  match type of N with context [GoBase.bind (idx bds_encoding.IdentificationCharacterCoding ?c) _] =>
    destruct (idx bds_encoding.IdentificationCharacterCoding c) as [x|?|] eqn:I; cbn [GoBase.bind] in N |- *;
    [|exfalso; exact (idx_not_err _ _ _ _ I)|contradiction N; reflexivity]
  end.

Lemma gives_20 : forall R own data l, nth_error R 1 = Some bds_encoding.IdentificationCharacterCoding ->
  shows R own data l -> bds20.ReadAircraftIdentification l <> Panic ->
  gives R own (readBDS20 data) (bds20.ReadAircraftIdentification l).
Proof.
  intros R own data l RC SH N. unfold readBDS20. unfold bds20.ReadAircraftIdentification in *. rewrite (shows_len _ _ _ _ SH).
  destruct (negb (len l =? 7)) eqn:L; [apply gives_ret|].
  destruct (seven l L) as (d0 & d1 & d2 & d3 & d4 & d5 & d6 & ->). clear L.
  change (idx [d0; d1; d2; d3; d4; d5; d6] 0) with (@Ok Z d0) in *. change (idx [d0; d1; d2; d3; d4; d5; d6] 1) with (@Ok Z d1) in *.
  change (idx [d0; d1; d2; d3; d4; d5; d6] 2) with (@Ok Z d2) in *. change (idx [d0; d1; d2; d3; d4; d5; d6] 3) with (@Ok Z d3) in *.
  change (idx [d0; d1; d2; d3; d4; d5; d6] 4) with (@Ok Z d4) in *. change (idx [d0; d1; d2; d3; d4; d5; d6] 5) with (@Ok Z d5) in *.
  change (idx [d0; d1; d2; d3; d4; d5; d6] 6) with (@Ok Z d6) in *. cbn [GoBase.bind] in *.
  eapply gives_bind; [eapply gives_load; [exact SH|reflexivity]|]. intros o1 G1.
  destruct (negb (d0 =? 32)); [apply gives_ret|].
  next_char N x0 I0. next_char N x1 I1. next_char N x2 I2. next_char N x3 I3.
  next_char N x4 I4. next_char N x5 I5. next_char N x6 I6. next_char N x7 I7.
  eapply gives_bind; [eapply gives_identification; [exact RC|exact (shows_grows _ _ _ _ _ G1 SH)|exact I0|exact I1|exact I2|exact I3|exact I4|exact I5|exact I6|exact I7]|].
  intros o2 G2. apply gives_ret.
Qed.

Lemma gives_08 : forall R own data l, nth_error R 1 = Some bds_encoding.IdentificationCharacterCoding ->
  shows R own data l -> bds08.ReadAircraftIdentificationAndCategory l <> Panic ->
  gives R own (readBDS08 data) (bds08.ReadAircraftIdentificationAndCategory l).
Proof.
  intros R own data l RC SH N. unfold readBDS08. unfold bds08.ReadAircraftIdentificationAndCategory in *. rewrite (shows_len _ _ _ _ SH).
  destruct (negb (len l =? 7)) eqn:L; [apply gives_ret|].
  destruct (seven l L) as (d0 & d1 & d2 & d3 & d4 & d5 & d6 & ->). clear L.
  change (idx [d0; d1; d2; d3; d4; d5; d6] 0) with (@Ok Z d0) in *. change (idx [d0; d1; d2; d3; d4; d5; d6] 1) with (@Ok Z d1) in *.
  change (idx [d0; d1; d2; d3; d4; d5; d6] 2) with (@Ok Z d2) in *. change (idx [d0; d1; d2; d3; d4; d5; d6] 3) with (@Ok Z d3) in *.
  change (idx [d0; d1; d2; d3; d4; d5; d6] 4) with (@Ok Z d4) in *. change (idx [d0; d1; d2; d3; d4; d5; d6] 5) with (@Ok Z d5) in *.
  change (idx [d0; d1; d2; d3; d4; d5; d6] 6) with (@Ok Z d6) in *. cbn [GoBase.bind] in *.
  eapply gives_bind; [eapply gives_load; [exact SH|reflexivity]|]. intros o1 G1. cbv zeta in *.
  set (ftc := Z.shiftr (Z.land d0 248) 3) in *. clearbody ftc.
  destruct ((ftc <? 1) || (ftc >? 4)); [apply gives_ret|].
  next_char N x0 I0. next_char N x1 I1. next_char N x2 I2. next_char N x3 I3.
  next_char N x4 I4. next_char N x5 I5. next_char N x6 I6. next_char N x7 I7.
  eapply gives_bind; [eapply gives_load; [exact (shows_grows _ _ _ _ _ G1 SH)|reflexivity]|]. intros o2 G2.
  eapply gives_bind; [eapply gives_identification; [exact RC|exact (shows_grows _ _ _ _ _ (grows_trans _ _ _ G1 G2) SH)|exact I0|exact I1|exact I2|exact I3|exact I4|exact I5|exact I6|exact I7]|].
  intros o3 G3. apply gives_ret.
Qed.

(* a slice with these bytes *)
Lemma wp_literal7 : forall R own a b c d e f g (Q : Memory.slice -> owned -> Prop),
  (forall s own', has R own own' s [a; b; c; d; e; f; g] -> Q s own') -> wp R (literal [a; b; c; d; e; f; g]) own Q.
Proof.
  intros R own a b c d e f g Q K. unfold literal, make, store. cbn [List.length Memory.bind]. apply wp_make. intros s own1 H.
  cbn [List.repeat] in H. unfold literalFrom, store. cbn [Memory.bind].
  repeat (match goal with |- wp _ (Store s _ _ _) _ _ => own_store H end). cbn [wp]. apply K. exact H.
Qed.

Lemma gives_no_position : forall R own v data l, shows R own data l ->
  adsb_no_position_information.ReadNoPositionInformation v l <> Panic ->
  gives R own (readNoPositionInformation v data) (adsb_no_position_information.ReadNoPositionInformation v l).
Proof.
  intros R own v data l SH N Q K. unfold readNoPositionInformation, load. cbn [Memory.bind].
  unfold adsb_no_position_information.ReadNoPositionInformation in *.
  ok_idx N l 1 d1 I1. ok_idx N l 2 d2 I2.
  eapply wp_load; [exact SH|exact I1|]. eapply wp_load; [exact SH|exact I2|].
  apply wp_bind. apply wp_literal7. intros s o1 H.
  assert (NB : bds05.ReadAirbornePosition [120; d1; d2; 0; 0; 0; 0] <> Panic)
    by (intros C; rewrite C in N; contradiction N; reflexivity).
  apply (gives_pmap _ _ R o1 _ _ _ (gives_reading _ R o1 _ _ _ (has_shows _ _ _ _ _ H) NB) NB).
  intros o2 G2. pose proof (grows_trans _ _ _ (has_grows _ _ _ _ _ H) G2) as G.
  specialize (K o2 G). cbn [GoBase.bind] in K. unfold rmap. cbv zeta in *.
  destruct (bds05.ReadAirbornePosition [120; d1; d2; 0; 0; 0; 0]); exact K.
Qed.

Lemma gives_type0 : forall R own v data l, shows R own data l ->
  adsb_airborne_position.ReadAirbornePositionType0 v l <> Panic ->
  gives R own (readAirbornePositionType0 v data) (adsb_airborne_position.ReadAirbornePositionType0 v l).
Proof.
  intros R own v data l SH N Q K. unfold readAirbornePositionType0, load. cbn [Memory.bind].
  unfold adsb_airborne_position.ReadAirbornePositionType0 in *.
  ok_idx N l 1 d1 I1. ok_idx N l 2 d2 I2. ok_idx N l 3 d3 I3. ok_idx N l 4 d4 I4. ok_idx N l 5 d5 I5. ok_idx N l 6 d6 I6.
  eapply wp_load; [exact SH|exact I1|]. eapply wp_load; [exact SH|exact I2|].
  eapply wp_load; [exact SH|exact I3|]. eapply wp_load; [exact SH|exact I4|].
  eapply wp_load; [exact SH|exact I5|]. eapply wp_load; [exact SH|exact I6|].
  apply wp_bind. apply wp_literal7. intros s o1 H.
  assert (NB : bds05.ReadAirbornePosition [176; d1; d2; d3; d4; d5; d6] <> Panic)
    by (intros C; rewrite C in N; contradiction N; reflexivity).
  apply (gives_pmap _ _ R o1 _ _ _ (gives_reading _ R o1 _ _ _ (has_shows _ _ _ _ _ H) NB) NB).
  intros o2 G2. pose proof (grows_trans _ _ _ (has_grows _ _ _ _ _ H) G2) as G.
  specialize (K o2 G). cbn [GoBase.bind] in K. unfold rmap. cbv zeta in *.
  destruct (bds05.ReadAirbornePosition [176; d1; d2; d3; d4; d5; d6]); exact K.
Qed.

Lemma rmap_panic : forall A B (f : A -> B) r, rmap f r <> Panic -> r <> Panic.
Proof. intros A B f [a|e|] H C; [discriminate|discriminate|apply H; reflexivity]. Qed.

Lemma gives_adsb : forall R own v a c data l, nth_error R 1 = Some bds_encoding.IdentificationCharacterCoding ->
  shows R own data l -> AdsbReader.ReadADSBMessage v a c l <> Panic ->
  gives R own (ReadADSBMessage v a c data) (AdsbReader.ReadADSBMessage v a c l).
Proof.
  intros R own v a c data l RC SH N. unfold ReadADSBMessage. rewrite (shows_len _ _ _ _ SH).
  assert (READ : forall o, grows own o -> gives R o (reading (AdsbReader.ReadADSBMessage v a c) data) (AdsbReader.ReadADSBMessage v a c l))
    by (intros o G; apply gives_reading; [exact (shows_grows _ _ _ _ _ G SH)|exact N]).
  unfold AdsbReader.ReadADSBMessage in N. unfold AdsbReader.ReadADSBMessage at 2.
  destruct (negb (len l =? 7)) eqn:L; [apply gives_ret|].
  destruct (idx l 0) as [d0|e|] eqn:I0; cbn [GoBase.bind] in *; [|exfalso; exact (idx_not_err _ _ _ _ I0)|contradiction N; reflexivity].
  eapply gives_bind; [eapply gives_load; [exact SH|exact I0]|]. intros o1 G1. cbv zeta in *.
  pose proof (shows_grows _ _ _ _ _ G1 SH) as SH1.
  specialize (READ o1 G1).
  unfold AdsbReader.ReadADSBMessage at 2 in READ. rewrite L, I0 in READ. cbn [GoBase.bind] in READ. cbv zeta in READ.
  set (ftc := Z.shiftr (Z.land d0 248) 3) in *. clearbody ftc.
  destruct (ftc =? 0) eqn:F0.
  - clear READ. intros Q K. unfold load. cbn [Memory.bind].
    ok_idx N l 2 d2 I2. ok_idx N l 3 d3 I3. ok_idx N l 4 d4 I4. ok_idx N l 5 d5 I5. ok_idx N l 6 d6 I6.
    cbn [GoBase.bind] in K.
    eapply wp_load; [exact SH1|exact I2|]. eapply wp_load; [exact SH1|exact I3|]. eapply wp_load; [exact SH1|exact I4|].
    eapply wp_load; [exact SH1|exact I5|]. eapply wp_load; [exact SH1|exact I6|].
    destruct ((Z.land d2 15 =? 0) && (d3 =? 0) && (d4 =? 0) && (d5 =? 0) && (d6 =? 0)).
    + apply rmap_panic in N. apply (gives_pmap _ _ R o1 _ _ _ (gives_no_position R o1 v data l SH1 N) N). exact K.
    + apply rmap_panic in N. apply (gives_pmap _ _ R o1 _ _ _ (gives_type0 R o1 v data l SH1 N) N). exact K.
  - replace ((ftc =? 1) || (ftc =? 2) || (ftc =? 3) || (ftc =? 4)) with ((1 <=? ftc) && (ftc <=? 4)) in *
      by (destruct (Z.eqb_spec ftc 1), (Z.eqb_spec ftc 2), (Z.eqb_spec ftc 3), (Z.eqb_spec ftc 4), (Z.leb_spec 1 ftc), (Z.leb_spec ftc 4); cbn; try reflexivity; lia).
    destruct ((1 <=? ftc) && (ftc <=? 4)); [|exact READ].
    apply rmap_panic in N. apply gives_pmap; [|exact N]. unfold readIdentificationAndCategory.
    unfold adsb_aircraft_identification_and_category.ReadAircraftIdentificationAndCategory in *.
    assert (NB : bds08.ReadAircraftIdentificationAndCategory l <> Panic)
      by (intros C; rewrite C in N; contradiction N; reflexivity).
    intros Q K. apply (gives_pmap _ _ R o1 _ _ _ (gives_08 R o1 data l RC SH1 NB) NB). intros o2 G2. specialize (K o2 G2).
    unfold rmap. destruct (bds08.ReadAircraftIdentificationAndCategory l); exact K.
Qed.

Lemma gives_tryAppend : forall A R own (inj : A -> CommbReader.Message) p r ms ms', gives R own p r ->
  CommbReader.tryAppend inj r ms = Ok ms' -> gives R own (tryAppend inj p ms) ms'.
Proof.
  intros A R own inj p r ms ms' P E. unfold tryAppend. eapply gives_bind; [exact P|]. intros o1 G1.
  unfold CommbReader.tryAppend in E. destruct r as [m|e|]; injection E as <- || discriminate E; apply gives_ret.
Qed.

Lemma gives_exclusively : forall A R own (inj : A -> CommbReader.Message) p r k kk, (r <> Panic -> gives R own p r) ->
  CommbReader.exclusively inj r kk <> Panic -> (kk <> Panic -> forall o, grows own o -> gives R o k kk) ->
  gives R own (exclusively inj p k) (CommbReader.exclusively inj r kk).
Proof.
  intros A R own inj p r k kk P N K. unfold exclusively. unfold CommbReader.exclusively in *.
  destruct r as [m|e|]; [| |contradiction N; reflexivity].
  - eapply gives_bind; [apply P; discriminate|]. intros o1 G1. cbv beta iota.
    destruct (CommbReader.Message_CheckCoherency (inj m)); [apply gives_ret|apply K; assumption|contradiction N; reflexivity].
  - eapply gives_bind; [apply P; discriminate|]. intros o1 G1. apply K; assumption.
Qed.

Lemma tryAppend_ok : forall A (inj : A -> CommbReader.Message) r ms (k : list CommbReader.Message -> res (list CommbReader.Message)),
  GoBase.bind (CommbReader.tryAppend inj r ms) k <> Panic ->
  exists ms', CommbReader.tryAppend inj r ms = Ok ms' /\ r <> Panic /\ k ms' <> Panic.
Proof.
  intros A inj r ms k N. unfold CommbReader.tryAppend in *.
  destruct r as [m|e|]; cbn [GoBase.bind] in N; [| |contradiction N; reflexivity]; eexists; (split; [reflexivity|split; [discriminate|exact N]]).
Qed.

Lemma gives_append : forall A R own (inj : A -> CommbReader.Message) f s l ms (k : list CommbReader.Message -> prog (res (list CommbReader.Message))) (kk : list CommbReader.Message -> res (list CommbReader.Message)),
  shows R own s l ->
  GoBase.bind (CommbReader.tryAppend inj (f l) ms) kk <> Panic ->
  (forall ms' o, grows own o -> kk ms' <> Panic -> gives R o (k ms') (kk ms')) ->
  gives R own (Memory.bind (tryAppend inj (reading f s) ms) k) (GoBase.bind (CommbReader.tryAppend inj (f l) ms) kk).
Proof.
  intros A R own inj f s l ms k kk SH N K. destruct (tryAppend_ok _ _ _ _ _ N) as (ms' & E & NP & NK).
  eapply gives_bind; [eapply gives_tryAppend; [apply gives_reading; [exact SH|exact NP]|exact E]|].
  intros o G. rewrite E. cbn [GoBase.bind]. apply K; assumption.
Qed.

Lemma gives_commb : forall R own data l, nth_error R 1 = Some bds_encoding.IdentificationCharacterCoding ->
  shows R own data l -> CommbReader.ReadCommBMessage l <> Panic ->
  gives R own (ReadCommBMessage data) (CommbReader.ReadCommBMessage l).
Proof.
  intros R own data l RC SH N. unfold ReadCommBMessage. unfold CommbReader.ReadCommBMessage in *. rewrite (shows_len _ _ _ _ SH).
  destruct (negb (len l =? 7)); [apply gives_ret|].
  assert (N0 : bds00.ReadNoMessageAvailable l <> Panic) by (intros C; rewrite C in N; contradiction N; reflexivity).
  eapply gives_bind; [apply gives_reading; [exact SH|exact N0]|]. intros o1 G1. pose proof (shows_grows _ _ _ _ _ G1 SH) as S1. cbv beta.
  destruct (bds00.ReadNoMessageAvailable l) as [m|e|]; [apply gives_ret| |contradiction N; reflexivity]. clear N0 SH G1 own.
  apply gives_exclusively; [intros NN; apply gives_reading; assumption|exact N|].
  clear N. intros N o2 G2. pose proof (shows_grows _ _ _ _ _ G2 S1) as S2. clear S1 G2 o1.
  apply gives_exclusively; [intros NN; apply gives_20; assumption|exact N|].
  clear N. intros N o3 G3. pose proof (shows_grows _ _ _ _ _ G3 S2) as S3. clear S2 G3 o2. cbv zeta in *.
  Ltac go N S := apply gives_append; [exact S|exact N|]; clear N; let ms := fresh "ms" in let o := fresh "o" in let G := fresh "G" in
    intros ms o G N; pose proof (shows_grows _ _ _ _ _ G S) as S'; clear S; rename S' into S.
  do 8 (go N S3). apply gives_returns. exact N.
Qed.
