(* ReadCommBMessage (C35-C38). *)
From Verif.Proofs Require Import Tac AcasReader Octets Ident CommB1 CommB2 CommB3.
From Verif.Model Require Import CommbReader.
From Verif.Spec Require Import Floats CommB CommBMessages Identification.
From Verif.Gen Require bds_register bds00 bds07 bds10 bds17 bds20 bds30 bds40 bds44 bds45 bds50 bds60 acas_ra.
Local Open Scope Z_scope.

(* ---- no reader and no check panics ---- *)

Ltac no_panic :=
  repeat match goal with
  | |- context [if ?c then _ else _] =>
      lazymatch c with context [if _ then _ else _] => fail | _ => idtac end;
      destruct c; cbn [rmap bind]
  end; discriminate.

Lemma check_total : forall m, Message_CheckCoherency m <> Panic.
Proof.
  intros m. destruct m as [m|m|m|m|m|m|m|m|m|m|m]; cbn [Message_CheckCoherency].
  - discriminate.
  - unfold bds07.Status_CheckCoherency. no_panic.
  - unfold bds10.DataLinkCapabilityReport_CheckCoherency. no_panic.
  - discriminate.
  - unfold bds20.AircraftIdentification_CheckCoherency. no_panic.
  - discriminate.
  - unfold bds40.SelectedVerticalIntention_CheckCoherency. no_panic.
  - destruct m; cbn [bds44.IMeteorologicalRoutineAirReport_CheckCoherency];
      [unfold bds44.MeteorologicalRoutineAirReportV0_CheckCoherency
      |unfold bds44.MeteorologicalRoutineAirReportV1_CheckCoherency
      |unfold bds44.MeteorologicalRoutineAirReportV2_CheckCoherency]; no_panic.
  - destruct m; cbn [bds45.IMeteorologicalHazardReport_CheckCoherency];
      [unfold bds45.MeteorologicalHazardReportV0_CheckCoherency
      |unfold bds45.MeteorologicalHazardReportV1_CheckCoherency]; no_panic.
  - unfold bds50.TrackAndTurnReport_CheckCoherency. cbv zeta. no_panic.
  - unfold bds60.HeadingAndTrackReport_CheckCoherency. no_panic.
Qed.

Ltac read_total data Hl := split_list data Hl; gorun; no_panic.

Lemma read_bds00_total : forall data, len data = 7 -> bds00.ReadNoMessageAvailable data <> Panic.
Proof. intros data Hl. unfold bds00.ReadNoMessageAvailable. read_total data Hl. Qed.
Lemma read_bds07_total : forall data, len data = 7 -> bds07.ReadStatus data <> Panic.
Proof. intros data Hl. unfold bds07.ReadStatus. read_total data Hl. Qed.
Lemma read_bds10_total : forall data, len data = 7 -> bds10.ReadDataLinkCapabilityReport data <> Panic.
Proof. intros data Hl. unfold bds10.ReadDataLinkCapabilityReport. read_total data Hl. Qed.
Lemma read_bds17_total : forall data, len data = 7 -> bds17.ReadCommonUsageGICBCapabilityReport data <> Panic.
Proof. intros data Hl. unfold bds17.ReadCommonUsageGICBCapabilityReport. read_total data Hl. Qed.
Lemma read_bds20_total : forall data, bytes data -> len data = 7 -> bds20.ReadAircraftIdentification data <> Panic.
Proof.
  intros data Hb Hl. destruct (Z.eq_dec (bits 1 8 data) 32) as [E|E].
  - rewrite read_bds20 by assumption. discriminate.
  - destruct (read_bds20_other data Hb Hl E) as [e ->]. discriminate.
Qed.
Lemma read_bds30_total : forall data, bytes data -> len data = 7 -> bds30.ReadACASResolutionAdvisory data <> Panic.
Proof.
  intros data Hb Hl. unfold bds30.ReadACASResolutionAdvisory. rewrite (slice_tail7 data Hl).
  pose proof (read_ra_total (octets 2 7 data) (octets_bytes 2 7 data Hb)) as T.
  remember (octets 2 7 data) as sub. clear Heqsub. split_list data Hl. gostep.
  destruct (negb _); [discriminate|]. destruct (acas_ra.ReadResolutionAdvisory sub); congruence.
Qed.
Lemma read_bds40_total : forall data, len data = 7 -> bds40.ReadSelectedVerticalIntention data <> Panic.
Proof. intros data Hl. unfold bds40.ReadSelectedVerticalIntention. read_total data Hl. Qed.
Lemma read_bds44_total : forall data, bytes data -> len data = 7 -> bds44.ReadMeteorologicalRoutineAirReport data <> Panic.
Proof. intros data Hb Hl. rewrite read_bds44 by assumption. cbv zeta. no_panic. Qed.
Lemma read_bds45_total : forall data, len data = 7 -> bds45.ReadMeteorologicalHazardReport data <> Panic.
Proof.
  intros data Hl. unfold bds45.ReadMeteorologicalHazardReport.
  assert (T1 : bds45.ReadMeteorologicalHazardReportV1 data <> Panic).
  { unfold bds45.ReadMeteorologicalHazardReportV1. read_total data Hl. }
  assert (T0 : bds45.ReadMeteorologicalHazardReportV0 data <> Panic).
  { unfold bds45.ReadMeteorologicalHazardReportV0. read_total data Hl. }
  destruct (negb _); [discriminate|].
  destruct (bds45.ReadMeteorologicalHazardReportV1 data), (bds45.ReadMeteorologicalHazardReportV0 data); congruence.
Qed.

(* ---- the list of candidates ---- *)

(* the candidate of one register, if there is one *)
Definition one {A : Type} (inj : A -> Message) (r : res A) : list Message :=
  match r with
  | Ok m => match Message_CheckCoherency (inj m) with Ok _ => [inj m] | _ => [] end
  | _ => []
  end.

Lemma keepCoherent_app : forall l l' m, keepCoherent l = Ok l' ->
  keepCoherent (l ++ [m]) = Ok (l' ++ match Message_CheckCoherency m with Ok _ => [m] | _ => [] end).
Proof.
  induction l as [|x l IH]; intros l' m H; cbn [app keepCoherent] in *.
  - injection H as <-. pose proof (check_total m). destruct (Message_CheckCoherency m); [reflexivity|reflexivity|congruence].
  - destruct (Message_CheckCoherency x); [|apply IH; exact H|discriminate].
    destruct (keepCoherent l) as [k|e|]; cbn [bind] in H; try discriminate. injection H as <-.
    rewrite (IH k m eq_refl). reflexivity.
Qed.

Lemma try_step : forall A (inj : A -> Message) r l l', r <> Panic -> keepCoherent l = Ok l' ->
  exists l2, tryAppend inj r l = Ok l2 /\ keepCoherent l2 = Ok (l' ++ one inj r).
Proof.
  intros A inj [m|e|] l l' N H; cbn [tryAppend one].
  - eexists. split; [reflexivity|]. apply keepCoherent_app. exact H.
  - eexists. split; [reflexivity|]. rewrite List.app_nil_r. exact H.
  - congruence.
Qed.

Definition candidates (data : list Z) : list Message :=
  one B10 (bds10.ReadDataLinkCapabilityReport data) ++
  one B17 (bds17.ReadCommonUsageGICBCapabilityReport data) ++
  one B30 (bds30.ReadACASResolutionAdvisory data) ++
  one B40 (bds40.ReadSelectedVerticalIntention data) ++
  one B44 (bds44.ReadMeteorologicalRoutineAirReport data) ++
  one B45 (bds45.ReadMeteorologicalHazardReport data) ++
  one B50 (bds50.ReadTrackAndTurnReport data) ++
  one B60 (bds60.ReadHeadingAndSpeedReport data).

Lemma exclusively_one : forall A (inj : A -> Message) r k, r <> Panic ->
  exclusively inj r k = match one inj r with [] => k | l => Ok l end.
Proof.
  intros A inj [m|e|] k N; cbn [exclusively one]; [|reflexivity|congruence].
  pose proof (check_total (inj m)). destruct (Message_CheckCoherency (inj m)); [reflexivity|reflexivity|congruence].
Qed.

Lemma read_commb : forall data, bytes data -> len data = 7 ->
  ReadCommBMessage data =
    match one B00 (bds00.ReadNoMessageAvailable data) with
    | [] => match one B07 (bds07.ReadStatus data) with
            | [] => match one B20 (bds20.ReadAircraftIdentification data) with
                    | [] => Ok (candidates data)
                    | l => Ok l
                    end
            | l => Ok l
            end
    | l => Ok l
    end.
Proof.
  intros data Hb Hl. unfold ReadCommBMessage. rewrite Hl. cbn [Z.eqb Pos.eqb negb].
  rewrite !exclusively_one by (apply read_bds07_total || apply read_bds20_total; assumption).
  pose proof (read_bds00_total data Hl) as T0.
  destruct (bds00.ReadNoMessageAvailable data) as [m0|e0|]; [reflexivity| |congruence]. cbn [one].
  destruct (one B07 _); [|reflexivity]. destruct (one B20 _); [|reflexivity].
  edestruct (try_step _ B10 (bds10.ReadDataLinkCapabilityReport data) [] []) as (l1 & -> & K1); [apply read_bds10_total; assumption|reflexivity|]. cbn [bind].
  edestruct (try_step _ B17 (bds17.ReadCommonUsageGICBCapabilityReport data)) as (l2 & -> & K2); [apply read_bds17_total; assumption|exact K1|]. cbn [bind].
  edestruct (try_step _ B30 (bds30.ReadACASResolutionAdvisory data)) as (l3 & -> & K3); [apply read_bds30_total; assumption|exact K2|]. cbn [bind].
  edestruct (try_step _ B40 (bds40.ReadSelectedVerticalIntention data)) as (l4 & -> & K4); [apply read_bds40_total; assumption|exact K3|]. cbn [bind].
  edestruct (try_step _ B44 (bds44.ReadMeteorologicalRoutineAirReport data)) as (l5 & -> & K5); [apply read_bds44_total; assumption|exact K4|]. cbn [bind].
  edestruct (try_step _ B45 (bds45.ReadMeteorologicalHazardReport data)) as (l6 & -> & K6); [apply read_bds45_total; assumption|exact K5|]. cbn [bind].
  edestruct (try_step _ B50 (bds50.ReadTrackAndTurnReport data)) as (l7 & -> & K7); [rewrite read_bds50 by assumption; discriminate|exact K6|]. cbn [bind].
  edestruct (try_step _ B60 (bds60.ReadHeadingAndSpeedReport data)) as (l8 & -> & K8); [rewrite read_bds60 by assumption; discriminate|exact K7|]. cbn [bind].
  rewrite K8. unfold candidates. rewrite <- !List.app_assoc. reflexivity.
Qed.

Lemma in_one : forall A (inj : A -> Message) (r : res A) m,
  List.In m (one inj r) <-> exists x, m = inj x /\ r = Ok x /\ coherent m.
Proof.
  intros A inj [y|e|] m; cbn [one].
  - unfold coherent. destruct (Message_CheckCoherency (inj y)) as [u|e|] eqn:E.
    + destruct u. cbn. split.
      * intros [<-|[]]. exists y. auto.
      * intros (x & -> & H & _). injection H as ->. auto.
    + split; [intros []|]. intros (x & -> & H & K). injection H as ->. congruence.
    + split; [intros []|]. intros (x & -> & H & K). injection H as ->. congruence.
  - split; [intros []|]. intros (x & _ & H & _). discriminate.
  - split; [intros []|]. intros (x & _ & H & _). discriminate.
Qed.

Lemma one_cases : forall A (inj : A -> Message) (r : res A),
  one inj r = [] \/ exists x, one inj r = [inj x] /\ r = Ok x /\ coherent (inj x).
Proof.
  intros A inj [y|e|]; cbn [one]; auto. unfold coherent.
  destruct (Message_CheckCoherency (inj y)) as [[]|e|] eqn:E; auto. right. exists y. auto.
Qed.

(* C35 *)
Theorem commb_total : forall data, bytes data ->
  ReadCommBMessage data <> Panic /\ ((exists e, ReadCommBMessage data = Err e) <-> len data <> 7).
Proof.
  intros data Hb. destruct (Z.eq_dec (len data) 7) as [Hl|Hl].
  - rewrite read_commb by assumption.
    destruct (one B00 _); [destruct (one B07 _); [destruct (one B20 _)|]|];
      (split; [discriminate|split; [intros [e H]; discriminate|congruence]]).
  - unfold ReadCommBMessage. replace (len data =? 7) with false by lia. cbn [negb].
    split; [discriminate|]. split; [auto|]. intros _. eexists; reflexivity.
Qed.

(* C36 *)
Theorem commb_sound : forall data l m, bytes data ->
  ReadCommBMessage data = Ok l -> List.In m l -> decodes data m /\ coherent m.
Proof.
  intros data l m Hb H Hin. destruct (Z.eq_dec (len data) 7) as [Hl|Hl];
    [|exfalso; apply (proj2 (commb_total data Hb)) in Hl; destruct Hl as [e E]; congruence].
  rewrite read_commb in H by assumption.
  destruct (one_cases _ B00 (bds00.ReadNoMessageAvailable data)) as [E|(x & E & R & C)]; rewrite E in H.
  2: { injection H as <-. destruct Hin as [<-|[]]. auto. }
  destruct (one_cases _ B07 (bds07.ReadStatus data)) as [E7|(x & E7 & R & C)]; rewrite E7 in H.
  2: { injection H as <-. destruct Hin as [<-|[]]. auto. }
  destruct (one_cases _ B20 (bds20.ReadAircraftIdentification data)) as [E2|(x & E2 & R & C)]; rewrite E2 in H.
  2: { injection H as <-. destruct Hin as [<-|[]]. auto. }
  injection H as <-. unfold candidates in Hin. rewrite !List.in_app_iff, !in_one in Hin.
  destruct Hin as [X|[X|[X|[X|[X|[X|[X|X]]]]]]]; destruct X as (x & -> & R & C); auto.
Qed.

(* C38 *)
Theorem commb_exclusive : forall data, bytes data -> len data = 7 ->
  (bits 1 56 data = 0 -> ReadCommBMessage data = Ok [B00 bds00.mkNoMessageAvailable]) /\
  (forall m, bits 1 56 data <> 0 -> decodes data (B07 m) -> coherent (B07 m) -> ReadCommBMessage data = Ok [B07 m]) /\
  (forall m, bits 1 56 data <> 0 -> (forall m', decodes data (B07 m') -> ~ coherent (B07 m')) ->
     decodes data (B20 m) -> coherent (B20 m) -> ReadCommBMessage data = Ok [B20 m]).
Proof.
  intros data Hb Hl. rewrite read_commb by assumption.
  assert (N : bits 1 56 data <> 0 -> one B00 (bds00.ReadNoMessageAvailable data) = []).
  { intros NZ. destruct (one_cases _ B00 (bds00.ReadNoMessageAvailable data)) as [E|(x & E & R & C)]; [exact E|].
    exfalso. apply NZ. apply read_bds00 in R; tauto. }
  split; [|split].
  - intros H. assert (R := proj2 (read_bds00 data _ Hb Hl) (conj H eq_refl)). rewrite R. reflexivity.
  - intros m NZ R C. rewrite (N NZ). cbn [decodes] in R. rewrite R. cbn [one]. rewrite C. reflexivity.
  - intros m NZ N7 R C. rewrite (N NZ).
    destruct (one_cases _ B07 (bds07.ReadStatus data)) as [E7|(x & E7 & R7 & C7)].
    + rewrite E7. cbn [decodes] in R. rewrite R. cbn [one]. rewrite C. reflexivity.
    + exfalso. exact (N7 x R7 C7).
Qed.

Lemma numbers_one : forall A (inj : A -> Message) r k, (forall x, number (inj x) = k) ->
  List.map number (one inj r) = [] \/ List.map number (one inj r) = [k].
Proof.
  intros A inj r k H. destruct (one_cases _ inj r) as [->|(x & -> & _)]; [left; reflexivity|right; cbn; rewrite H; reflexivity].
Qed.

Lemma candidates_increasing : forall data, increasing (candidates data).
Proof.
  intros data. unfold increasing, candidates. rewrite !List.map_app.
  destruct (numbers_one _ B10 (bds10.ReadDataLinkCapabilityReport data) 10 (fun _ => eq_refl)) as [-> | ->];
  destruct (numbers_one _ B17 (bds17.ReadCommonUsageGICBCapabilityReport data) 17 (fun _ => eq_refl)) as [-> | ->];
  destruct (numbers_one _ B30 (bds30.ReadACASResolutionAdvisory data) 30 (fun _ => eq_refl)) as [-> | ->];
  destruct (numbers_one _ B40 (bds40.ReadSelectedVerticalIntention data) 40 (fun _ => eq_refl)) as [-> | ->];
  destruct (numbers_one _ B44 (bds44.ReadMeteorologicalRoutineAirReport data) 44 (fun _ => eq_refl)) as [-> | ->];
  destruct (numbers_one _ B45 (bds45.ReadMeteorologicalHazardReport data) 45 (fun _ => eq_refl)) as [-> | ->];
  destruct (numbers_one _ B50 (bds50.ReadTrackAndTurnReport data) 50 (fun _ => eq_refl)) as [-> | ->];
  destruct (numbers_one _ B60 (bds60.ReadHeadingAndSpeedReport data) 60 (fun _ => eq_refl)) as [-> | ->];
  cbn [app]; repeat constructor.
Qed.

Lemma in_candidates : forall data m,
  List.In m (candidates data) <-> decodes data m /\ coherent m /\ ~ exclusive m.
Proof.
  intros data m. unfold candidates. rewrite !List.in_app_iff, !in_one. unfold exclusive. split.
  - intros [X|[X|[X|[X|[X|[X|[X|X]]]]]]]; destruct X as (x & -> & R & C); cbn [decodes number]; (split; [exact R|]); (split; [exact C|]); lia.
  - intros (R & C & N). destruct m as [m|m|m|m|m|m|m|m|m|m|m]; cbn [decodes number] in *; try (exfalso; lia).
    + left. eauto.
    + right; left. eauto.
    + right; right; left. eauto.
    + do 3 right. left. eauto.
    + do 4 right. left. eauto.
    + do 5 right. left. eauto.
    + do 6 right. left. eauto.
    + do 7 right. eauto.
Qed.

(* C37 *)
Theorem commb_complete : forall data, bytes data -> len data = 7 ->
  (forall m, exclusive m -> decodes data m -> ~ coherent m) ->
  exists l, ReadCommBMessage data = Ok l /\ increasing l /\
    forall m, List.In m l <-> decodes data m /\ coherent m.
Proof.
  intros data Hb Hl N. exists (candidates data). split; [|split; [apply candidates_increasing|]].
  - rewrite read_commb by assumption.
    destruct (one_cases _ B00 (bds00.ReadNoMessageAvailable data)) as [E|(x & E & R & C)];
      [rewrite E|exfalso; apply (N (B00 x)); auto; left; reflexivity].
    destruct (one_cases _ B07 (bds07.ReadStatus data)) as [E7|(x & E7 & R & C)];
      [rewrite E7|exfalso; apply (N (B07 x)); auto; right; left; reflexivity].
    destruct (one_cases _ B20 (bds20.ReadAircraftIdentification data)) as [E2|(x & E2 & R & C)];
      [rewrite E2|exfalso; apply (N (B20 x)); auto; right; right; reflexivity].
    reflexivity.
  - intros m. rewrite in_candidates. split; [tauto|]. intros [R C]. split; [exact R|]. split; [exact C|].
    intros X. exact (N m X R C).
Qed.

(* every list is increasing, whatever the register *)
Theorem commb_increasing : forall data l, bytes data -> ReadCommBMessage data = Ok l -> increasing l.
Proof.
  intros data l Hb H. destruct (Z.eq_dec (len data) 7) as [Hl|Hl];
    [|exfalso; apply (proj2 (commb_total data Hb)) in Hl; destruct Hl as [e E]; congruence].
  rewrite read_commb in H by assumption.
  destruct (one_cases _ B00 (bds00.ReadNoMessageAvailable data)) as [E|(x & E & R & C)]; rewrite E in H;
    [|injection H as <-; repeat constructor].
  destruct (one_cases _ B07 (bds07.ReadStatus data)) as [E7|(x & E7 & R & C)]; rewrite E7 in H;
    [|injection H as <-; repeat constructor].
  destruct (one_cases _ B20 (bds20.ReadAircraftIdentification data)) as [E2|(x & E2 & R & C)]; rewrite E2 in H;
    [|injection H as <-; repeat constructor].
  injection H as <-. apply candidates_increasing.
Qed.

(* ---- which registers are candidates, in terms of the bits ---- *)

Ltac coh_iff R C := split;
  [ intros (m & D & K); cbn [decodes] in D; unfold coherent in K; cbn [Message_CheckCoherency] in K;
    apply R in D; [|assumption|assumption]; destruct D as [D ->]; apply C in K; auto
  | let X := fresh in intros X; eexists; split; [cbn [decodes]; apply R; auto; split; [apply X|reflexivity]
    |unfold coherent; cbn [Message_CheckCoherency]; apply C; auto; apply X] ].

Lemma plausible_07 : forall data, bytes data -> len data = 7 ->
  ((exists m, decodes data (B07 m) /\ coherent (B07 m)) <-> (bits 4 6 data = 0 /\ bits 9 56 data = 0) /\ coherent_07 data).
Proof. intros data Hb Hl. coh_iff read_bds07 coherence_bds07. Qed.

Lemma plausible_20 : forall data, bytes data -> len data = 7 ->
  ((exists m, decodes data (B20 m) /\ coherent (B20 m)) <-> recognised_20 data /\ legal_characters data).
Proof. intros data Hb Hl. coh_iff read_bds20_iff coherence_bds20. Qed.

Lemma plausible_10 : forall data, bytes data -> len data = 7 ->
  ((exists m, decodes data (B10 m) /\ coherent (B10 m)) <-> recognised_10 data /\ coherent_10 data).
Proof. intros data Hb Hl. coh_iff read_bds10 coherence_bds10. Qed.

Lemma plausible_17 : forall data, bytes data -> len data = 7 ->
  ((exists m, decodes data (B17 m) /\ coherent (B17 m)) <-> recognised_17 data).
Proof.
  intros data Hb Hl. split.
  - intros (m & D & _). apply read_bds17 in D; tauto.
  - intros H. eexists. split; [cbn [decodes]; apply read_bds17; auto|reflexivity].
Qed.

Lemma plausible_30 : forall data, bytes data -> len data = 7 ->
  ((exists m, decodes data (B30 m) /\ coherent (B30 m)) <->
   recognised_30 data /\ exists ra, acas_ra.ReadResolutionAdvisory (octets 2 7 data) = Ok ra).
Proof.
  intros data Hb Hl. split.
  - intros (m & D & _). cbn [decodes] in D. apply read_bds30 in D; [|assumption|assumption]. destruct D as [R D]. eauto.
  - intros [R [ra D]]. exists {| bds30.ACASResolutionAdvisory_ResolutionAdvisory := ra |}. split; [|reflexivity].
    cbn [decodes]. apply read_bds30; auto.
Qed.

Lemma plausible_40 : forall data, bytes data -> len data = 7 ->
  ((exists m, decodes data (B40 m) /\ coherent (B40 m)) <-> recognised_40 data /\ accepted_40 data).
Proof. intros data Hb Hl. coh_iff read_bds40 coherence_bds40. Qed.

Lemma plausible_44 : forall data, bytes data -> len data = 7 ->
  ((exists m, decodes data (B44 m) /\ coherent (B44 m)) <-> bits 1 4 data <= 4 /\ accepted_44 data (bits 7 14 data)).
Proof.
  intros data Hb Hl. unfold decodes, coherent. cbn [Message_CheckCoherency]. rewrite read_bds44 by assumption. cbv zeta.
  bits_bound 1 4 data.
  split.
  - intros (m & D & K).
    destruct (bits 1 4 data =? 0) eqn:E0; [|destruct (bits 1 4 data <=? 4) eqn:E4; [|discriminate]];
      injection D as <-; cbn [bds44.IMeteorologicalRoutineAirReport_CheckCoherency] in K;
      (split; [lia|]; apply coherence_bds44 in K; auto; lia).
  - intros [S A].
    destruct (bits 1 4 data =? 0) eqn:E0; [|destruct (bits 1 4 data <=? 4) eqn:E4; [|lia]];
      (eexists; split; [reflexivity|]); cbn [bds44.IMeteorologicalRoutineAirReport_CheckCoherency];
      apply coherence_bds44; auto; lia.
Qed.

Lemma plausible_45 : forall data, bytes data -> len data = 7 ->
  ((exists m, decodes data (B45 m) /\ coherent (B45 m)) <-> bits 55 56 data = 0 /\ coherent_45 data).
Proof.
  intros data Hb Hl. unfold decodes, coherent. cbn [Message_CheckCoherency]. split.
  - intros (m & D & K). split; [apply hazard_report_recognised; eauto|]. apply (hazard_report data m) in D; tauto.
  - intros [Z C]. apply hazard_report_recognised in Z; [|assumption|assumption]. destruct Z as [m D]. exists m.
    split; [exact D|]. apply (hazard_report data m) in D; tauto.
Qed.

Lemma plausible_50 : forall data, bytes data -> len data = 7 ->
  ((exists m, decodes data (B50 m) /\ coherent (B50 m)) <-> coherent_50 data).
Proof.
  intros data Hb Hl. unfold decodes, coherent. cbn [Message_CheckCoherency].
  destruct (track_and_turn_report data Hb Hl) as (m & R & _ & C & _). split.
  - intros (m' & D & K). apply C. congruence.
  - intros H. exists m. tauto.
Qed.

Lemma plausible_60 : forall data, bytes data -> len data = 7 ->
  ((exists m, decodes data (B60 m) /\ coherent (B60 m)) <-> coherent_60 data).
Proof.
  intros data Hb Hl. unfold decodes, coherent. cbn [Message_CheckCoherency].
  destruct (heading_and_speed_report data Hb Hl) as (m & R & _ & C & _). split.
  - intros (m' & D & K). apply C. congruence.
  - intros H. exists m. tauto.
Qed.

(* C37, on the bits *)
Theorem commb_registers : forall data, bytes data -> len data = 7 ->
  bits 1 56 data <> 0 ->
  ~ ((bits 4 6 data = 0 /\ bits 9 56 data = 0) /\ coherent_07 data) ->
  ~ (recognised_20 data /\ legal_characters data) ->
  exists l, ReadCommBMessage data = Ok l /\ forall k, has k l <-> plausible k data.
Proof.
  intros data Hb Hl N0 N7 N20.
  destruct (commb_complete data Hb Hl) as (l & R & _ & I).
  { intros m X D C. destruct m; unfold exclusive in X; cbn [number] in X; try lia.
    - apply N0. cbn [decodes] in D. apply read_bds00 in D; tauto.
    - apply N7. apply plausible_07; eauto.
    - apply N20. apply plausible_20; eauto. }
  exists l. split; [exact R|]. intros k. unfold has, plausible.
  rewrite <- plausible_10, <- plausible_17, <- plausible_30, <- plausible_40, <- plausible_44, <- plausible_45,
    <- plausible_50, <- plausible_60 by assumption.
  split.
  - intros (m & Hm & <-). apply I in Hm as [D C]. destruct m; cbn [number].
    + exfalso. apply N0. cbn [decodes] in D. apply read_bds00 in D; tauto.
    + exfalso. apply N7. apply plausible_07; eauto.
    + left. eauto.
    + right; left. eauto.
    + exfalso. apply N20. apply plausible_20; eauto.
    + do 2 right. left. eauto.
    + do 3 right. left. eauto.
    + do 4 right. left. eauto.
    + do 5 right. left. eauto.
    + do 6 right. left. eauto.
    + do 7 right. eauto.
  - intros [X|[X|[X|[X|[X|[X|[X|X]]]]]]]; destruct X as (-> & m & X); eexists; (split; [apply I; exact X|reflexivity]).
Qed.

(* the registers are the ones the messages carry *)
Theorem commb_register_ids : forall m, bds_register.Register_id (Message_GetRegister m) =
  match number m with
  | 0 => "BDS 0,0" | 7 => "BDS 0,7" | 10 => "BDS 1,0" | 17 => "BDS 1,7" | 20 => "BDS 2,0" | 30 => "BDS 3,0"
  | 40 => "BDS 4,0" | 44 => "BDS 4,4" | 45 => "BDS 4,5" | 50 => "BDS 5,0" | _ => "BDS 6,0" end%string.
Proof. intros [| | | | | | |m|m| |]; try reflexivity; destruct m; reflexivity. Qed.

(* one candidate, and three candidates for the same field *)
Example commb_one : exists data l, bytes data /\ len data = 7 /\ ReadCommBMessage data = Ok l /\ List.map number l = [50].
Proof.
  exists [129;149;21;54;224;36;212]. eexists. split; [repeat constructor; lia|]. split; [reflexivity|].
  split; [vm_compute; reflexivity|reflexivity].
Qed.
Example commb_ambiguous : exists data l, bytes data /\ len data = 7 /\ ReadCommBMessage data = Ok l /\ List.map number l = [17;40;50].
Proof.
  exists [249;54;48;0;0;0;0]. eexists. split; [repeat constructor; lia|]. split; [reflexivity|].
  split; [vm_compute; reflexivity|reflexivity].
Qed.
