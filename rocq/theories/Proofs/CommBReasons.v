(* Why a Comm-B register is not recognised, and why a report is not coherent (C75, C76). *)
From Verif.Proofs Require Import Tac Octets AcasReader Ident CommB1 CommB2 CommB3 FloatCompare Reasons.
From Verif.Gen Require Import bds00 bds07 bds10 bds17 bds20 bds30 bds40 bds44 bds45 bds50 bds60.
From Verif.Model Require Import CommbReader.
From Verif.Spec Require Import Floats Text Acas Identification Reasons CommBReasons.
Require Import String List.
Import ListNotations.
Local Open Scope Z_scope.

Lemma agrees_chk : forall A (t : bool) e (k : res A) (P : Prop) cs,
  (t = false <-> P) -> (P -> agrees k cs) -> agrees (if t then Err e else k) ((P, e) :: cs).
Proof.
  intros A t e k P cs H K. destruct t.
  - cbn. left. split; [|reflexivity]. intro p. apply H in p. discriminate.
  - assert (p : P) by (apply H; reflexivity). specialize (K p). destruct k as [x|e'|]; cbn in *.
    + constructor; assumption.
    + right. split; assumption.
    + exact K.
Qed.
Lemma agrees_skip : forall A (k : res A) (P : Prop) e cs, P -> agrees k cs -> agrees k ((P, e) :: cs).
Proof.
  intros A [x|e'|] P e cs p K; cbn in *; [constructor; assumption|right; split; assumption|exact K].
Qed.
Lemma agrees_done : forall A (x : A), agrees (Ok x) [].
Proof. intros. constructor. Qed.

(* the tests of the cascades *)
Lemma absent_zero : forall (s : bool) (z : Z), s && negb (z =? 0) = false <-> (s = true -> z = 0).
Proof. intros [] z; cbn; destruct (Z.eqb_spec z 0); cbn; intuition congruence. Qed.
Lemma not_given : forall (s : bool) (z : Z), negb s && negb (z =? 0) = false <-> (s = false -> z = 0).
Proof. intros [] z; cbn; destruct (Z.eqb_spec z 0); cbn; intuition congruence. Qed.
Lemma not_given_f : forall (s : bool) x, negb s && negb (fl_eqb x (f32_lit 0 1)) = false <-> (s = false -> is_zero x).
Proof.
  intros s x. rewrite <- zero_test. destruct s, (fl_eqb x (f32_lit 0 1)); cbn; intuition congruence.
Qed.
Lemma at_most : forall a b, (a >? b) = false <-> a <= b.
Proof. intros. rewrite Z.gtb_ltb, Z.ltb_ge. reflexivity. Qed.
Lemma less_than : forall a b, (a >=? b) = false <-> a <= b - 1.
Proof. intros. rewrite Z.geb_leb, Z.leb_gt. lia. Qed.
Lemma within_abs : forall a b, 0 <= b -> (a <? - b) || (a >? b) = false <-> Z.abs a <= b.
Proof. intros. rewrite Bool.orb_false_iff, at_most, Z.ltb_ge. lia. Qed.
Lemma not_true : forall b P, (b = true <-> P) -> (b = false <-> ~ P).
Proof. intros [] P H; intuition congruence. Qed.
Ltac literal := first [vm_compute; reflexivity | unfold float32; vm_compute; reflexivity].
Lemma temperature_test : forall t, float32 t ->
  (fl_ltb t (f32_lit (-80) 1) || fl_ltb (f32_lit 60 1) t) = false <-> temperate t.
Proof.
  intros t H. rewrite Bool.orb_false_iff. unfold temperate.
  rewrite (not_true _ _ (below_test t (-80) H ltac:(literal) ltac:(literal))).
  rewrite (not_true _ _ (above_test t 60 H ltac:(literal) ltac:(literal))). reflexivity.
Qed.
Lemma roll_test : forall t, float32 t ->
  (fl_ltb (f32_lit 50 1) t || fl_ltb t (f32_lit (-50) 1)) = false <-> ~ above t 50 /\ ~ below t (-50).
Proof.
  intros t H. rewrite Bool.orb_false_iff.
  rewrite (not_true _ _ (below_test t (-50) H ltac:(literal) ltac:(literal))).
  rewrite (not_true _ _ (above_test t 50 H ltac:(literal) ltac:(literal))). reflexivity.
Qed.
Lemma mach_test : forall t, float32 t -> fl_ltb (f32_lit 1 1) t = false <-> ~ above t 1.
Proof. intros t H. apply not_true. exact (above_test t 1 H ltac:(literal) ltac:(literal)). Qed.
Ltac some := cbn [In]; repeat match goal with |- context [negb ?b] => destruct b; cbn [negb andb] end;
  split; intros; first [discriminate | reflexivity | tauto | exfalso; intuition discriminate].

Lemma has_hash : forall s, contains_any s "#" = false <-> ~ In "#"%char (list_ascii_of_string s).
Proof.
  induction s as [|c s IH]; cbn [contains_any list_ascii_of_string In]; [tauto|].
  destruct (has_char c "#") eqn:E.
  - split; [discriminate|]. intros H. exfalso. apply H. left. cbn in E.
    destruct (Ascii.eqb_spec "#"%char c); [congruence|].
    destruct (Ascii.eqb_spec c "#"%char); [congruence|discriminate].
  - rewrite IH. split; [|tauto]. intros H [K|K]; [|tauto]. subst c. discriminate E.
Qed.

Ltac test :=
  unfold something, given, defined, calm, temperature, unavailable, hazard; cbn [fst snd];
  lazymatch goal with
  | |- context [In true _] => some
  | |- (negb _ && negb (fl_eqb _ _) = false) <-> _ => apply not_given_f
  | |- (negb _ && negb (_ =? _) = false) <-> _ => apply not_given
  | |- (_ >? _) = false <-> _ => apply at_most
  | |- (_ >=? _) = false <-> _ => apply less_than
  | |- ((_ <? _) || (_ >? _)) = false <-> _ => first [apply (within_abs _ 200); lia | apply (within_abs _ 6000); lia]
  | |- (fl_ltb _ _ || fl_ltb (f32_lit 60 1) _) = false <-> _ => apply temperature_test; assumption
  | |- (fl_ltb _ _ || fl_ltb _ _) = false <-> _ => apply roll_test; assumption
  | |- fl_ltb _ _ = false <-> _ => apply mach_test; assumption
  end.
Ltac step := unfold something, given, defined, calm, temperature, unavailable, hazard; apply agrees_chk; [test|intros _].

Lemma coherency_agrees : forall m, typed m -> agrees (Message_CheckCoherency m) (coherency_checks m).
Proof.
  intros [m|m|m|m|m|m|m|[m|m|m]|[m|m]|m|m] T; cbn [Message_CheckCoherency coherency_checks typed
    bds44.IMeteorologicalRoutineAirReport_CheckCoherency bds45.IMeteorologicalHazardReport_CheckCoherency] in *.
  - apply agrees_done.
  - unfold Status_CheckCoherency, coherency_07. step. apply agrees_done.
  - unfold DataLinkCapabilityReport_CheckCoherency, coherency_10.
    unfold bds10_fields.ACASFailedOrStandBy, bds10_fields.ACASHybridSurveillanceNotCapable,
      bds10_fields.ACASGenerationNotCapable, bds10_fields.ACASApplicableDocument185.
    destruct (Z.eqb_spec (DataLinkCapabilityReport_ACASStatus m) 0) as [E|E].
    + do 3 (apply agrees_chk; [rewrite Bool.negb_false_iff, Z.eqb_eq; tauto|intro]).
      apply agrees_skip; [lia|]. do 3 step. apply agrees_done.
    + do 3 (apply agrees_skip; [tauto|]). do 4 step. apply agrees_done.
  - apply agrees_done.
  - unfold AircraftIdentification_CheckCoherency, coherency_20. apply agrees_chk; [apply has_hash|intros _]. apply agrees_done.
  - apply agrees_done.
  - unfold SelectedVerticalIntention_CheckCoherency, coherency_40. do 4 step. apply agrees_done.
  - unfold MeteorologicalRoutineAirReportV0_CheckCoherency, coherency_44_v0. do 8 step. apply agrees_done.
  - unfold MeteorologicalRoutineAirReportV1_CheckCoherency, coherency_44_v1. do 8 step. apply agrees_done.
  - unfold MeteorologicalRoutineAirReportV2_CheckCoherency, coherency_44_v2. do 9 step. apply agrees_done.
  - unfold MeteorologicalHazardReportV0_CheckCoherency, coherency_45_v0, bds45_fields.HLNil. do 10 step. apply agrees_done.
  - unfold MeteorologicalHazardReportV1_CheckCoherency, coherency_45_v1, bds45_fields.HLNil. step.
    apply agrees_chk.
    { rewrite <- !zero_test.
      destruct (MeteorologicalHazardReportV1_TurbulenceStatus m), (fl_eqb (MeteorologicalHazardReportV1_TurbulenceAverageEDR m) (f32_lit 0 1)),
        (fl_eqb (MeteorologicalHazardReportV1_TurbulencePeakEDR m) (f32_lit 0 1)),
        (Z.eqb_spec (MeteorologicalHazardReportV1_TurbulencePeakDelayInterval m) 0); cbn; intuition congruence. }
    intros _. do 4 step. destruct (MeteorologicalHazardReportV1_StaticAirTemperatureStatus m).
    + apply agrees_chk; [rewrite temperature_test by exact T; tauto|intros _]. do 2 step. apply agrees_done.
    + apply agrees_skip; [discriminate|]. do 2 step. apply agrees_done.
  - destruct T as (T & G & A). unfold TrackAndTurnReport_CheckCoherency, coherency_50. do 9 step.
    rewrite i64_small by lia. cbv zeta. step. apply agrees_done.
  - unfold HeadingAndTrackReport_CheckCoherency, coherency_60. do 10 step. apply agrees_done.
Qed.

(* C76 *)
Theorem coherency_reason : forall m, typed m ->
  (forall e, Message_CheckCoherency m = Err e <-> first_failed (coherency_checks m) e) /\
  (Message_CheckCoherency m = Ok tt <-> Forall fst (coherency_checks m)) /\
  Message_CheckCoherency m <> Panic.
Proof.
  intros m T. pose proof (coherency_agrees m T) as A. split; [apply agrees_iff; exact A|].
  destruct (Message_CheckCoherency m) as [[]|e|] eqn:E; cbn in A.
  - split; [tauto|discriminate].
  - split; [|discriminate]. split; [discriminate|]. intro F. exfalso. exact (all_hold _ _ F A).
  - contradiction.
Qed.

(* ---- recognition ---- *)
(* checks said otherwise *)
Lemma first_failed_ext : forall cs cs' e, Forall2 (fun a b : Prop * string => (fst a <-> fst b) /\ snd a = snd b) cs cs' ->
  first_failed cs' e -> first_failed cs e.
Proof.
  induction 1 as [|[a s] [b t] cs cs' [E F] R IH]; cbn in *; [tauto|]. subst t. tauto.
Qed.
Lemma agrees_ext : forall A (r : res A) cs cs',
  Forall2 (fun a b : Prop * string => (fst a <-> fst b) /\ snd a = snd b) cs cs' -> agrees r cs' -> agrees r cs.
Proof.
  intros A [x|e|] cs cs' H K; cbn in *; [|eapply first_failed_ext; eassumption|exact K].
  induction H as [|a b cs cs' [E _] R IH]; [constructor|]. inversion K; subst. constructor; [tauto|auto].
Qed.
Ltac said := repeat apply Forall2_cons; try apply Forall2_nil; cbn [fst snd size]; (split; [try reflexivity|reflexivity]).
Lemma wrong_size : forall A (k : res A) name data cs, len data <> 7 ->
  agrees (if negb (len data =? 7) then Err ("the data for Comm-B " +++ name +++ " message must be 7 bytes long") else k)
         (size name data :: cs).
Proof.
  intros A k name data cs H. destruct (Z.eqb_spec (len data) 7); [contradiction|]. cbn. left. split; [exact H|reflexivity].
Qed.
Ltac branches := repeat match goal with
  | |- context [if ?c then _ else _] =>
      lazymatch c with context [if _ then _ else _] => fail | _ => idtac end;
      let E := fresh "E" in destruct c eqn:E; cbn [rmap bind negb]
  end.
Ltac leaf :=
  lazymatch goal with
  | |- agrees (Ok _) _ => cbn [agrees]; unfold size; every; lia
  | |- agrees (Err _) _ => cbn [agrees first_failed size fst snd];
      repeat first [ left; split; [solve [lia]|reflexivity] | right; split; [solve [lia]|] ]
  end.

Lemma agrees_00 : forall data, bytes data -> agrees (ReadNoMessageAvailable data) (checks_00 data).
Proof.
  intros data Hb. destruct (Z.eq_dec (len data) 7) as [Hl|Hl]; [|apply (wrong_size _ _ "NoMessageAvailable"); exact Hl].
  unfold checks_00, ReadNoMessageAvailable. pose proof Hl as HL. start data Hl Hb Oc. gorun. whole Hb L.
  destruct Oc as (-> & -> & -> & -> & -> & -> & ->).
  apply agrees_ext with (cs' := [size "NoMessageAvailable" f;
    (bits 1 8 f = 0 /\ bits 9 16 f = 0 /\ bits 17 24 f = 0 /\ bits 25 32 f = 0 /\ bits 33 40 f = 0 /\ bits 41 48 f = 0 /\
     bits 49 56 f = 0, "bits 1 to 56 must be zero"%string)]).
  { said. zsplit L 1 8 56. zsplit L 9 16 56. zsplit L 17 24 56. zsplit L 25 32 56. zsplit L 33 40 56. zsplit L 41 48 56. reflexivity. }
  branches; leaf.
Qed.
Lemma agrees_07 : forall data, bytes data -> (len data = 7 -> bits 7 8 data = 0) -> agrees (ReadStatus data) (checks_07 data).
Proof.
  intros data Hb H7. destruct (Z.eq_dec (len data) 7) as [Hl|Hl]; [|apply (wrong_size _ _ "Status"); exact Hl].
  specialize (H7 Hl). apply agrees_ext with (cs' := [size "Status" data;
    (bits 4 6 data = 0, "the bits 4 to 8 are reserved and must be 0"%string);
    (bits 9 16 data = 0 /\ bits 17 24 data = 0 /\ bits 25 32 data = 0 /\ bits 33 40 data = 0 /\ bits 41 48 data = 0 /\
     bits 49 56 data = 0, "the bits 9 to 56 are reserved and must be 0"%string)]).
  { unfold checks_07. said; [zsplit Hl 4 6 8; tauto|].
    zsplit Hl 9 16 56. zsplit Hl 17 24 56. zsplit Hl 25 32 56. zsplit Hl 33 40 56. zsplit Hl 41 48 56. reflexivity. }
  unfold ReadStatus. start data Hl Hb Oc. gorun. normbits Hb. whole Hb L.
  destruct Oc as (E0 & E1 & E2 & E3 & E4 & E5 & E6). rewrite ?mul_eq0.
  rewrite E1, E2, E3, E4, E5, E6. clear E0 E1 E2 E3 E4 E5 E6 Heqf.
  branches; leaf.
Qed.

Lemma agrees_10 : forall data, bytes data -> agrees (ReadDataLinkCapabilityReport data) (checks_10 data).
Proof.
  intros data Hb. destruct (Z.eq_dec (len data) 7) as [Hl|Hl]; [|apply (wrong_size _ _ "DataLinkCapabilityReport"); exact Hl].
  unfold checks_10, ReadDataLinkCapabilityReport. start data Hl Hb Oc. gorun. unpack. normbits Hb. rewrite ?mul_eq0.
  whole Hb L. destruct Oc as (E0 & _). rewrite E0. branches; leaf.
Qed.

Lemma agrees_17 : forall data, bytes data -> agrees (ReadCommonUsageGICBCapabilityReport data) (checks_17 data).
Proof.
  intros data Hb. destruct (Z.eq_dec (len data) 7) as [Hl|Hl]; [|apply (wrong_size _ _ "CommonUsageGICBCapabilityReport"); exact Hl].
  apply agrees_ext with (cs' := [size "CommonUsageGICBCapabilityReport" data;
    (bits 30 32 data = 0, "the bits 30 to 32 are reserved and must be 0"%string);
    (bits 33 40 data = 0 /\ bits 41 48 data = 0 /\ bits 49 56 data = 0, "the bits 33 to 56 are reserved and must be 0"%string)]).
  { unfold checks_17. said. zsplit Hl 33 40 56. zsplit Hl 41 48 56. reflexivity. }
  unfold ReadCommonUsageGICBCapabilityReport. start data Hl Hb Oc. gorun. normbits Hb. rewrite ?mul_eq0.
  whole Hb L. destruct Oc as (_ & _ & _ & _ & E4 & E5 & E6). rewrite E4, E5, E6. clear E4 E5 E6 Heqf. rewrite ?bit_neg0.
  branches; leaf.
Qed.

Lemma agrees_20 : forall data, bytes data -> agrees (ReadAircraftIdentification data) (checks_20 data).
Proof.
  intros data Hb. destruct (Z.eq_dec (len data) 7) as [Hl|Hl]; [|apply (wrong_size _ _ "AircraftIdentification"); exact Hl].
  unfold checks_20. destruct (Z.eq_dec (bits 1 8 data) 32) as [E|E].
  - rewrite (read_bds20 data Hb Hl E). leaf.
  - unfold ReadAircraftIdentification. pose proof Hl as HL. start data Hl Hb Oc. gostep. destruct Oc as (E0 & _). rewrite <- E0 in *.
    decide_if. leaf.
Qed.

Lemma agrees_30 : forall data, bytes data ->
  (len data = 7 -> bits 1 8 data = 48) -> (len data = 7 -> bits 29 30 data = 2 -> bits 31 32 data = 0) ->
  agrees (ReadACASResolutionAdvisory data) (checks_30 data).
Proof.
  intros data Hb H1 H2. destruct (Z.eq_dec (len data) 7) as [Hl|Hl]; [|apply (wrong_size _ _ "ACASResolutionAdvisory"); exact Hl].
  specialize (H1 Hl). specialize (H2 Hl).
  pose proof (advisory_agrees (octets 2 7 data) (octets_bytes _ _ _ Hb)) as A.
  unfold advisory_checks in A. rewrite !bits_octets in A by (assumption || lia). 
  change (8 * (2 - 1) + 21) with 29 in A. change (8 * (2 - 1) + 22) with 30 in A.
  change (8 * (2 - 1) + 23) with 31 in A. change (8 * (2 - 1) + 24) with 32 in A. specialize (A H2).
  assert (L6 : len (octets 2 7 data) = 6) by (rewrite octets_len by lia; reflexivity).
  unfold checks_30, ReadACASResolutionAdvisory. rewrite (slice_tail7 data Hl).
  remember (octets 2 7 data) as sub eqn:Es. clear Es.
  remember (bits 29 30 data) as b29 eqn:E29. clear E29 H2.
  assert (D : idx data 0 = Ok 48).
  { clear - H1 Hb Hl. start data Hl Hb Oc. destruct Oc as (E0 & _). rewrite <- E0 in H1. subst. reflexivity. }
  rewrite Hl, D. cbn [Z.eqb Pos.eqb negb bind].
  destruct (acas_ra.ReadResolutionAdvisory sub) as [ra|e|]; cbn [agrees] in *.
  - inversion A as [|? ? A1 A2]; subst. inversion A2; subst. unfold size. every.
  - cbn [first_failed fst snd] in A |- *. unfold size. destruct A as [[A _]|[_ [A|[_ []]]]]; [contradiction|].
    cbn [first_failed]. right. split; [exact Hl|]. right. split; [exact H1|]. left. exact A.
  - contradiction.
Qed.

Lemma agrees_40 : forall data, bytes data -> agrees (ReadSelectedVerticalIntention data) (checks_40 data).
Proof.
  intros data Hb. destruct (Z.eq_dec (len data) 7) as [Hl|Hl]; [|apply (wrong_size _ _ "SelectedVerticalIntention"); exact Hl].
  destruct (Z.eq_dec (bits 40 40 data) 0) as [E1|E1].
  1: destruct (Z.eq_dec (bits 41 47 data) 0) as [E2|E2].
  1: destruct (Z.eq_dec (bits 52 53 data) 0) as [E3|E3].
  { assert (R : CommB.recognised_40 data) by (split; [zsplit Hl 40 40 47; auto|exact E3]).
    rewrite (proj2 (read_bds40 data _ Hb Hl) (conj R eq_refl)). unfold checks_40. leaf. }
  all: unfold checks_40, ReadSelectedVerticalIntention; start data Hl Hb Oc; gostep; normbits Hb; rewrite ?mul_eq0;
    whole Hb L; clear Oc Heqf; bits_bound 40 40 f; repeat decide_if; leaf.
Qed.

Lemma agrees_44 : forall data, bytes data -> agrees (ReadMeteorologicalRoutineAirReport data) (checks_44 data).
Proof.
  intros data Hb. unfold checks_44. destruct (Z.eq_dec (len data) 7) as [Hl|Hl].
  2: { unfold ReadMeteorologicalRoutineAirReport. decide_if. leaf. }
  rewrite read_bds44 by assumption. cbv zeta. bits_bound 1 4 data. destruct (Z.eqb_spec (bits 1 4 data) 0); [leaf|].
  destruct (Z.leb_spec (bits 1 4 data) 4); leaf.
Qed.
Lemma agrees_44_v0 : forall data, bytes data -> agrees (ReadMeteorologicalRoutineAirReportV0 data) (checks_44_v0 data).
Proof.
  intros data Hb. unfold checks_44_v0. destruct (Z.eq_dec (len data) 7) as [Hl|Hl]; [|apply (wrong_size _ _ "MeteorologicalRoutineAirReport"); exact Hl].
  rewrite read_bds44_v0 by assumption. leaf.
Qed.
Lemma agrees_44_v1 : forall data, bytes data -> agrees (ReadMeteorologicalRoutineAirReportV1 data) (checks_44_v1 data).
Proof.
  intros data Hb. unfold checks_44_v1. destruct (Z.eq_dec (len data) 7) as [Hl|Hl]; [|apply (wrong_size _ _ "MeteorologicalRoutineAirReport"); exact Hl].
  pose proof Hl as HL. unfold ReadMeteorologicalRoutineAirReportV1. start data Hl Hb Oc. gostep. normbits Hb. rewrite ?mul_eq0.
  whole Hb L. clear Oc.
  destruct (Z.eqb_spec (bits 1 4 f) 0); cbn [negb]; [|leaf]. subst f. gorun. leaf.
Qed.
Lemma agrees_44_v2 : forall data, bytes data -> agrees (ReadMeteorologicalRoutineAirReportV2 data) (checks_44_v2 data).
Proof.
  intros data Hb. unfold checks_44_v2. destruct (Z.eq_dec (len data) 7) as [Hl|Hl]; [|apply (wrong_size _ _ "MeteorologicalRoutineAirReport"); exact Hl].
  pose proof Hl as HL. unfold ReadMeteorologicalRoutineAirReportV2. start data Hl Hb Oc. gorun. leaf.
Qed.
Lemma agrees_45_v0 : forall data, bytes data -> agrees (ReadMeteorologicalHazardReportV0 data) (checks_45_v0 data).
Proof.
  intros data Hb. unfold checks_45_v0. destruct (Z.eq_dec (len data) 7) as [Hl|Hl]; [|apply (wrong_size _ _ "MeteorologicalHazardReport"); exact Hl].
  destruct (Z.eq_dec (bits 52 56 data) 0) as [E|E].
  - rewrite (proj2 (read_bds45_v0 data _ Hb Hl) (conj E eq_refl)). leaf.
  - unfold ReadMeteorologicalHazardReportV0. pose proof Hl as HL. start data Hl Hb Oc. gostep. normbits Hb. rewrite ?mul_eq0.
    whole Hb L. clear Oc. decide_if. leaf.
Qed.
Lemma agrees_45_v1 : forall data, bytes data -> agrees (ReadMeteorologicalHazardReportV1 data) (checks_45_v1 data).
Proof.
  intros data Hb. unfold checks_45_v1. destruct (Z.eq_dec (len data) 7) as [Hl|Hl]; [|apply (wrong_size _ _ "MeteorologicalHazardReport"); exact Hl].
  destruct (Z.eq_dec (bits 55 56 data) 0) as [E|E].
  - rewrite (proj2 (read_bds45_v1 data _ Hb Hl) (conj E eq_refl)). leaf.
  - unfold ReadMeteorologicalHazardReportV1. pose proof Hl as HL. start data Hl Hb Oc. gostep. normbits Hb. rewrite ?mul_eq0.
    whole Hb L. clear Oc. decide_if. leaf.
Qed.
Lemma agrees_45 : forall data, bytes data -> agrees (ReadMeteorologicalHazardReport data) (checks_45 data).
Proof.
  intros data Hb. unfold checks_45. destruct (Z.eq_dec (len data) 7) as [Hl|Hl].
  2: { unfold ReadMeteorologicalHazardReport. decide_if. leaf. }
  destruct (Z.eq_dec (bits 55 56 data) 0) as [E|E].
  - rewrite (proj2 (read_bds45 data _ Hb Hl) (conj E eq_refl)). leaf.
  - pose proof (agrees_45_v1 data Hb) as V1. pose proof (agrees_45_v0 data Hb) as V0.
    assert (N : bits 52 56 data <> 0).
    { intro N. apply E. apply (bits_of_zero 52 56); (lia || assumption). }
    unfold ReadMeteorologicalHazardReport. decide_if.
    destruct (ReadMeteorologicalHazardReportV1 data) as [x|x|]; cbn in V1.
    + inversion V1 as [|? ? ? W]; inversion W; contradiction.
    + destruct (ReadMeteorologicalHazardReportV0 data) as [y|y|]; cbn in V0.
      * inversion V0 as [|? ? ? W]; inversion W; contradiction.
      * destruct V0 as [[V0 _]|[_ [[_ ->]|[V0 _]]]]; try contradiction. leaf.
      * contradiction.
    + contradiction.
Qed.
Lemma agrees_50 : forall data, bytes data -> agrees (ReadTrackAndTurnReport data) (checks_50 data).
Proof.
  intros data Hb. unfold checks_50. destruct (Z.eq_dec (len data) 7) as [Hl|Hl]; [|apply (wrong_size _ _ "TrackAndTurnReport"); exact Hl].
  rewrite read_bds50 by assumption. leaf.
Qed.
Lemma agrees_60 : forall data, bytes data -> agrees (ReadHeadingAndSpeedReport data) (checks_60 data).
Proof.
  intros data Hb. unfold checks_60. destruct (Z.eq_dec (len data) 7) as [Hl|Hl]; [|apply (wrong_size _ _ "HeadingAndTrackReport"); exact Hl].
  rewrite read_bds60 by assumption. leaf.
Qed.

(* C75 *)
Theorem recognition_reason_partial : forall data, bytes data ->
  explains (checks_00 data) (ReadNoMessageAvailable data) /\
  (* the bits 7 and 8 are not looked at *)
  ((len data = 7 -> bits 7 8 data = 0) -> explains (checks_07 data) (ReadStatus data)) /\
  explains (checks_10 data) (ReadDataLinkCapabilityReport data) /\
  explains (checks_17 data) (ReadCommonUsageGICBCapabilityReport data) /\
  explains (checks_20 data) (ReadAircraftIdentification data) /\
  (* the text of the error is wrong when the first byte is; an altitude may be misread *)
  ((len data = 7 -> bits 1 8 data = 48) -> (len data = 7 -> bits 29 30 data = 2 -> bits 31 32 data = 0) ->
   explains (checks_30 data) (ReadACASResolutionAdvisory data)) /\
  explains (checks_40 data) (ReadSelectedVerticalIntention data) /\
  explains (checks_44 data) (ReadMeteorologicalRoutineAirReport data) /\
  explains (checks_44_v0 data) (ReadMeteorologicalRoutineAirReportV0 data) /\
  explains (checks_44_v1 data) (ReadMeteorologicalRoutineAirReportV1 data) /\
  explains (checks_44_v2 data) (ReadMeteorologicalRoutineAirReportV2 data) /\
  explains (checks_45 data) (ReadMeteorologicalHazardReport data) /\
  explains (checks_45_v0 data) (ReadMeteorologicalHazardReportV0 data) /\
  explains (checks_45_v1 data) (ReadMeteorologicalHazardReportV1 data) /\
  explains (checks_50 data) (ReadTrackAndTurnReport data) /\
  explains (checks_60 data) (ReadHeadingAndSpeedReport data).
Proof.
  intros data Hb. unfold explains.
  split; [apply agrees_iff, agrees_00, Hb|].
  split; [intros H; apply agrees_iff, agrees_07; assumption|].
  split; [apply agrees_iff, agrees_10, Hb|].
  split; [apply agrees_iff, agrees_17, Hb|].
  split; [apply agrees_iff, agrees_20, Hb|].
  split; [intros H1 H2; apply agrees_iff, agrees_30; assumption|].
  split; [apply agrees_iff, agrees_40, Hb|].
  split; [apply agrees_iff, agrees_44, Hb|].
  split; [apply agrees_iff, agrees_44_v0, Hb|].
  split; [apply agrees_iff, agrees_44_v1, Hb|].
  split; [apply agrees_iff, agrees_44_v2, Hb|].
  split; [apply agrees_iff, agrees_45, Hb|].
  split; [apply agrees_iff, agrees_45_v0, Hb|].
  split; [apply agrees_iff, agrees_45_v1, Hb|].
  split; [apply agrees_iff, agrees_50, Hb|].
  apply agrees_iff, agrees_60, Hb.
Qed.

(* a reserved bit is set in the register 0,7, and nothing is said *)
Theorem status_reason_refuted : exists data m, bytes data /\ len data = 7 /\
  ReadStatus data = Ok m /\ first_failed (checks_07 data) "the bits 4 to 8 are reserved and must be 0"%string.
Proof.
  exists [1;0;0;0;0;0;0]. eexists. split; [repeat constructor; lia|]. split; [reflexivity|]. split; [vm_compute; reflexivity|].
  cbn [first_failed checks_07]. right. split; [reflexivity|]. left. split; [vm_compute; discriminate|reflexivity].
Qed.
(* "the first byte is not 0x20", of a message that begins with 0x20 *)
Theorem advisory_text_refuted : exists data, bytes data /\ len data = 7 /\ bits 1 8 data = 32 /\
  ReadACASResolutionAdvisory data = Err "the first byte of data is not 0x20"%string /\
  first_failed (checks_30 data) "the first byte of data is not 0x30"%string.
Proof.
  exists [32;0;0;0;0;0;0]. split; [repeat constructor; lia|]. split; [reflexivity|]. split; [reflexivity|].
  split; [vm_compute; reflexivity|].
  cbn [first_failed checks_30]. right. split; [reflexivity|]. left. split; [vm_compute; discriminate|reflexivity].
Qed.
Example recognition_reason_example : exists data, bytes data /\ len data = 7 /\ bits 7 8 data = 0 /\ bits 1 8 data = 48 /\
  (bits 29 30 data = 2 -> bits 31 32 data = 0) /\
  ReadSelectedVerticalIntention data = Err "the bits 52 to 53 must be zero"%string.
Proof.
  exists [48;0;0;0;0;0;8]. split; [repeat constructor; lia|]. do 3 (split; [reflexivity|]).
  split; [intro H; vm_compute in H; discriminate|vm_compute; reflexivity].
Qed.

(* every decoded message has values of the types of its fields *)
Lemma float32_range2 : forall (f : bool -> Z -> spec_float) n,
  forallb (fun z => valid_binary 24 128 (f true z) && valid_binary 24 128 (f false z)) (zseq 0 (Z.to_nat n)) = true ->
  forall s z, 0 <= z < 0 + n -> float32 (f s z).
Proof.
  intros f n H s z Hz.
  pose proof (forall_range (fun z => valid_binary 24 128 (f true z) && valid_binary 24 128 (f false z)) 0 n H z Hz) as T.
  cbn beta in T. apply andb_prop in T as [T F]. destruct s; assumption.
Qed.
Lemma float32_temperature : forall s n, 0 <= n < 0 + 1024 -> float32 (code_temperature s n).
Proof. apply float32_range2. vm_compute. reflexivity. Qed.
Lemma float32_temperature_v0 : forall s n, 0 <= n < 0 + 1024 -> float32 (code_temperature_v0 s n).
Proof. apply float32_range2. vm_compute. reflexivity. Qed.
Lemma float32_temperature_q : forall s n, 0 <= n < 0 + 512 -> float32 (code_temperature_q s n).
Proof. apply float32_range2. vm_compute. reflexivity. Qed.
Lemma float32_roll : forall s n, 0 <= n < 0 + 512 -> float32 (code_roll s n).
Proof. apply float32_range2. vm_compute. reflexivity. Qed.
Lemma float32_mach : forall n, 0 <= n < 0 + 1024 -> float32 (code_mach n).
Proof. intros n H. apply (float32_range2 (fun _ => code_mach) 1024 ltac:(vm_compute; reflexivity) true n H). Qed.

Lemma typed_44 : forall data m, bytes data -> ReadMeteorologicalRoutineAirReport data = Ok m -> typed (B44 m).
Proof.
  intros data m Hb H. destruct (Z.eq_dec (len data) 7) as [Hl|Hl].
  2: { unfold ReadMeteorologicalRoutineAirReport in H. destruct (Z.eqb_spec (len data) 7); [contradiction|discriminate H]. }
  rewrite read_bds44 in H by assumption. cbv zeta in H. bits_bound 26 35 data.
  destruct (bits 1 4 data =? 0); [|destruct (bits 1 4 data <=? 4); [|discriminate]];
    injection H as <-; cbn; apply float32_temperature; lia.
Qed.
Lemma typed_45 : forall data m, bytes data -> ReadMeteorologicalHazardReport data = Ok m -> typed (B45 m).
Proof.
  intros data m Hb H. destruct (Z.eq_dec (len data) 7) as [Hl|Hl].
  2: { unfold ReadMeteorologicalHazardReport in H. destruct (Z.eqb_spec (len data) 7); [contradiction|discriminate H]. }
  apply read_bds45 in H; [|assumption|assumption]. destruct H as [_ ->]. bits_bound 15 24 data. cbn. apply float32_temperature. lia.
Qed.
Lemma typed_50 : forall data m, bytes data -> ReadTrackAndTurnReport data = Ok m -> typed (B50 m).
Proof.
  intros data m Hb H. destruct (Z.eq_dec (len data) 7) as [Hl|Hl].
  2: { unfold ReadTrackAndTurnReport in H. destruct (Z.eqb_spec (len data) 7); [contradiction|discriminate H]. }
  rewrite read_bds50 in H by assumption. injection H as <-. bits_bound 3 11 data. bits_bound 25 34 data. bits_bound 47 56 data.
  cbn [typed TrackAndTurnReport_RollAngle TrackAndTurnReport_GroundSpeed TrackAndTurnReport_TrueAirSpeed CommB.track_and_turn].
  split; [apply float32_roll; lia|lia].
Qed.
Lemma typed_60 : forall data m, bytes data -> ReadHeadingAndSpeedReport data = Ok m -> typed (B60 m).
Proof.
  intros data m Hb H. destruct (Z.eq_dec (len data) 7) as [Hl|Hl].
  2: { unfold ReadHeadingAndSpeedReport in H. destruct (Z.eqb_spec (len data) 7); [contradiction|discriminate H]. }
  rewrite read_bds60 in H by assumption. injection H as <-. bits_bound 25 34 data. cbn. apply float32_mach. lia.
Qed.

Lemma tryAppend_typed : forall A (inj : A -> Message) r l l', (forall m, r = Ok m -> typed (inj m)) ->
  Forall typed l -> tryAppend inj r l = Ok l' -> Forall typed l'.
Proof.
  intros A inj [m|e|] l l' H F E; cbn in E; try discriminate; injection E as <-; [|exact F].
  apply Forall_app. split; [exact F|]. constructor; [apply H; reflexivity|constructor].
Qed.
Lemma keep_typed : forall l l', Forall typed l -> keepCoherent l = Ok l' -> Forall typed l'.
Proof.
  induction l as [|m l IH]; intros l' F E; cbn in E.
  - injection E as <-. constructor.
  - inversion F; subst. destruct (Message_CheckCoherency m); [|auto|discriminate].
    destruct (keepCoherent l) as [k| |]; cbn in E; try discriminate. injection E as <-. constructor; auto.
Qed.
Theorem decoded_typed : forall data messages, bytes data -> ReadCommBMessage data = Ok messages -> Forall typed messages.
Proof.
  intros data ms Hb H. unfold ReadCommBMessage in H.
  destruct (negb (len data =? 7)); [discriminate|].
  destruct (ReadNoMessageAvailable data); [injection H as <-; repeat constructor| |discriminate].
  unfold exclusively in H.
  assert (K : forall k, match ReadStatus data with
     | Ok m => match Message_CheckCoherency (B07 m) with Ok _ => Ok [B07 m] | Err _ => k | Panic => Panic end
     | Err _ => k | Panic => Panic end = Ok ms -> k = Ok ms \/ Forall typed ms).
  { intros k E. destruct (ReadStatus data); [destruct (Message_CheckCoherency _)| |]; auto; try discriminate.
    injection E as <-. right. repeat constructor. }
  apply K in H. clear K. destruct H as [H|H]; [|exact H].
  destruct (ReadAircraftIdentification data); [destruct (Message_CheckCoherency _)| |]; try discriminate;
    [injection H as <-; repeat constructor| |].
  all: cbn [bind] in H.
  all: repeat match type of H with bind ?t _ = _ => let E := fresh "E" in destruct t eqn:E; cbn [bind] in H; try discriminate H end.
  all: apply keep_typed in H; [exact H|].
  all: match goal with E : tryAppend _ _ _ = Ok ?l |- Forall typed ?l => refine (tryAppend_typed _ _ _ _ _ _ _ E); clear E; [intros m; apply typed_60; exact Hb|] end.
  all: match goal with E : tryAppend _ _ _ = Ok ?l |- Forall typed ?l => refine (tryAppend_typed _ _ _ _ _ _ _ E); clear E; [intros m; apply typed_50; exact Hb|] end.
  all: match goal with E : tryAppend _ _ _ = Ok ?l |- Forall typed ?l => refine (tryAppend_typed _ _ _ _ _ _ _ E); clear E; [intros m; apply typed_45; exact Hb|] end.
  all: match goal with E : tryAppend _ _ _ = Ok ?l |- Forall typed ?l => refine (tryAppend_typed _ _ _ _ _ _ _ E); clear E; [intros m; apply typed_44; exact Hb|] end.
  all: match goal with E : tryAppend _ _ _ = Ok ?l |- Forall typed ?l => refine (tryAppend_typed _ _ _ _ _ _ _ E); clear E; [intros m _; exact I|] end.
  all: match goal with E : tryAppend _ _ _ = Ok ?l |- Forall typed ?l => refine (tryAppend_typed _ _ _ _ _ _ _ E); clear E; [intros m _; exact I|] end.
  all: match goal with E : tryAppend _ _ _ = Ok ?l |- Forall typed ?l => refine (tryAppend_typed _ _ _ _ _ _ _ E); clear E; [intros m _; exact I|] end.
  all: match goal with E : tryAppend _ _ _ = Ok ?l |- Forall typed ?l => refine (tryAppend_typed _ _ _ _ _ _ _ E); clear E; [intros m _; exact I|] end.
  all: constructor.
Qed.
Theorem older_typed : forall data, bytes data -> len data = 7 ->
  (forall m, ReadMeteorologicalRoutineAirReportV0 data = Ok m ->
     typed (B44 (IMeteorologicalRoutineAirReport_MeteorologicalRoutineAirReportV0 m))) /\
  (forall m, ReadMeteorologicalHazardReportV0 data = Ok m ->
     typed (B45 (IMeteorologicalHazardReport_MeteorologicalHazardReportV0 m))).
Proof.
  intros data Hb Hl. split; intros m H.
  - rewrite read_bds44_v0 in H by assumption. injection H as <-. bits_bound 25 34 data. cbn. apply float32_temperature_v0. lia.
  - apply read_bds45_v0 in H; [|assumption|assumption]. destruct H as [_ ->]. bits_bound 18 26 data. cbn.
    apply float32_temperature_q. lia.
Qed.

Example coherency_reason_example : exists data m, bytes data /\ ReadTrackAndTurnReport data = Ok m /\ typed (B50 m) /\
  Message_CheckCoherency (B50 m) = Err "the true air speed is too high (above 500 knots)"%string.
Proof.
  (* true air speed of 600 kt *)
  exists [129;149;21;54;224;37;44]. eexists. split; [repeat constructor; lia|]. split; [vm_compute; reflexivity|].
  split; [|vm_compute; reflexivity]. vm_compute. intuition congruence.
Qed.
