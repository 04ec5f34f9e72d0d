(* Why an input is refused, and what the error says. *)
From Verif.Proofs Require Import Tac Octets Gillham ModesFields ModeSReader AcasReader Adsb0506 VelocityReader Status61 Status62 Status65 AdsbApi.
From Verif.Gen Require acas_ra acas_ra_fields bds05 bds05_fields bds07 bds09 bds09_fields bds61 bds62 bds62_fields bds65 bds65_fields
  modes_common modes_messages adsb_airborne_position adsb_surface_position adsb_no_position_information
  adsb_airborne_velocity adsb_aircraft_status adsb_target_state_and_status adsb_aircraft_operational_status
  adsb_aircraft_identification_and_category.
From Verif.Model Require Import Crc ModesReader AdsbReader.
From Verif.Spec Require Import Text Altitude Acas Adsb ModeS Reasons.
Require Import String List.
Import ListNotations.
Local Open Scope Z_scope.

(* the outcome of a reader agrees with the checks *)
Definition agrees {A : Type} (r : res A) (checks : list (Prop * string)) : Prop :=
  match r with
  | Ok _ => Forall fst checks
  | Err e => first_failed checks e
  | Panic => False
  end.

Lemma first_failed_unique : forall checks e e', first_failed checks e -> first_failed checks e' -> e = e'.
Proof.
  induction checks as [|[c s] checks IH]; cbn; [tauto|]. intros e e' [[A ->]|[A B]] [[C ->]|[C D]]; auto; tauto.
Qed.
Lemma all_hold : forall checks e, Forall fst checks -> ~ first_failed checks e.
Proof.
  induction checks as [|[c s] checks IH]; intros e F; [cbn; tauto|]. inversion F; subst. cbn in *.
  intros [[A _]|[_ A]]; [auto|]. exact (IH e H2 A).
Qed.
Lemma agrees_iff : forall A (r : res A) checks, agrees r checks -> forall e, r = Err e <-> first_failed checks e.
Proof.
  intros A [x|e'|] checks H e; cbn in H; split; intro E; try discriminate; try contradiction.
  - exfalso. exact (all_hold _ _ H E).
  - injection E as <-. exact H.
  - f_equal. eapply first_failed_unique; eassumption.
Qed.
Lemma agrees_rmap : forall A B (f : A -> B) r checks, agrees r checks -> agrees (rmap f r) checks.
Proof. intros A B f [x|e|] checks H; exact H. Qed.

(* the checks that hold, up to the one that fails *)
Ltac every := repeat apply Forall_cons; try apply Forall_nil; cbn [fst]; auto.
Ltac pass := right; split; [try assumption; try (intros; lia)|].
Ltac fails := left; split; [try (intro; lia)|try reflexivity].

(* ---- frames ---- *)
Ltac df_err H :=
  rewrite read_dispatch by auto; unfold dispatch;
  cbn [frame_data modes_common.MessageData_DownLinkFormat]; rewrite H; cbn [Z.eqb Pos.eqb orb];
  unfold modes_messages.ParseDF0, modes_messages.ParseDF4, modes_messages.ParseDF5, modes_messages.ParseDF11,
    modes_messages.ParseDF16, modes_messages.ParseDF17, modes_messages.ParseDF18, modes_messages.ParseDF19,
    modes_messages.ParseDF20, modes_messages.ParseDF21;
  cbn [frame_data modes_common.MessageData_DownLinkFormat modes_common.MessageData_Payload];
  rewrite H; rewrite payload_len by auto.

Lemma short_too_long : forall frame, bytes frame -> len frame = 14 -> In (bits 1 5 frame) [0; 4; 5; 11] ->
  ReadMessage frame = Err ("DF" ++ numeral (bits 1 5 frame) ++ " message must be 7 bytes long")%string.
Proof.
  intros frame Hb Hl [H|[H|[H|[H|[]]]]]; symmetry in H; df_err H; rewrite Hl; reflexivity.
Qed.
Lemma long_too_short : forall frame, bytes frame -> len frame = 7 -> 16 <= bits 1 5 frame <= 21 ->
  ReadMessage frame = Err ("DF" ++ numeral (bits 1 5 frame) ++ " message must be 14 bytes long")%string.
Proof.
  intros frame Hb Hl H.
  assert (D : In (bits 1 5 frame) [16; 17; 18; 19; 20; 21]) by (cbn [In]; lia). clear H.
  destruct D as [H|[H|[H|[H|[H|[H|[]]]]]]]; symmetry in H; df_err H; rewrite Hl; reflexivity.
Qed.
Lemma elm_too_short : forall frame, bytes frame -> len frame = 7 -> 24 <= bits 1 5 frame <= 31 ->
  ReadMessage frame = Err "DF24 message must be 14 bytes long"%string.
Proof.
  intros frame Hb Hl H.
  assert (D : In (bits 1 5 frame) [24; 25; 26; 27; 28; 29; 30; 31]) by (cbn [In]; lia). clear H.
  destruct D as [H|[H|[H|[H|[H|[H|[H|[H|[]]]]]]]]]; symmetry in H;
  (rewrite read_dispatch by auto; unfold dispatch;
   cbn [frame_data modes_common.MessageData_DownLinkFormat]; rewrite H; cbn [Z.eqb Pos.eqb orb];
   unfold modes_messages.ParseDF24;
   cbn [frame_data modes_common.MessageData_DownLinkFormat modes_common.MessageData_Payload];
   rewrite H; rewrite payload_len by auto; rewrite Hl; reflexivity).
Qed.
Lemma unsupported : forall frame, bytes frame -> (len frame = 7 \/ len frame = 14) ->
  ~ (In (bits 1 5 frame) [0; 4; 5; 11; 16; 17; 18; 19; 20; 21] \/ 24 <= bits 1 5 frame) ->
  ReadMessage frame = Err ("the downlink format " ++ numeral (bits 1 5 frame) ++ " is not supported")%string.
Proof.
  intros frame Hb Hl H. cbn [In] in H. rewrite read_dispatch by auto. unfold dispatch.
  cbn [frame_data modes_common.MessageData_DownLinkFormat]. bits_bound 1 5 frame.
  repeat decide_if. reflexivity.
Qed.
Lemma unreadable_altitude : forall frame, bytes frame -> (len frame = 7 \/ len frame = 14) ->
  (In (bits 1 5 frame) [0; 4] -> len frame = 7) -> (In (bits 1 5 frame) [16; 20] -> len frame = 14) ->
  In (bits 1 5 frame) [0; 4; 16; 20] -> (forall coding altitude, ~ Altitude13 frame coding altitude) ->
  ReadMessage frame = Err "the field Altitude is not readable"%string.
Proof.
  intros frame Hb Hl S7 S14 D N. destruct (read_altitude_err frame Hb Hl N) as [e E].
  destruct D as [H|[H|[H|[H|[]]]]]; symmetry in H; df_err H; rewrite E;
    first [rewrite S7 by (rewrite H; cbn; auto) | rewrite S14 by (rewrite H; cbn; auto)]; cbn; reflexivity.
Qed.

Lemma mode_s_agrees : forall frame, bytes frame -> agrees (ReadMessage frame) (mode_s_checks frame).
Proof.
  intros frame Hb.
  assert (L : (len frame = 7 \/ len frame = 14) \/ ~ (len frame = 7 \/ len frame = 14)) by lia.
  destruct L as [L|L].
  2: { unfold ReadMessage. repeat decide_if. cbn. left. split; [exact L|reflexivity]. }
  bits_bound 1 5 frame. unfold mode_s_checks. cbv zeta.
  assert (W : (In (bits 1 5 frame) [0; 4; 5; 11; 16; 17; 18; 19; 20; 21] \/ 24 <= bits 1 5 frame) \/
    ~ (In (bits 1 5 frame) [0; 4; 5; 11; 16; 17; 18; 19; 20; 21] \/ 24 <= bits 1 5 frame)) by (cbn [In]; lia).
  destruct W as [W|W].
  2: { rewrite (unsupported frame Hb L W). cbn [agrees first_failed]. right. split; [exact L|]. left. split; [exact W|reflexivity]. }
  destruct (Z.eq_dec (len frame) 14) as [L14|N14].
  - assert (S : In (bits 1 5 frame) [0; 4; 5; 11] \/ ~ In (bits 1 5 frame) [0; 4; 5; 11]) by (cbn [In]; lia).
    destruct S as [S|S].
    { rewrite (short_too_long frame Hb L14 S). cbn [agrees first_failed]. do 2 (right; split; [assumption|]).
      left. split; [intro K; specialize (K S); lia|reflexivity]. }
    destruct (altitude_dec frame) as [D|D].
    + destruct (accepted frame Hb) as [m ->].
      * right. split; [exact L14|]. unfold long_format. cbn [In] in W, S. lia.
      * auto.
      * cbn [agrees]. every; first [tauto|lia].
    + assert (A : In (bits 1 5 frame) [0; 4; 16; 20] \/ ~ In (bits 1 5 frame) [0; 4; 16; 20]) by (cbn [In]; lia).
      destruct A as [A|A].
      * rewrite (unreadable_altitude frame Hb L); auto.
        2: { intro K. exfalso. apply S. cbn [In] in *. tauto. }
        cbn [agrees first_failed]. do 2 (right; split; [assumption|]). right. split; [tauto|].
        do 2 (right; split; [auto|]). left. split; [|reflexivity]. intro K. destruct (K A) as (c & a & Q). exact (D c a Q).
      * destruct (accepted frame Hb) as [m ->].
        -- right. split; [exact L14|]. unfold long_format. cbn [In] in W, S. lia.
        -- intro K. exfalso. apply A. unfold has_altitude in K. cbn [In]. lia.
        -- cbn [agrees]. every; first [tauto|lia].
  - assert (L7 : len frame = 7) by tauto.
    assert (S : 16 <= bits 1 5 frame <= 21 \/ ~ 16 <= bits 1 5 frame <= 21) by lia.
    destruct S as [S|S].
    { rewrite (long_too_short frame Hb L7 S). cbn [agrees first_failed]. do 2 (right; split; [assumption|]).
      right. split; [auto|]. left. split; [intro K; specialize (K S); lia|reflexivity]. }
    assert (E : 24 <= bits 1 5 frame \/ ~ 24 <= bits 1 5 frame) by lia.
    destruct E as [E|E].
    { rewrite (elm_too_short frame Hb L7) by lia. cbn [agrees first_failed]. do 2 (right; split; [assumption|]).
      right. split; [auto|]. right. split; [lia|]. left. split; [intro K; specialize (K E); lia|reflexivity]. }
    destruct (altitude_dec frame) as [D|D].
    + destruct (accepted frame Hb) as [m ->].
      * left. split; [exact L7|]. unfold short_format. cbn [In] in W. lia.
      * auto.
      * cbn [agrees]. every; first [lia|tauto].
    + assert (A : In (bits 1 5 frame) [0; 4; 16; 20] \/ ~ In (bits 1 5 frame) [0; 4; 16; 20]) by (cbn [In]; lia).
      destruct A as [A|A].
      * rewrite (unreadable_altitude frame Hb L); auto.
        2: { intro K. exfalso. cbn [In] in K. lia. }
        cbn [agrees first_failed]. do 2 (right; split; [assumption|]). right. split; [auto|].
        do 2 (right; split; [lia|]). left. split; [|reflexivity]. intro K. destruct (K A) as (c & a & Q). exact (D c a Q).
      * destruct (accepted frame Hb) as [m ->].
        -- left. split; [exact L7|]. unfold short_format. cbn [In] in W. lia.
        -- intro K. exfalso. apply A. unfold has_altitude in K. cbn [In]. lia.
        -- cbn [agrees]. every; first [lia|tauto].
Qed.

Theorem mode_s_reason : forall frame e, bytes frame ->
  ReadMessage frame = Err e <-> first_failed (mode_s_checks frame) e.
Proof. intros frame e Hb. apply agrees_iff. apply mode_s_agrees. exact Hb. Qed.

(* ---- extended squitters ---- *)
Ltac passes := try (assumption; fail); intros; cbn [In]; first [lia|eauto; fail|exfalso; lia].
Ltac holds := cbn [agrees rmap]; unfold adsb_checks; cbv zeta; repeat apply Forall_cons; try apply Forall_nil; cbn [fst]; passes.
Ltac refuses := cbn [agrees rmap]; unfold adsb_checks; cbv zeta; cbn [first_failed];
  repeat (right; split; [solve [passes]|]); left.
Ltac broken := split; [let K := fresh in intro K; cbn [In] in K; try (specialize (K ltac:(lia))); lia|reflexivity].

Definition readable_adsb (v : Z) (data : list Z) : Prop :=
  (bits 1 5 data = 28 -> bits 6 8 data = 0 -> bits 17 56 data = 0) /\
  (bits 1 5 data = 28 -> bits 6 8 data = 2 -> bits 29 30 data = 2 -> bits 31 32 data = 0) /\
  (bits 1 5 data = 31 -> bits 41 43 data <= 2 \/ bits 41 43 data = bits 6 8 data).

Lemma airborne_agrees : forall v a c data, bytes data -> len data = 7 -> KindOf data KAirborne ->
  agrees (ReadADSBMessage v a c data) (adsb_checks v data).
Proof.
  intros v a c data Hb Hl Hk. pose proof (proj1 (kind_airborne data) Hk) as K. unfold airborne_type in K.
  assert (V : 0 <= v <= 2 \/ ~ 0 <= v <= 2) by lia. destruct V as [V|V].
  - destruct (altitude12_dec data) as [[alt A]|N].
    + destruct (airborne_ok v a c data alt Hb Hl Hk V A) as (m & -> & _). holds.
    + rewrite read_airborne_dispatch by assumption.
      pose proof (read_bds05_bad_altitude data Hb Hl ltac:(assumption) N) as E.
      unfold adsb_airborne_position.ReadAirbornePositionV0, adsb_airborne_position.ReadAirbornePositionV1, adsb_airborne_position.ReadAirbornePositionV2.
      rewrite E. assert (W : v = 0 \/ v = 1 \/ v = 2) by lia.
      destruct W as [-> | [-> | ->]]; cbn [Z.eqb Pos.eqb]; refuses; (split; [|reflexivity]);
        intro Q; (destruct Q as [alt A]; [lia|]); exact (N alt A).
  - rewrite read_airborne_dispatch by assumption. repeat decide_if. refuses. broken.
Qed.

Lemma surface_agrees : forall v a c data, bytes data -> len data = 7 -> KindOf data KSurface ->
  agrees (ReadADSBMessage v a c data) (adsb_checks v data).
Proof.
  intros v a c data Hb Hl Hk. pose proof (proj1 (kind_surface data) Hk) as K. unfold surface_type in K.
  assert (V : 0 <= v <= 2 \/ ~ 0 <= v <= 2) by lia. destruct V as [V|V].
  - destruct (surface_fields v a c data Hb Hl Hk V) as (m & -> & _). holds.
  - rewrite read_surface_dispatch by assumption. repeat decide_if. refuses. broken.
Qed.

Lemma type0_agrees : forall v a c data, bytes data -> len data = 7 -> bits 1 5 data = 0 ->
  agrees (ReadADSBMessage v a c data) (adsb_checks v data).
Proof.
  intros v a c data Hb Hl K. rewrite adsb_dispatch by assumption. cbv zeta. rewrite K. cbn [Z.eqb].
  destruct (no_position_read v data Hb Hl) as [P1 Q1]. destruct (type0_read v data Hb Hl) as [P2 Q2].
  destruct (altitude12_dec data) as [[alt A]|N].
  - rewrite (P1 alt A), (P2 alt A). destruct (bits 21 56 data =? 0); holds.
  - rewrite (Q1 N), (Q2 N). destruct (bits 21 56 data =? 0); refuses; (split; [|reflexivity]);
        intro Q; (destruct Q as [alt A]; [lia|]); exact (N alt A).
Qed.

Lemma velocity_agrees : forall v a c data, bytes data -> len data = 7 -> KindOf data KVelocity ->
  agrees (ReadADSBMessage v a c data) (adsb_checks v data).
Proof.
  intros v a c data Hb Hl Hk. assert (K : bits 1 5 data = 19) by (inversion Hk; assumption).
  assert (V : 1 <= bits 6 8 data <= 4 \/ ~ 1 <= bits 6 8 data <= 4) by lia. destruct V as [V|V].
  - destruct (velocity_ok v a c data Hb Hl Hk V) as (m & _ & ->). holds.
  - rewrite adsb_dispatch by assumption. cbv zeta. repeat decide_if. unfold adsb_airborne_velocity.ReadAirborneVelocity.
    rewrite (read_velocity_other data Hb Hl K V). refuses. broken.
Qed.

Lemma advisory_agrees : forall data, bytes data ->
  (bits 21 22 data = 2 -> bits 23 24 data = 0) ->
  agrees (acas_ra.ReadResolutionAdvisory data) (advisory_checks data).
Proof.
  intros data Hb H. destruct (Z.eq_dec (len data) 6) as [Hl|Hl].
  2: { unfold acas_ra.ReadResolutionAdvisory. decide_if. left. auto. }
  bits_bound 21 22 data.
  assert (bits 21 22 data = 0 \/ bits 21 22 data = 3 \/ bits 21 22 data = 1 \/ bits 21 22 data = 2) as [D|[D|[D|D]]] by lia.
  - rewrite read_ra_no_identity by auto. unfold advisory_checks. every. lia.
  - rewrite read_ra_no_identity by auto. unfold advisory_checks. every. lia.
  - rewrite read_ra_mode_s by auto. unfold advisory_checks. every. lia.
  - rewrite read_ra_arb by auto. specialize (H D). rewrite read_threat_altitude by auto.
    assert (E : bits 23 28 data = bits 25 28 data).
    { assert (E : bits 23 28 data = bits 23 24 data * 16 + bits 25 28 data).
      { clear - Hb Hl. split_list data Hl. match type of Hb with bytes ?l => bveq l Hb end. }
      rewrite E, H. reflexivity. }
    destruct ((bits 25 28 data =? 0) && (bits 30 35 data =? 0)) eqn:Z0.
    + unfold advisory_checks. every. intros _. eexists. apply no_altitude; lia.
    + destruct (bitutils.GillhamToAltitude _ _ _ _ _ _ _ _ _ _ _ _) eqn:G.
      * unfold advisory_checks. every. intros _. eexists. apply altitude; [lia|]. apply gillham_decodes. exact G.
      * cbn [agrees advisory_checks first_failed]. right. split; [exact Hl|]. left. split; [|reflexivity].
        intro K. destruct (K D) as [alt A]. inversion A as [A1 A2|feet N F]; subst; [lia|].
        apply gillham_decodes in F. congruence.
      * exact (gillham_no_panic _ _ _ _ _ _ _ _ _ _ _ _ G).
Qed.

Lemma status_agrees : forall v a c data, bytes data -> len data = 7 -> KindOf data KStatus -> readable_adsb v data ->
  agrees (ReadADSBMessage v a c data) (adsb_checks v data).
Proof.
  intros v a c data Hb Hl Hk (R1 & R2 & _). assert (K : bits 1 5 data = 28) by (inversion Hk; assumption).
  rewrite read_status by assumption. apply agrees_rmap. rewrite read_bds61_code by assumption.
  specialize (R1 K). specialize (R2 K). bits_bound 6 8 data.
  destruct (octets27_len data Hb Hl) as [Hb' Hl'].
  destruct (bits 6 8 data =? 0) eqn:S0.
  { specialize (R1 ltac:(lia)). destruct (bits 12 16 data =? 0) eqn:Z0; [holds|refuses; broken]. }
  destruct (bits 6 8 data =? 1) eqn:S1.
  { destruct (bits 25 56 data =? 0) eqn:Z0; [holds|refuses; broken]. }
  destruct (bits 6 8 data =? 2) eqn:S2.
  2: { refuses. broken. }
  assert (T : bits 21 22 (octets 2 7 data) = bits 29 30 data /\ bits 23 24 (octets 2 7 data) = bits 31 32 data).
  { rewrite !bits_octets by (auto; lia). split; reflexivity. }
  destruct T as [T1 T2].
  pose proof (advisory_agrees (octets 2 7 data) Hb') as A. rewrite T1, T2 in A. specialize (A (R2 ltac:(lia))).
  destruct (acas_ra.ReadResolutionAdvisory (octets 2 7 data)) as [ra|e|]; cbn [agrees] in A; [| |exact A].
  - unfold advisory_checks in A. inversion A as [|? ? _ A']; subst. inversion A' as [|? ? A'' _]; subst. cbn [fst] in A''.
    rewrite T1 in A''.
    assert (B3 : bits 1 5 data = 28 /\ bits 6 8 data = 2 /\ bits 29 30 data = 2 -> exists altitude, ThreatAltitude (octets 2 7 data) altitude)
      by (intros (_ & _ & F); exact (A'' F)).
    holds.
  - cbn [first_failed advisory_checks] in A. rewrite T1 in A. destruct A as [[N _]|[_ [[N ->]|[_ []]]]]; [lia|].
    refuses. split; [|reflexivity]. intro Q. apply N. intros F. apply Q. lia.
Qed.

Lemma target_agrees : forall v a c data, bytes data -> len data = 7 -> KindOf data KTarget ->
  agrees (ReadADSBMessage v a c data) (adsb_checks v data).
Proof.
  intros v a c data Hb Hl Hk. assert (K : bits 1 5 data = 29) by (inversion Hk; assumption).
  rewrite read_target by assumption. apply agrees_rmap. bits_bound 6 7 data.
  assert (C : bits 6 7 data = 0 \/ bits 6 7 data = 1 \/ 2 <= bits 6 7 data) by lia.
  destruct C as [C|[C|C]].
  - rewrite read_bds62_0 by assumption. cbv zeta.
    destruct (bits 47 48 data =? 0) eqn:Z0; [|refuses; broken].
    destruct (bits 49 51 data =? 0) eqn:Z1; [holds|refuses; broken].
  - rewrite read_bds62_1 by assumption. holds.
  - rewrite read_bds62_other by assumption. refuses. broken.
Qed.

Lemma operational_agrees : forall v a c data, bytes data -> len data = 7 -> KindOf data KOperational -> readable_adsb v data ->
  agrees (ReadADSBMessage v a c data) (adsb_checks v data).
Proof.
  intros v a c data Hb Hl Hk (_ & _ & R). assert (Ht : bits 1 5 data = 31) by (inversion Hk; assumption).
  rewrite read_operational by assumption. apply agrees_rmap. clear Hk. specialize (R Ht).
  unfold bds65.ReadAircraftOperationalStatus.
  split_list data Hl. gorun. normbits Hb.
  unfold bds65_fields.SubtypeAirborne, bds65_fields.SubtypeSurface, bds65_fields.ADSBVersion1, bds65_fields.ADSBVersion2.
  match type of Hb with bytes ?l =>
    assert (E41 : bits 41 56 l = bits 41 43 l * 8192 + bits 44 48 l * 256 + bits 49 56 l) by (bveq l Hb);
    bits_bound 41 43 l; bits_bound 44 48 l; bits_bound 49 56 l; bits_bound 9 10 l; bits_bound 13 14 l; bits_bound 6 8 l;
    match l with [_; _; _; _; _; ?d; ?e] =>
      assert (Ed : d = bits 41 43 l * 32 + bits 44 48 l) by (bveq l Hb);
      assert (Ee : e = bits 49 56 l) by (bveq l Hb);
      replace (d =? 0) with ((bits 41 43 l =? 0) && (bits 44 48 l =? 0)) by (clear - Ed B B0; lia);
      replace (e =? 0) with (bits 49 56 l =? 0) by (clear - Ee; lia)
    end;
    clear Ed Ee; assert (Hl : len l = 7) by reflexivity; remember l as f eqn:Ef; clear Ef Hb
  end.
  assert (U : u8 (bits 9 10 f * 4 + bits 13 14 f) = 4 * bits 9 10 f + bits 13 14 f)
    by (unfold u8; rewrite Z.mod_small; lia).
  rewrite U. clear U.
  rewrite Ht. cbn [Z.eqb Pos.eqb negb].
  destruct (bits 41 43 f =? 0) eqn:V0; cbn [rmap bind andb].
  { destruct (bits 6 8 f =? 0) eqn:S0; cbn [rmap bind andb negb]; [|refuses; broken].
    destruct (bits 44 48 f =? 0) eqn:Z0; cbn [rmap bind andb negb]; [|refuses; broken].
    destruct (bits 49 56 f =? 0) eqn:Z1; cbn [rmap bind andb negb]; [holds|refuses; broken]. }
  destruct (bits 41 43 f =? 1) eqn:V1; cbn [rmap bind andb negb].
  { destruct (bits 6 8 f =? 0) eqn:S0; cbn [rmap bind andb negb].
    2: destruct (bits 6 8 f =? 1) eqn:S1; cbn [rmap bind andb negb]; [|refuses; broken].
    all: destruct (4 * bits 9 10 f + bits 13 14 f =? 0) eqn:Z0; cbn [rmap bind andb negb]; [|refuses; broken].
    all: destruct (bits 25 26 f =? 0) eqn:Z1; cbn [rmap bind andb negb]; [|refuses; broken].
    all: destruct (bits 49 50 f * 64 =? 0) eqn:Z2; cbn [rmap bind andb negb]; [|refuses; broken].
    all: destruct (bits 55 56 f =? 0) eqn:Z3; cbn [rmap bind andb negb]; [holds|refuses; broken]. }
  destruct (bits 41 43 f =? 2) eqn:V2; cbn [rmap bind andb negb].
  { destruct (bits 6 8 f =? 0) eqn:S0; cbn [rmap bind andb negb].
    2: destruct (bits 6 8 f =? 1) eqn:S1; cbn [rmap bind andb negb]; [|refuses; broken].
    all: destruct (bits 9 10 f =? 0) eqn:Z0; cbn [rmap bind andb negb]; [|refuses; broken].
    all: destruct (bits 25 26 f =? 0) eqn:Z1; cbn [rmap bind andb negb]; [|refuses; broken].
    all: destruct (bits 56 56 f =? 0) eqn:Z2; cbn [rmap bind andb negb]; [holds|refuses; broken]. }
  replace (bits 6 8 f) with (bits 41 43 f) by lia. refuses. broken.
Qed.

Lemma adsb_agrees : forall v a c data, bytes data -> readable_adsb v data ->
  agrees (ReadADSBMessage v a c data) (adsb_checks v data).
Proof.
  intros v a c data Hb R. destruct (Z.eq_dec (len data) 7) as [Hl|Hl].
  2: { unfold ReadADSBMessage. decide_if. left. auto. }
  bits_bound 1 5 data.
  assert (C : (bits 1 5 data = 0 \/ 1 <= bits 1 5 data <= 4 \/ 5 <= bits 1 5 data <= 8 \/ (9 <= bits 1 5 data <= 18 \/ 20 <= bits 1 5 data <= 22) \/
     bits 1 5 data = 19 \/ bits 1 5 data = 28 \/ bits 1 5 data = 29 \/ bits 1 5 data = 31 \/ 23 <= bits 1 5 data <= 27 \/ bits 1 5 data = 30)) by lia.
  destruct C as [C|[C|[C|[C|[C|[C|[C|[C|C]]]]]]]].
  - apply type0_agrees; assumption.
  - rewrite identification_ok by (assumption || (constructor; assumption)). holds.
  - apply surface_agrees; try assumption. constructor; assumption.
  - apply airborne_agrees; try assumption. constructor; assumption.
  - apply velocity_agrees; try assumption. constructor; assumption.
  - apply status_agrees; try assumption. constructor; assumption.
  - apply target_agrees; try assumption. constructor; assumption.
  - apply operational_agrees; try assumption. constructor; assumption.
  - rewrite adsb_dispatch by assumption. cbv zeta. repeat decide_if. refuses. broken.
Qed.

Theorem adsb_reason_partial : forall v a c data e, bytes data ->
  (bits 1 5 data = 28 -> bits 6 8 data = 0 -> bits 17 56 data = 0) ->
  (bits 1 5 data = 28 -> bits 6 8 data = 2 -> bits 29 30 data = 2 -> bits 31 32 data = 0) ->
  (bits 1 5 data = 31 -> bits 41 43 data <= 2 \/ bits 41 43 data = bits 6 8 data) ->
  ReadADSBMessage v a c data = Err e <-> first_failed (adsb_checks v data) e.
Proof. intros v a c data e Hb H1 H2 H3. apply agrees_iff. apply adsb_agrees; [exact Hb|]. repeat split; assumption. Qed.

(* the error about an unknown version number gives the subtype instead of that number *)
Theorem adsb_reason_refuted : exists data e,
  bytes data /\ len data = 7 /\ bits 1 5 data = 31 /\ bits 6 8 data = 1 /\ bits 41 43 data = 3 /\
  ReadADSBMessage 2 false false data = Err e /\
  e = "the field VersionNumber must be comprised between 0 and 2 included, got 1"%string /\
  ~ first_failed (adsb_checks 2 data) e.
Proof.
  exists [0xF9; 0; 0; 0; 0; 0x60; 0]. eexists.
  assert (Hb : bytes [0xF9; 0; 0; 0; 0; 0x60; 0]) by (repeat constructor; lia).
  split; [exact Hb|]. repeat (split; [vm_compute; reflexivity|]).
  intro F.
  assert (G : first_failed (adsb_checks 2 [0xF9; 0; 0; 0; 0; 0x60; 0])
    "the field VersionNumber must be comprised between 0 and 2 included, got 3").
  { assert (E1 : bits 1 5 [0xF9; 0; 0; 0; 0; 0x60; 0] = 31) by reflexivity.
    assert (E2 : bits 41 43 [0xF9; 0; 0; 0; 0; 0x60; 0] = 3) by reflexivity.
    assert (E3 : len [0xF9; 0; 0; 0; 0; 0x60; 0] = 7) by reflexivity.
    unfold adsb_checks. cbv zeta. rewrite E1, E2, E3. cbn [first_failed].
    repeat (right; split; [solve [passes]|]). left. split; [|reflexivity]. intro K. specialize (K eq_refl). lia. }
  pose proof (first_failed_unique _ _ _ F G) as E. discriminate.
Qed.

Theorem advisory_reason_partial : forall data e, bytes data ->
  (bits 21 22 data = 2 -> bits 23 24 data = 0) ->
  acas_ra.ReadResolutionAdvisory data = Err e <-> first_failed (advisory_checks data) e.
Proof. intros data e Hb H. apply agrees_iff. apply advisory_agrees; assumption. Qed.

(* a threat at 2300 ft (pulses B1 and C1) is refused as malformed *)
Theorem advisory_reason_refuted : exists data e,
  bytes data /\ len data = 6 /\ bits 21 22 data = 2 /\
  ThreatAltitude data {| acas_ra_fields.ThreatIdentityAltitude_AltitudeStatus := acas_ra_fields.AltitudeValid;
                         acas_ra_fields.ThreatIdentityAltitude_AltitudeInFeet := 2300 |} /\
  acas_ra.ReadResolutionAdvisory data = Err e /\ ~ first_failed (advisory_checks data) e.
Proof.
  exists [0x80; 0; 0x0A; 0x04; 0; 0]. eexists.
  assert (A : ThreatAltitude [0x80; 0; 0x0A; 0x04; 0; 0]
    {| acas_ra_fields.ThreatIdentityAltitude_AltitudeStatus := acas_ra_fields.AltitudeValid;
       acas_ra_fields.ThreatIdentityAltitude_AltitudeInFeet := 2300 |}).
  { apply altitude; [vm_compute; intros [? ?]; discriminate|]. apply gillham_decodes. vm_compute. reflexivity. }
  split; [repeat constructor; lia|]. split; [reflexivity|]. split; [reflexivity|]. split; [exact A|].
  split; [vm_compute; reflexivity|].
  apply all_hold. unfold advisory_checks. every. intros _. eexists. exact A.
Qed.

(* ---- examples ---- *)
(* a DF4 of 14 bytes *)
Example reason_length_example :
  first_failed (mode_s_checks [0x20; 0; 0x0F; 0x80; 0; 0; 0; 0; 0; 0; 0; 0; 0; 0]) "DF4 message must be 7 bytes long".
Proof. apply mode_s_reason; [repeat constructor; lia|]. vm_compute. reflexivity. Qed.
(* a downlink format nobody uses *)
Example reason_format_example :
  first_failed (mode_s_checks [0x10; 0; 0; 0; 0; 0; 0]) "the downlink format 2 is not supported".
Proof. apply mode_s_reason; [repeat constructor; lia|]. vm_compute. reflexivity. Qed.
(* a velocity of subtype 5 *)
Example reason_velocity_example :
  first_failed (adsb_checks 2 [0x9D; 0; 0; 0; 0; 0; 0])
    "the field SubType must be comprised between 1 and 4 included, got 5".
Proof.
  apply (adsb_reason_partial 2 false false); try (vm_compute; intros; discriminate); [repeat constructor; lia|].
  vm_compute. reflexivity.
Qed.
(* an operational status of version 1 that announces a service level *)
Example reason_service_level_example :
  first_failed (adsb_checks 1 [0xF8; 0x40; 0; 0; 0; 0x20; 0])
    "the ServiceLevel (field Capability Class) must be 0 (4 given)".
Proof.
  apply (adsb_reason_partial 1 false false); try (vm_compute; intros; discriminate); [repeat constructor; lia| |].
  - intros _. left. vm_compute. discriminate.
  - vm_compute. reflexivity.
Qed.
(* an advisory with an impossible altitude of the threat (pulse B1 alone) *)
Example reason_advisory_example :
  first_failed (advisory_checks [0x80; 0; 0x08; 0x04; 0; 0]) "the Altitude field is malformed".
Proof. apply advisory_reason_partial; [repeat constructor; lia|intros; reflexivity|]. vm_compute. reflexivity. Qed.
