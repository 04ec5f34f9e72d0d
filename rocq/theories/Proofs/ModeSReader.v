(* C01 to C10: reading Mode S replies. *)
From Verif.Proofs Require Import Tac Gillham ModesFields.
From Verif.Spec Require Import Altitude ModeS.
From Verif.Gen Require bitutils modes_common modes_fields modes_messages.
From Verif.Model Require Import Crc ModesReader.
Local Open Scope Z_scope.

Ltac df_start H :=
  rewrite read_dispatch by (assumption || lia); unfold dispatch;
  cbn [frame_data modes_common.MessageData_DownLinkFormat]; rewrite H; cbn [Z.eqb Pos.eqb orb].

Ltac df_parse H P :=
  unfold P; cbn [frame_data modes_common.MessageData_DownLinkFormat modes_common.MessageData_Payload];
  rewrite H; rewrite payload_len by lia.

Ltac df_fields :=
  fold (frame_data);
  rewrite ?read_address, ?read_dr, ?read_um, ?read_ri, ?read_sl, ?read_vs, ?read_cc, ?read_ke, ?read_nd,
    ?read_mv, ?read_mb, ?read_me, ?read_md, ?read_identity by (assumption || lia).

(* ---- C04: short replies ---- *)

Theorem df0_layout : forall frame coding altitude,
  bytes frame -> len frame = 7 -> bits 1 5 frame = 0 ->
  Altitude13 frame coding altitude ->
  ReadMessage frame = Ok (MDF0
    {| modes_messages.MessageDF0_MessageData := frame_data frame;
       modes_messages.MessageDF0_VerticalStatus := bits 6 6 frame;
       modes_messages.MessageDF0_CrossLinkCapability := bits 7 7 frame;
       modes_messages.MessageDF0_SensitivityLevel := bits 9 11 frame;
       modes_messages.MessageDF0_ReplyInformation := bits 14 17 frame;
       modes_messages.MessageDF0_AltitudeReportMethod := coding_code coding;
       modes_messages.MessageDF0_Altitude := altitude |}).
Proof.
  intros frame c alt Hb Hl Hdf Ha. df_start Hdf.
  unfold modes_messages.ParseDF0.
  rewrite (read_altitude_ok frame Hb ltac:(lia) c alt Ha). df_fields.
  cbn [frame_data modes_common.MessageData_DownLinkFormat modes_common.MessageData_Payload].
  rewrite Hdf, payload_len, Hl by lia. reflexivity.
Qed.

Theorem df4_layout : forall frame coding altitude,
  bytes frame -> len frame = 7 -> bits 1 5 frame = 4 ->
  Altitude13 frame coding altitude ->
  ReadMessage frame = Ok (MDF4
    {| modes_messages.MessageDF4_MessageData := frame_data frame;
       modes_messages.MessageDF4_FlightStatus := bits 6 8 frame;
       modes_messages.MessageDF4_DownlinkRequest := bits 9 13 frame;
       modes_messages.MessageDF4_UtilityMessage :=
         {| modes_fields.UtilityMessage_InterrogatorIdentifier := bits 14 17 frame;
            modes_fields.UtilityMessage_IdentifierDesignator := bits 18 19 frame |};
       modes_messages.MessageDF4_AltitudeReportMethod := coding_code coding;
       modes_messages.MessageDF4_Altitude := altitude |}).
Proof.
  intros frame c alt Hb Hl Hdf Ha. df_start Hdf.
  unfold modes_messages.ParseDF4.
  rewrite (read_altitude_ok frame Hb ltac:(lia) c alt Ha). df_fields.
  cbn [frame_data modes_common.MessageData_DownLinkFormat modes_common.MessageData_Payload].
  rewrite Hdf, payload_len, Hl by lia. reflexivity.
Qed.

Theorem df5_layout : forall frame,
  bytes frame -> len frame = 7 -> bits 1 5 frame = 5 ->
  ReadMessage frame = Ok (MDF5
    {| modes_messages.MessageDF5_MessageData := frame_data frame;
       modes_messages.MessageDF5_FlightStatus := bits 6 8 frame;
       modes_messages.MessageDF5_DownlinkRequest := bits 9 13 frame;
       modes_messages.MessageDF5_UtilityMessage :=
         {| modes_fields.UtilityMessage_InterrogatorIdentifier := bits 14 17 frame;
            modes_fields.UtilityMessage_IdentifierDesignator := bits 18 19 frame |};
       modes_messages.MessageDF5_Identity :=
         {| modes_fields.Identity_Identity := identity13 frame |} |}).
Proof.
  intros frame Hb Hl Hdf. df_start Hdf.
  unfold modes_messages.ParseDF5. df_fields.
  cbn [frame_data modes_common.MessageData_DownLinkFormat modes_common.MessageData_Payload].
  rewrite Hdf, payload_len, Hl by lia. reflexivity.
Qed.

Theorem df11_layout : forall frame,
  bytes frame -> len frame = 7 -> bits 1 5 frame = 11 ->
  ReadMessage frame = Ok (MDF11
    {| modes_messages.MessageDF11_MessageData := frame_data frame;
       modes_messages.MessageDF11_Capability := bits 6 8 frame;
       modes_messages.MessageDF11_AddressAnnounced :=
         {| modes_fields.AddressAnnounced_Address := bits 9 32 frame |} |}).
Proof.
  intros frame Hb Hl Hdf. df_start Hdf.
  unfold modes_messages.ParseDF11. df_fields.
  cbn [frame_data modes_common.MessageData_DownLinkFormat modes_common.MessageData_Payload].
  rewrite Hdf, payload_len, Hl by lia. reflexivity.
Qed.

(* ---- C05: long replies ---- *)

Theorem df16_layout : forall frame coding altitude,
  bytes frame -> len frame = 14 -> bits 1 5 frame = 16 ->
  Altitude13 frame coding altitude ->
  ReadMessage frame = Ok (MDF16
    {| modes_messages.MessageDF16_MessageData := frame_data frame;
       modes_messages.MessageDF16_VerticalStatus := bits 6 6 frame;
       modes_messages.MessageDF16_SensitivityLevel := bits 9 11 frame;
       modes_messages.MessageDF16_ReplyInformation := bits 14 17 frame;
       modes_messages.MessageDF16_AltitudeReportMethod := coding_code coding;
       modes_messages.MessageDF16_Altitude := altitude;
       modes_messages.MessageDF16_MessageACAS := octets 5 11 frame |}).
Proof.
  intros frame c alt Hb Hl Hdf Ha. df_start Hdf.
  unfold modes_messages.ParseDF16.
  rewrite (read_altitude_ok frame Hb ltac:(lia) c alt Ha). df_fields.
  cbn [frame_data modes_common.MessageData_DownLinkFormat modes_common.MessageData_Payload].
  rewrite Hdf, payload_len, Hl by lia. reflexivity.
Qed.

Theorem df17_layout : forall frame,
  bytes frame -> len frame = 14 -> bits 1 5 frame = 17 ->
  ReadMessage frame = Ok (MDF17
    {| modes_messages.MessageDF17_MessageData := frame_data frame;
       modes_messages.MessageDF17_Capability := bits 6 8 frame;
       modes_messages.MessageDF17_AddressAnnounced :=
         {| modes_fields.AddressAnnounced_Address := bits 9 32 frame |};
       modes_messages.MessageDF17_MessageExtendedSquitter := octets 5 11 frame |}).
Proof.
  intros frame Hb Hl Hdf. df_start Hdf.
  unfold modes_messages.ParseDF17. df_fields.
  cbn [frame_data modes_common.MessageData_DownLinkFormat modes_common.MessageData_Payload].
  rewrite Hdf, payload_len, Hl by lia. reflexivity.
Qed.

Theorem df18_layout : forall frame,
  bytes frame -> len frame = 14 -> bits 1 5 frame = 18 ->
  ReadMessage frame = Ok (MDF18
    {| modes_messages.MessageDF18_MessageData := frame_data frame;
       modes_messages.MessageDF18_ControlField := bits 6 8 frame;
       modes_messages.MessageDF18_AddressAnnounced :=
         {| modes_fields.AddressAnnounced_Address := bits 9 32 frame |};
       modes_messages.MessageDF18_MessageExtendedSquitter := octets 5 11 frame |}).
Proof.
  intros frame Hb Hl Hdf. df_start Hdf.
  unfold modes_messages.ParseDF18. df_fields.
  cbn [frame_data modes_common.MessageData_DownLinkFormat modes_common.MessageData_Payload].
  rewrite Hdf, payload_len, Hl by lia. reflexivity.
Qed.

Theorem df19_layout : forall frame,
  bytes frame -> len frame = 14 -> bits 1 5 frame = 19 ->
  ReadMessage frame = Ok (MDF19
    {| modes_messages.MessageDF19_MessageData := frame_data frame;
       modes_messages.MessageDF19_ApplicationField := bits 6 8 frame |}).
Proof.
  intros frame Hb Hl Hdf. df_start Hdf.
  unfold modes_messages.ParseDF19. df_fields.
  cbn [frame_data modes_common.MessageData_DownLinkFormat modes_common.MessageData_Payload].
  rewrite Hdf, payload_len, Hl by lia. reflexivity.
Qed.

Theorem df20_layout : forall frame coding altitude,
  bytes frame -> len frame = 14 -> bits 1 5 frame = 20 ->
  Altitude13 frame coding altitude ->
  ReadMessage frame = Ok (MDF20
    {| modes_messages.MessageDF20_MessageData := frame_data frame;
       modes_messages.MessageDF20_FlightStatus := bits 6 8 frame;
       modes_messages.MessageDF20_DownlinkRequest := bits 9 13 frame;
       modes_messages.MessageDF20_UtilityMessage :=
         {| modes_fields.UtilityMessage_InterrogatorIdentifier := bits 14 17 frame;
            modes_fields.UtilityMessage_IdentifierDesignator := bits 18 19 frame |};
       modes_messages.MessageDF20_AltitudeReportMethod := coding_code coding;
       modes_messages.MessageDF20_Altitude := altitude;
       modes_messages.MessageDF20_MessageCommB := octets 5 11 frame |}).
Proof.
  intros frame c alt Hb Hl Hdf Ha. df_start Hdf.
  unfold modes_messages.ParseDF20.
  rewrite (read_altitude_ok frame Hb ltac:(lia) c alt Ha). df_fields.
  cbn [frame_data modes_common.MessageData_DownLinkFormat modes_common.MessageData_Payload].
  rewrite Hdf, payload_len, Hl by lia. reflexivity.
Qed.

Theorem df21_layout : forall frame,
  bytes frame -> len frame = 14 -> bits 1 5 frame = 21 ->
  ReadMessage frame = Ok (MDF21
    {| modes_messages.MessageDF21_MessageData := frame_data frame;
       modes_messages.MessageDF21_FlightStatus := bits 6 8 frame;
       modes_messages.MessageDF21_DownlinkRequest := bits 9 13 frame;
       modes_messages.MessageDF21_UtilityMessage :=
         {| modes_fields.UtilityMessage_InterrogatorIdentifier := bits 14 17 frame;
            modes_fields.UtilityMessage_IdentifierDesignator := bits 18 19 frame |};
       modes_messages.MessageDF21_Identity :=
         {| modes_fields.Identity_Identity := identity13 frame |};
       modes_messages.MessageDF21_MessageCommB := octets 5 11 frame |}).
Proof.
  intros frame Hb Hl Hdf. df_start Hdf.
  unfold modes_messages.ParseDF21. df_fields.
  cbn [frame_data modes_common.MessageData_DownLinkFormat modes_common.MessageData_Payload].
  rewrite Hdf, payload_len, Hl by lia. reflexivity.
Qed.

Theorem df24_layout : forall frame,
  bytes frame -> len frame = 14 -> bits 1 2 frame = 3 ->
  ReadMessage frame = Ok (MDF24
    {| modes_messages.MessageDF24_MessageData := frame_data frame;
       modes_messages.MessageDF24_ControlELM := bits 4 4 frame;
       modes_messages.MessageDF24_NumberOfDSegment := bits 5 8 frame;
       modes_messages.MessageDF24_MessageCommD := octets 2 11 frame |}).
Proof.
  intros frame Hb Hl H2.
  assert (Hdf : In (bits 1 5 frame) [24; 25; 26; 27; 28; 29; 30; 31]).
  { assert (E : bits 1 5 frame = bits 1 2 frame * 8 + bits 3 5 frame).
    { clear H2. split_list frame Hl. match type of Hb with bytes ?l => bveq l Hb end. }
    bits_bound 3 5 frame. rewrite E, H2. cbn [In]. lia. }
  rewrite read_dispatch by (assumption || lia). unfold dispatch.
  unfold modes_messages.ParseDF24. df_fields.
  cbn [frame_data modes_common.MessageData_DownLinkFormat modes_common.MessageData_Payload].
  rewrite payload_len, Hl by lia.
  cbn [In] in Hdf. intuition subst; match goal with H : _ = bits 1 5 _ |- _ => rewrite <- H end; reflexivity.
Qed.

(* An AC field with an illegal code is an error *)
Theorem altitude_illegal : forall frame, bytes frame -> (len frame = 7 \/ len frame = 14) ->
  has_altitude (bits 1 5 frame) -> (forall coding altitude, ~ Altitude13 frame coding altitude) ->
  exists e, ReadMessage frame = Err e.
Proof.
  intros frame Hb Hl Hdf N. destruct (read_altitude_err frame Hb Hl N) as [e E].
  rewrite read_dispatch by assumption. unfold dispatch.
  unfold modes_messages.ParseDF0, modes_messages.ParseDF4, modes_messages.ParseDF16, modes_messages.ParseDF20.
  rewrite E. cbn [frame_data modes_common.MessageData_DownLinkFormat modes_common.MessageData_Payload].
  rewrite payload_len by assumption.
  unfold has_altitude in Hdf. destruct Hdf as [H|[H|[H|H]]]; rewrite H; destruct Hl as [Hl|Hl]; rewrite Hl;
    eexists; reflexivity.
Qed.

Theorem wrong_format : forall frame, bytes frame ->
  ~ (len frame = 7 /\ short_format (bits 1 5 frame)) ->
  ~ (len frame = 14 /\ long_format (bits 1 5 frame)) ->
  exists e, ReadMessage frame = Err e.
Proof.
  intros frame Hb H7 H14.
  destruct (Z.eq_dec (len frame) 7) as [Hl|N7]; [|destruct (Z.eq_dec (len frame) 14) as [Hl|N14]].
  3:{ apply read_bad_length; assumption. }
  - rewrite read_dispatch by auto. unfold dispatch.
    unfold modes_messages.ParseDF16, modes_messages.ParseDF17, modes_messages.ParseDF18,
      modes_messages.ParseDF19, modes_messages.ParseDF20, modes_messages.ParseDF21, modes_messages.ParseDF24.
    cbn [frame_data modes_common.MessageData_DownLinkFormat modes_common.MessageData_Payload].
    rewrite payload_len, Hl by auto.
    assert (~ short_format (bits 1 5 frame)) as S by tauto. unfold short_format in S.
    bits_bound 1 5 frame.
    destruct (Z.eqb_spec (bits 1 5 frame) 0); [lia|].
    destruct (Z.eqb_spec (bits 1 5 frame) 4); [lia|].
    destruct (Z.eqb_spec (bits 1 5 frame) 5); [lia|].
    destruct (Z.eqb_spec (bits 1 5 frame) 11); [lia|].
    destruct (Z.eqb_spec (bits 1 5 frame) 16); [eexists; reflexivity|].
    destruct (Z.eqb_spec (bits 1 5 frame) 17); [eexists; reflexivity|].
    destruct (Z.eqb_spec (bits 1 5 frame) 18); [eexists; reflexivity|].
    destruct (Z.eqb_spec (bits 1 5 frame) 19); [eexists; reflexivity|].
    destruct (Z.eqb_spec (bits 1 5 frame) 20); [eexists; reflexivity|].
    destruct (Z.eqb_spec (bits 1 5 frame) 21); [eexists; reflexivity|].
    destruct (_ || _)%bool; [|eexists; reflexivity].
    destruct (negb _); eexists; reflexivity.
  - rewrite read_dispatch by auto. unfold dispatch.
    unfold modes_messages.ParseDF0, modes_messages.ParseDF4, modes_messages.ParseDF5, modes_messages.ParseDF11.
    cbn [frame_data modes_common.MessageData_DownLinkFormat modes_common.MessageData_Payload].
    rewrite payload_len, Hl by auto.
    assert (~ long_format (bits 1 5 frame)) as S by tauto. unfold long_format in S.
    bits_bound 1 5 frame.
    destruct (Z.eqb_spec (bits 1 5 frame) 0); [eexists; reflexivity|].
    destruct (Z.eqb_spec (bits 1 5 frame) 4); [eexists; reflexivity|].
    destruct (Z.eqb_spec (bits 1 5 frame) 5); [eexists; reflexivity|].
    destruct (Z.eqb_spec (bits 1 5 frame) 11); [eexists; reflexivity|].
    repeat match goal with |- context [bits 1 5 frame =? ?n] =>
      destruct (Z.eqb_spec (bits 1 5 frame) n); [lia|] end.
    eexists; reflexivity.
Qed.

Lemma long24 : forall frame, bytes frame -> len frame = 14 -> 24 <= bits 1 5 frame <= 31 -> bits 1 2 frame = 3.
Proof.
  intros frame Hb Hl H.
  assert (E : bits 1 5 frame = bits 1 2 frame * 8 + bits 3 5 frame).
  { clear H. split_list frame Hl. match type of Hb with bytes ?l => bveq l Hb end. }
  bits_bound 3 5 frame. bits_bound 1 2 frame. lia.
Qed.

(* ---- C02 ---- *)

(* which altitude codes are legal *)
Theorem altitude_legal : forall frame,
  (exists coding altitude, Altitude13 frame coding altitude) <->
  (bits 20 32 frame = 0 \/ bit 26 frame = true \/ bit 28 frame = true \/
   ~ ((bit 20 frame = false /\ bit 22 frame = false /\ bit 24 frame = false) \/
      (bit 20 frame = true /\ bit 24 frame = true))).
Proof.
  intros frame. split.
  - intros (c & alt & A). destruct A as [H|H|H H'|feet H H1 H2 G]; auto.
    right. right. right. intros B. 
    pose proof (proj1 (gillham_illegal _ _ _ _ _ _ _ _ _ _ _ _) (ex_intro _ feet G)) as I. apply I.
    destruct B as [(B1 & B2 & B3)|B]; [left|right]; [|exact B]. rewrite B1, B2, B3. auto.
  - intros H. destruct (Z.eqb_spec (bits 20 32 frame) 0) as [E0|E0]; [eexists _, _; apply alt_none; exact E0|].
    destruct (bit 26 frame) eqn:M; [eexists _, _; apply alt_metric; exact M|].
    destruct (bit 28 frame) eqn:Q; [eexists _, _; apply alt_25; assumption|].
    destruct H as [H|[H|[H|H]]]; try congruence.
    destruct (proj2 (gillham_illegal false (bit 30 frame) (bit 32 frame)
            (bit 21 frame) (bit 23 frame) (bit 25 frame)
            (bit 27 frame) (bit 29 frame) (bit 31 frame)
            (bit 20 frame) (bit 22 frame) (bit 24 frame))) as [feet G].
    { intros B. apply H. destruct B as [(B1 & B2 & B3)|B]; [left|right]; [|exact B].
      rewrite B1, B2, B3. auto. }
    eexists _, _. eapply alt_100; eassumption.
Qed.

Lemma altitude_dec : forall frame,
  (exists coding altitude, Altitude13 frame coding altitude) \/
  (forall coding altitude, ~ Altitude13 frame coding altitude).
Proof.
  intros frame.
  assert (D : (exists coding altitude, Altitude13 frame coding altitude) \/
              ~ (exists coding altitude, Altitude13 frame coding altitude)).
  { rewrite altitude_legal.
    destruct (Z.eq_dec (bits 20 32 frame) 0); [tauto|].
    destruct (bit 26 frame); [tauto|]. destruct (bit 28 frame); [tauto|].
    destruct (bit 20 frame), (bit 22 frame), (bit 24 frame);
      try (left; right; right; right; intros [(?&?&?)|(?&?)]; discriminate);
      right; intros [H|[H|[H|H]]]; try congruence; try discriminate; apply H; auto. }
  destruct D as [D|D]; [left; exact D|right]. intros c alt A. apply D. eauto.
Qed.

Lemma format_dec : forall frame,
  ((len frame = 7 /\ short_format (bits 1 5 frame)) \/
   (len frame = 14 /\ long_format (bits 1 5 frame))) \/
  (~ (len frame = 7 /\ short_format (bits 1 5 frame)) /\
   ~ (len frame = 14 /\ long_format (bits 1 5 frame))).
Proof. intros. unfold short_format, long_format. lia. Qed.

Lemma accepted : forall frame, bytes frame ->
  ((len frame = 7 /\ short_format (bits 1 5 frame)) \/
   (len frame = 14 /\ long_format (bits 1 5 frame))) ->
  (has_altitude (bits 1 5 frame) -> exists coding altitude, Altitude13 frame coding altitude) ->
  exists message, ReadMessage frame = Ok message.
Proof.
  intros frame Hb F A.
  destruct F as [[Hl [H|[H|[H|H]]]]|[Hl [H|H]]].
  + destruct A as (c & alt & A); [unfold has_altitude; lia|]. eexists. eapply df0_layout; eassumption.
  + destruct A as (c & alt & A); [unfold has_altitude; lia|]. eexists. eapply df4_layout; eassumption.
  + eexists. eapply df5_layout; eassumption.
  + eexists. eapply df11_layout; eassumption.
  + assert (D : In (bits 1 5 frame) [16; 17; 18; 19; 20; 21]) by (cbn [In]; lia).
    cbn [In] in D. destruct D as [D|[D|[D|[D|[D|[D|[]]]]]]]; symmetry in D.
    * destruct A as (c & alt & A); [unfold has_altitude; lia|]. eexists. eapply df16_layout; eassumption.
    * eexists. eapply df17_layout; eassumption.
    * eexists. eapply df18_layout; eassumption.
    * eexists. eapply df19_layout; eassumption.
    * destruct A as (c & alt & A); [unfold has_altitude; lia|]. eexists. eapply df20_layout; eassumption.
    * eexists. eapply df21_layout; eassumption.
  + eexists. apply df24_layout; try assumption. apply long24; assumption.
Qed.

Theorem read_message_accepts : forall frame, bytes frame ->
  (exists message, ReadMessage frame = Ok message) <->
  ((len frame = 7 /\ short_format (bits 1 5 frame)) \/
   (len frame = 14 /\ long_format (bits 1 5 frame))) /\
  (has_altitude (bits 1 5 frame) -> exists coding altitude, Altitude13 frame coding altitude).
Proof.
  intros frame Hb. split.
  - intros [m Hm].
    destruct (format_dec frame) as [F|[F7 F14]].
    2:{ destruct (wrong_format frame Hb F7 F14). congruence. }
    split; [exact F|]. intros HA.
    destruct (altitude_dec frame) as [D|D]; [exact D|].
    destruct (altitude_illegal frame Hb ltac:(lia) HA D). congruence.
  - intros [F A]. apply accepted; assumption.
Qed.

(* ---- C01 ---- *)

Theorem read_message_total : forall frame, bytes frame ->
  (exists message, ReadMessage frame = Ok message) \/ (exists error, ReadMessage frame = Err error).
Proof.
  intros frame Hb.
  destruct (format_dec frame) as [F|[F7 F14]]; [|right; apply wrong_format; assumption].
  destruct (altitude_dec frame) as [D|D]; [left; apply accepted; auto|].
  assert (H : has_altitude (bits 1 5 frame) \/ ~ has_altitude (bits 1 5 frame)) by (unfold has_altitude; lia).
  destruct H as [H|H]; [right; apply altitude_illegal; auto; lia|left; apply accepted; tauto].
Qed.

(* ---- C03 ---- *)

Theorem message_kind : forall frame message, bytes frame -> ReadMessage frame = Ok message ->
  let df := bits 1 5 frame in
  GetDownLinkFormat message = (if 24 <=? df then 24 else df) /\
  match message with
  | MDF0 _ => df = 0
  | MDF4 _ => df = 4
  | MDF5 _ => df = 5
  | MDF11 _ => df = 11
  | MDF16 _ => df = 16
  | MDF17 _ => df = 17
  | MDF18 _ => df = 18
  | MDF19 _ => df = 19
  | MDF20 _ => df = 20
  | MDF21 _ => df = 21
  | MDF24 _ => bits 1 2 frame = 3
  end.
Proof.
  intros frame m Hb Hm df.
  destruct (proj1 (read_message_accepts frame Hb)) as [F A]; [eauto|].
  assert (D : In df [0; 4; 5; 11; 16; 17; 18; 19; 20; 21] \/ 24 <= df <= 31).
  { unfold short_format, long_format in F. fold df in F. cbn [In]. lia. }
  assert (L : len frame = 14 \/ df = 0 \/ df = 4 \/ df = 5 \/ df = 11).
  { unfold short_format, long_format in F. fold df in F. lia. }
  assert (L' : len frame = 7 \/ ~ (df = 0 \/ df = 4 \/ df = 5 \/ df = 11)).
  { unfold short_format, long_format in F. fold df in F. lia. }
  destruct D as [D|D].
  - cbn [In] in D.
    destruct D as [D|[D|[D|[D|[D|[D|[D|[D|[D|[D|[]]]]]]]]]]]; symmetry in D; rewrite D; unfold df in *.
    + destruct A as (c & alt & A); [unfold has_altitude; lia|].
      rewrite (df0_layout frame c alt) in Hm by (assumption || lia). injection Hm as <-. auto.
    + destruct A as (c & alt & A); [unfold has_altitude; lia|].
      rewrite (df4_layout frame c alt) in Hm by (assumption || lia). injection Hm as <-. auto.
    + rewrite df5_layout in Hm by (assumption || lia). injection Hm as <-. auto.
    + rewrite df11_layout in Hm by (assumption || lia). injection Hm as <-. auto.
    + destruct A as (c & alt & A); [unfold has_altitude; lia|].
      rewrite (df16_layout frame c alt) in Hm by (assumption || lia). injection Hm as <-. auto.
    + rewrite df17_layout in Hm by (assumption || lia). injection Hm as <-. auto.
    + rewrite df18_layout in Hm by (assumption || lia). injection Hm as <-. auto.
    + rewrite df19_layout in Hm by (assumption || lia). injection Hm as <-. auto.
    + destruct A as (c & alt & A); [unfold has_altitude; lia|].
      rewrite (df20_layout frame c alt) in Hm by (assumption || lia). injection Hm as <-. auto.
    + rewrite df21_layout in Hm by (assumption || lia). injection Hm as <-. auto.
  - unfold df in *. destruct L as [L|L]; [|lia].
    rewrite df24_layout in Hm by (try apply long24; assumption). injection Hm as <-.
    destruct (Z.leb_spec 24 (bits 1 5 frame)); [|lia]. split; [reflexivity|]. apply long24; assumption.
Qed.

(* ---- C07: every 25 ft multiple has a code, and the code of an altitude is unique ---- *)

Theorem altitude_unique : forall frame c1 a1 c2 a2, bytes frame -> (len frame = 7 \/ len frame = 14) ->
  Altitude13 frame c1 a1 -> Altitude13 frame c2 a2 -> c1 = c2 /\ a1 = a2.
Proof.
  intros frame c1 a1 c2 a2 Hb Hl H1 H2.
  apply (read_altitude_ok frame Hb Hl) in H1. apply (read_altitude_ok frame Hb Hl) in H2.
  rewrite H1 in H2. injection H2 as E1 E2. split; [|exact E1].
  destruct c1, c2; try reflexivity; discriminate.
Qed.

(* ---- C06 ---- *)

Lemma squawk_inj : forall a b c d a' b' c' d',
  0 <= a < 8 -> 0 <= b < 8 -> 0 <= c < 8 -> 0 <= d < 8 ->
  0 <= a' < 8 -> 0 <= b' < 8 -> 0 <= c' < 8 -> 0 <= d' < 8 ->
  squawk a b c d = squawk a' b' c' d' -> a = a' /\ b = b' /\ c = c' /\ d = d'.
Proof.
  intros *. intros Ha Hb Hc Hd Ha' Hb' Hc' Hd' H. unfold squawk in H. injection H as E1 E2 E3 E4.
  assert (I : forall x y, 0 <= x < 8 -> 0 <= y < 8 -> digit_char x = digit_char y -> x = y).
  { intros x y Hx Hy E. unfold digit_char in E.
    apply (f_equal Ascii.nat_of_ascii) in E. rewrite !Ascii.nat_ascii_embedding in E by lia. lia. }
  auto.
Qed.

Lemma number3 : forall x y z : bool, 0 <= number [x; y; z] < 8.
Proof. intros [] [] []; cbn; lia. Qed.

Lemma number3_inj : forall x y z x' y' z' : bool,
  number [x; y; z] = number [x'; y'; z'] -> x = x' /\ y = y' /\ z = z'.
Proof. intros [] [] [] [] [] []; cbn; intros; try lia; auto. Qed.

Lemma bit_eq : forall i f g, bit i f = bit i g -> bits i i f = bits i i g.
Proof. intros. rewrite !bit_spec, H. reflexivity. Qed.

(* two frames with the same identity carry the same twelve pulses *)
Theorem identity_injective : forall f g, bytes f -> bytes g ->
  (len f = 7 \/ len f = 14) -> (len g = 7 \/ len g = 14) ->
  identity13 f = identity13 g ->
  bits 20 25 f = bits 20 25 g /\ bits 27 32 f = bits 27 32 g.
Proof.
  intros f g Hf Hg Lf Lg H. unfold identity13 in H.
  apply squawk_inj in H; try apply number3. destruct H as (Ea & Eb & Ec & Ed).
  apply number3_inj in Ea, Eb, Ec, Ed.
  destruct Ea as (A4 & A2 & A1), Eb as (B4 & B2 & B1), Ec as (C4 & C2 & C1), Ed as (D4 & D2 & D1).
  apply bit_eq in A4, A2, A1, B4, B2, B1, C4, C2, C1, D4, D2, D1.
  assert (S : forall h, bytes h -> (len h = 7 \/ len h = 14) ->
    bits 20 25 h = bits 20 20 h * 32 + bits 21 21 h * 16 + bits 22 22 h * 8
                 + bits 23 23 h * 4 + bits 24 24 h * 2 + bits 25 25 h /\
    bits 27 32 h = bits 27 27 h * 32 + bits 28 28 h * 16 + bits 29 29 h * 8
                 + bits 30 30 h * 4 + bits 31 31 h * 2 + bits 32 32 h).
  { intros h Hh [L|L]; split_list h L; split; match type of Hh with bytes ?l => bveq l Hh end. }
  destruct (S f Hf Lf) as [-> ->]. destruct (S g Hg Lg) as [-> ->].
  rewrite A4, A2, A1, B4, B2, B1, C4, C2, C1, D4, D2, D1. auto.
Qed.

(* an identity reply with squawk a b c d *)
Definition id_frame (a b c d : Z) : list Z :=
  let p x i := if Z.testbit x i then 1 else 0 in
  [40; 0; 16 * p c 0 + 8 * p a 0 + 4 * p c 1 + 2 * p a 1 + p c 2;
   128 * p a 2 + 32 * p b 0 + 16 * p d 0 + 8 * p b 1 + 4 * p d 1 + 2 * p b 2 + p d 2; 0; 0; 0].

Definition id_check (a b c d : Z) : bool :=
  String.eqb (identity13 (id_frame a b c d)) (squawk a b c d) &&
  List.forallb (fun x => (0 <=? x) && (x <? 256)) (id_frame a b c d) &&
  (bits 1 5 (id_frame a b c d) =? 5).

Lemma id_check_all : forall a b c d, 0 <= a < 0 + 8 -> 0 <= b < 0 + 8 -> 0 <= c < 0 + 8 -> 0 <= d < 0 + 8 ->
  id_check a b c d = true.
Proof.
  intros a b c d Ha Hb Hc Hd. revert d Hd. apply forall_range.
  revert c Hc. apply (forall_range (fun c => List.forallb _ _)).
  revert b Hb. apply (forall_range (fun b => List.forallb _ _)).
  revert a Ha. apply (forall_range (fun a => List.forallb _ _)).
  vm_compute. reflexivity.
Qed.

Lemma bytes_check : forall l, List.forallb (fun x => (0 <=? x) && (x <? 256)) l = true -> bytes l.
Proof.
  intros l H. apply Forall_forall. intros x Hx. rewrite List.forallb_forall in H.
  specialize (H x Hx). unfold byte. lia.
Qed.

Lemma id_read : forall f s, bytes f -> len f = 7 -> bits 1 5 f = 5 -> identity13 f = s ->
  exists frame message, bytes frame /\ len frame = 7 /\
    ReadMessage frame = Ok (MDF5 message) /\
    modes_messages.MessageDF5_Identity message = {| modes_fields.Identity_Identity := s |}.
Proof.
  intros f s C2 L C3 C1. eexists f, _. split; [exact C2|]. split; [exact L|].
  split; [apply df5_layout; [exact C2|exact L|exact C3]|].
  cbn [modes_messages.MessageDF5_Identity]. rewrite C1. reflexivity.
Qed.

Lemma id_check_facts : forall a b c d, id_check a b c d = true ->
  bytes (id_frame a b c d) /\ bits 1 5 (id_frame a b c d) = 5 /\ identity13 (id_frame a b c d) = squawk a b c d.
Proof.
  intros a b c d. unfold id_check. generalize (id_frame a b c d). intros f C.
  apply andb_true_iff in C as [C C3]. apply andb_true_iff in C as [C1 C2].
  apply bytes_check in C2. apply String.eqb_eq in C1. apply Z.eqb_eq in C3. auto.
Qed.

Lemma id_frame_len : forall a b c d, len (id_frame a b c d) = 7.
Proof. reflexivity. Qed.

(* every squawk can be received *)
Theorem identity_surjective : forall a b c d, 0 <= a < 8 -> 0 <= b < 8 -> 0 <= c < 8 -> 0 <= d < 8 ->
  exists frame message, bytes frame /\ len frame = 7 /\
    ReadMessage frame = Ok (MDF5 message) /\
    modes_messages.MessageDF5_Identity message =
      {| modes_fields.Identity_Identity := squawk a b c d |}.
Proof.
  intros a b c d Ha Hb Hc Hd.
  destruct (id_check_facts a b c d (id_check_all a b c d Ha Hb Hc Hd)) as (B & F & I).
  exact (id_read _ _ B (id_frame_len a b c d) F I).
Qed.

Theorem emergency_squawks : forall s,
  let id := {| modes_fields.Identity_Identity := s |} in
  (modes_fields.Identity_IsSpecialEmergency id = true <-> s = squawk 7 7 0 0) /\
  (modes_fields.Identity_IsSpecialRadiocommunicationFailure id = true <-> s = squawk 7 6 0 0) /\
  (modes_fields.Identity_IsSpecialUnlawfulInterference id = true <-> s = squawk 7 5 0 0) /\
  (modes_fields.Identity_IsSpecialInstructionNotReceived id = true <-> s = squawk 2 0 0 0).
Proof. intros s id. repeat split; intros H; try (apply String.eqb_eq in H; exact H); subst s; reflexivity. Qed.

(* ---- C08, C09 ---- *)

Theorem gillham_correct : forall d1 d2 d4 a1 a2 a4 b1 b2 b4 c1 c2 c4,
  (forall feet, Gillham d1 d2 d4 a1 a2 a4 b1 b2 b4 c1 c2 c4 feet <->
     bitutils.GillhamToAltitude d1 d2 d4 a1 a2 a4 b1 b2 b4 c1 c2 c4 = Ok feet) /\
  ((forall feet, ~ Gillham d1 d2 d4 a1 a2 a4 b1 b2 b4 c1 c2 c4 feet) <->
     exists e, bitutils.GillhamToAltitude d1 d2 d4 a1 a2 a4 b1 b2 b4 c1 c2 c4 = Err e).
Proof. intros. split; [intros; apply gillham_decodes|apply gillham_rejects]. Qed.

(* every altitude from -1200 ft, by steps of 100 ft, has exactly one setting of the pulses *)
Theorem gillham_onto : forall k, 0 <= k < 2560 ->
  exists d1 d2 d4 a1 a2 a4 b1 b2 b4 c1 c2 c4,
    bitutils.GillhamToAltitude d1 d2 d4 a1 a2 a4 b1 b2 b4 c1 c2 c4 = Ok (100 * k - 1200).
Proof.
  intros k Hk.
  set (p := fun i => Z.testbit (fst (gillham_pulses k)) i). 
  set (q := fun i => Z.testbit (snd (gillham_pulses k)) i).
  exists (p 8), (p 7), (p 6), (p 5), (p 4), (p 3), (p 2), (p 1), (p 0), (q 2), (q 1), (q 0).
  apply gillham_decodes. exists k. split; [lia|]. split; [reflexivity|]. apply pair_eqb_eq. subst p q. cbn beta.
  revert k Hk. apply (forall_range (fun k => pair_eqb
   (number [Z.testbit (fst (gillham_pulses k)) 8; Z.testbit (fst (gillham_pulses k)) 7;
            Z.testbit (fst (gillham_pulses k)) 6; Z.testbit (fst (gillham_pulses k)) 5;
            Z.testbit (fst (gillham_pulses k)) 4; Z.testbit (fst (gillham_pulses k)) 3;
            Z.testbit (fst (gillham_pulses k)) 2; Z.testbit (fst (gillham_pulses k)) 1;
            Z.testbit (fst (gillham_pulses k)) 0],
    number [Z.testbit (snd (gillham_pulses k)) 2; Z.testbit (snd (gillham_pulses k)) 1;
            Z.testbit (snd (gillham_pulses k)) 0]) (gillham_pulses k)) 0 2560).
  vm_compute. reflexivity.
Qed.

Theorem gillham_unit_distance :
  forall d1 d2 d4 a1 a2 a4 b1 b2 b4 c1 c2 c4 d1' d2' d4' a1' a2' a4' b1' b2' b4' c1' c2' c4' feet,
  bitutils.GillhamToAltitude d1 d2 d4 a1 a2 a4 b1 b2 b4 c1 c2 c4 = Ok feet ->
  bitutils.GillhamToAltitude d1' d2' d4' a1' a2' a4' b1' b2' b4' c1' c2' c4' = Ok (feet + 100) ->
  hamming [d1; d2; d4; a1; a2; a4; b1; b2; b4; c1; c2; c4]
          [d1'; d2'; d4'; a1'; a2'; a4'; b1'; b2'; b4'; c1'; c2'; c4'] = 1.
Proof. exact gillham_unit. Qed.

(* ---- C07 ---- *)

(* an altitude reply with the 25 ft code n *)
Definition alt_frame (n : Z) : list Z :=
  [32; 0; n / 64; 128 * (n / 32 mod 2) + 32 * (n / 16 mod 2) + 16 + n mod 16; 0; 0; 0].

Theorem altitude_25ft_onto : forall n, 0 <= n < 2048 ->
  exists frame message, bytes frame /\ len frame = 7 /\ ReadMessage frame = Ok (MDF4 message) /\
    modes_messages.MessageDF4_Altitude message = 25 * n - 1000 /\
    modes_messages.MessageDF4_AltitudeReportMethod message = modes_fields.AltitudeCodeReport25FootIncrements.
Proof.
  intros n Hn.
  assert (C : List.forallb (fun x => (0 <=? x) && (x <? 256)) (alt_frame n) &&
    (bits 1 5 (alt_frame n) =? 4) && negb (bit 26 (alt_frame n)) && (bit 28 (alt_frame n)) &&
    (32 * bits 20 25 (alt_frame n) + 16 * bits 27 27 (alt_frame n) + bits 29 32 (alt_frame n) =? n) = true).
  { revert n Hn. apply (forall_range (fun n => List.forallb (fun x => (0 <=? x) && (x <? 256)) (alt_frame n) &&
    (bits 1 5 (alt_frame n) =? 4) && negb (bit 26 (alt_frame n)) && (bit 28 (alt_frame n)) &&
    (32 * bits 20 25 (alt_frame n) + 16 * bits 27 27 (alt_frame n) + bits 29 32 (alt_frame n) =? n)) 0 2048).
    vm_compute. reflexivity. }
  apply andb_true_iff in C as [C C5]. apply andb_true_iff in C as [C C4].
  apply andb_true_iff in C as [C C3]. apply andb_true_iff in C as [C1 C2].
  apply bytes_check in C1. apply Z.eqb_eq in C2, C5. apply negb_true_iff in C3.
  assert (L : len (alt_frame n) = 7) by reflexivity.
  revert C1 C2 C3 C4 C5 L. generalize (alt_frame n). intros f C1 C2 C3 C4 C5 L.
  eexists f, _. split; [exact C1|]. split; [exact L|].
  split; [apply df4_layout; [exact C1|exact L|exact C2|apply alt_25; assumption]|].
  cbn [modes_messages.MessageDF4_Altitude modes_messages.MessageDF4_AltitudeReportMethod].
  rewrite C5. auto.
Qed.

(* ---- C10 ---- *)

Theorem pack_bytes : forall b3 b2 b1 b0, byte b3 -> byte b2 -> byte b1 -> byte b0 ->
  bitutils.Pack2Bytes b1 b0 = be [b1; b0] /\
  bitutils.Pack3Bytes b2 b1 b0 = be [b2; b1; b0] /\
  bitutils.Pack4Bytes b3 b2 b1 b0 = be [b3; b2; b1; b0].
Proof.
  unfold byte. intros b3 b2 b1 b0 H3 H2 H1 H0. unpack. unfold u16, u32. rewrite !Z.shiftl_mul_pow2 by lia.
  unfold be. cbn [List.fold_left].
  change (2 ^ 8) with 256. change (2 ^ 16) with 65536. change (2 ^ 24) with 16777216.
  repeat split;
    repeat match goal with |- context [?x mod ?m] => rewrite (Z.mod_small x m) by lia end; lia.
Qed.

Theorem pack_bits : forall b15 b14 b13 b12 b11 b10 b9 b8 b7 b6 b5 b4 b3 b2 b1 b0,
  bitutils.Pack8Bits b7 b6 b5 b4 b3 b2 b1 b0 = number [b7; b6; b5; b4; b3; b2; b1; b0] /\
  bitutils.Pack16Bits b15 b14 b13 b12 b11 b10 b9 b8 b7 b6 b5 b4 b3 b2 b1 b0
    = number [b15; b14; b13; b12; b11; b10; b9; b8; b7; b6; b5; b4; b3; b2; b1; b0].
Proof.
  intros. split; apply Z.eqb_eq.
  - revert b0. apply forall_bool.
    revert b1. apply (forall_bool (fun _ => List.forallb _ _)).
    revert b2. apply (forall_bool (fun _ => List.forallb _ _)).
    revert b3. apply (forall_bool (fun _ => List.forallb _ _)).
    revert b4. apply (forall_bool (fun _ => List.forallb _ _)).
    revert b5. apply (forall_bool (fun _ => List.forallb _ _)).
    revert b6. apply (forall_bool (fun _ => List.forallb _ _)).
    revert b7. apply (forall_bool (fun _ => List.forallb _ _)).
    vm_compute. reflexivity.
  - revert b0. apply forall_bool.
    revert b1. apply (forall_bool (fun _ => List.forallb _ _)).
    revert b2. apply (forall_bool (fun _ => List.forallb _ _)).
    revert b3. apply (forall_bool (fun _ => List.forallb _ _)).
    revert b4. apply (forall_bool (fun _ => List.forallb _ _)).
    revert b5. apply (forall_bool (fun _ => List.forallb _ _)).
    revert b6. apply (forall_bool (fun _ => List.forallb _ _)).
    revert b7. apply (forall_bool (fun _ => List.forallb _ _)).
    revert b8. apply (forall_bool (fun _ => List.forallb _ _)).
    revert b9. apply (forall_bool (fun _ => List.forallb _ _)).
    revert b10. apply (forall_bool (fun _ => List.forallb _ _)).
    revert b11. apply (forall_bool (fun _ => List.forallb _ _)).
    revert b12. apply (forall_bool (fun _ => List.forallb _ _)).
    revert b13. apply (forall_bool (fun _ => List.forallb _ _)).
    revert b14. apply (forall_bool (fun _ => List.forallb _ _)).
    revert b15. apply (forall_bool (fun _ => List.forallb _ _)).
    vm_compute. reflexivity.
Qed.

(* ---- Concrete cases that meet the hypotheses ---- *)

(* DF17, 8D 48 40 D6 20 2C C3 71 C3 2C E0 57 60 98 *)
Definition frame17 : list Z := [0x8D; 0x48; 0x40; 0xD6; 0x20; 0x2C; 0xC3; 0x71; 0xC3; 0x2C; 0xE0; 0x57; 0x60; 0x98].
Example frame17_ok : bytes frame17 /\ len frame17 = 14 /\ bits 1 5 frame17 = 17.
Proof. split; [apply bytes_check; reflexivity|split; reflexivity]. Qed.
Example frame17_read : exists m, ReadMessage frame17 = Ok (MDF17 m) /\
  modes_messages.MessageDF17_AddressAnnounced m = {| modes_fields.AddressAnnounced_Address := 0x4840D6 |}.
Proof. eexists. split; vm_compute; reflexivity. Qed.

(* DF4 at 25 ft coding (36000 ft), and DF20 at 100 ft coding *)
Definition frame4 : list Z := [0x20; 0x00; 0x17; 0xB0; 0x11; 0x22; 0x33].
Example frame4_ok : bytes frame4 /\ len frame4 = 7 /\ bits 1 5 frame4 = 4 /\ Altitude13 frame4 Feet25 37000.
Proof.
  split; [apply bytes_check; reflexivity|]. split; [reflexivity|]. split; [reflexivity|].
  apply (alt_25 frame4); reflexivity.
Qed.
Definition frame20 : list Z := [0xA0; 0x00; 0x01; 0x0A; 1; 2; 3; 4; 5; 6; 7; 8; 9; 10].
Example frame20_ok : bytes frame20 /\ len frame20 = 14 /\ bits 1 5 frame20 = 20 /\
  exists feet, Altitude13 frame20 Feet100 feet.
Proof.
  split; [apply bytes_check; reflexivity|]. split; [reflexivity|]. split; [reflexivity|].
  eexists. apply alt_100; [discriminate|reflexivity|reflexivity|]. apply gillham_decodes. vm_compute. reflexivity.
Qed.
(* an illegal altitude code: D4 alone *)
Example frame4_illegal : exists e, ReadMessage [0x20; 0; 0; 0x01; 0; 0; 0] = Err e.
Proof. eexists. vm_compute. reflexivity. Qed.
