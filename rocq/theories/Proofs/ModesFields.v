(* The fields of Mode S replies, read by the code, in terms of bits of the frame. *)
From Verif.Proofs Require Import Tac Gillham.
From Verif.Spec Require Export Altitude ModeS.
From Verif.Gen Require bitutils modes_common modes_fields modes_messages.
From Verif.Model Require Import Crc ModesReader.
Local Open Scope Z_scope.



Ltac ev_oct :=
  repeat match goal with
  | |- context [octets ?i ?j ?l] => is_blist l; 
      let r := eval vm_compute in (octets i j l) in change (octets i j l) with r
  end.

Ltac frame_start frame Hb Hl :=
  split_list frame Hl; unfold frame_data; ev_len; ev_oct;
  cbn [modes_common.MessageData_Payload modes_common.MessageData_DownLinkFormat
       modes_common.MessageData_FirstField modes_common.MessageData_Parity].

(* The altitude as computed by the code, in terms of bits of the frame *)
Definition code_altitude13 (f : list Z) : res (Z * Z) :=
  if bits 20 32 f =? 0 then Ok (0, modes_fields.AltitudeCodeReportNotAvailable)
  else if bit 26 f then Ok (0, modes_fields.AltitudeCodeReportMetricUnits)
  else if bit 28 f then
    Ok (25 * (32 * bits 20 25 f + 16 * bits 27 27 f + bits 29 32 f) - 1000,
        modes_fields.AltitudeCodeReport25FootIncrements)
  else
    match bitutils.GillhamToAltitude false (bit 30 f) (bit 32 f)
            (bit 21 f) (bit 23 f) (bit 25 f)
            (bit 27 f) (bit 29 f) (bit 31 f)
            (bit 20 f) (bit 22 f) (bit 24 f)
    with
    | Ok a => Ok (a, modes_fields.AltitudeCodeReport100FootIncrements)
    | Err e => Err "the Altitude field is malformed"%string
    | Panic => Panic
    end.


Lemma read_altitude_code : forall frame, bytes frame -> (len frame = 7 \/ len frame = 14) ->
  modes_fields.ReadAltitude (frame_data frame) = code_altitude13 frame.
Proof.
  intros frame Hb [Hl|Hl]; frame_start frame Hb Hl; unfold modes_fields.ReadAltitude;
  cbn [modes_common.MessageData_Payload]; gostep; normbits Hb; rewrite ?mul_eq0, ?bit_neg0;
  unfold code_altitude13;
  match type of Hb with bytes ?l => 
       assert (E : Z.lor (Z.lor (bits 20 25 l * 32) (bits 27 27 l * 16)) (bits 29 32 l)
         = bits 20 25 l * 32 + bits 27 27 l * 16 + bits 29 32 l) by (bveq l Hb);
       rewrite E; clear E;
       bits_bound 20 25 l; bits_bound 27 27 l; bits_bound 29 32 l
  end; rewrite !i32_small by (rewrite ?i32_small by lia; lia); 
  match goal with |- context [25 * ?a - 1000] => 
   match goal with |- context [25 * ?b - 1000] => tryif constr_eq a b then fail else replace a with b by lia end end; reflexivity.
Qed.

(* ... hence as the standard says *)
Lemma read_altitude_ok : forall frame, bytes frame -> (len frame = 7 \/ len frame = 14) ->
  forall c alt, Altitude13 frame c alt ->
  modes_fields.ReadAltitude (frame_data frame) = Ok (alt, coding_code c).
Proof.
  intros frame Hb Hl c alt H. rewrite read_altitude_code by assumption. unfold code_altitude13.
  assert (Hz : bits 20 32 frame = 0 -> bit 26 frame = false /\ bit 28 frame = false).
  { intros Z0. unfold bit. rewrite (bits_of_zero 20 32 frame 26 26) by (assumption || lia).
    rewrite (bits_of_zero 20 32 frame 28 28) by (assumption || lia). auto. }
  destruct H as [H|H|H H'|feet H H1 H2 G].
  - rewrite H. reflexivity.
  - destruct (Z.eqb_spec (bits 20 32 frame) 0) as [E|_]; [apply Hz in E; destruct E; congruence|].
    rewrite H. reflexivity.
  - destruct (Z.eqb_spec (bits 20 32 frame) 0) as [E|_]; [apply Hz in E; destruct E; congruence|].
    rewrite H, H'. reflexivity.
  - destruct (Z.eqb_spec (bits 20 32 frame) 0) as [E|_]; [contradiction|].
    rewrite H1, H2. apply gillham_decodes in G. rewrite G. reflexivity.
Qed.

Lemma read_altitude_err : forall frame, bytes frame -> (len frame = 7 \/ len frame = 14) ->
  (forall c alt, ~ Altitude13 frame c alt) ->
  exists e, modes_fields.ReadAltitude (frame_data frame) = Err e.
Proof.
  intros frame Hb Hl N. rewrite read_altitude_code by assumption. unfold code_altitude13.
  destruct (Z.eqb_spec (bits 20 32 frame) 0) as [E|E]; [exfalso; eapply N, alt_none, E|].
  destruct (bit 26 frame) eqn:M; [exfalso; eapply N, alt_metric, M|].
  destruct (bit 28 frame) eqn:Q; [exfalso; eapply N, alt_25; eassumption|].
  destruct (bitutils.GillhamToAltitude _ _ _ _ _ _ _ _ _ _ _ _) as [a|e|] eqn:G.
  - exfalso. eapply N, alt_100; try eassumption. apply gillham_decodes. exact G.
  - eexists. reflexivity.
  - exfalso.
    pose proof (proj1 (gillham_rejects false (bit 30 frame) (bit 32 frame)
            (bit 21 frame) (bit 23 frame) (bit 25 frame)
            (bit 27 frame) (bit 29 frame) (bit 31 frame)
            (bit 20 frame) (bit 22 frame) (bit 24 frame))) as R.
    destruct R as [e R].
    + intros feet F. apply gillham_decodes in F. congruence.
    + congruence.
Qed.

Lemma octal_digit : forall x y z : bool,
  dec (Z.lor (Z.lor ((if x then 1 else 0) * 4) ((if y then 1 else 0) * 2)) (if z then 1 else 0))
  = String (digit_char (number [x; y; z])) EmptyString.
Proof. intros [] [] []; reflexivity. Qed.

Lemma read_identity : forall frame, bytes frame -> (len frame = 7 \/ len frame = 14) ->
  modes_fields.ReadIdentity (frame_data frame) =
  Ok {| modes_fields.Identity_Identity := identity13 frame |}.
Proof.
  intros frame Hb [Hl|Hl]; frame_start frame Hb Hl; unfold modes_fields.ReadIdentity;
  cbn [modes_common.MessageData_Payload]; gostep; unpack; normbits Hb;
  rewrite !bit_spec, !octal_digit; reflexivity.
Qed.

(* the other fields *)
Ltac mfield Hb := cbn [modes_common.MessageData_Payload modes_common.MessageData_DownLinkFormat
       modes_common.MessageData_FirstField]; gostep; unpack; normbits Hb;
  rewrite ?mul_eq0, ?bit_neg0.

Lemma read_address : forall frame, bytes frame -> (len frame = 7 \/ len frame = 14) ->
  modes_fields.ReadAddressAnnounced (frame_data frame) =
  Ok {| modes_fields.AddressAnnounced_Address := bits 9 32 frame |}.
Proof.
  intros frame Hb [Hl|Hl]; frame_start frame Hb Hl; unfold modes_fields.ReadAddressAnnounced;
  mfield Hb; reflexivity.
Qed.

Lemma read_dr : forall frame, bytes frame -> (len frame = 7 \/ len frame = 14) ->
  modes_fields.ReadDownlinkRequest (frame_data frame) = Ok (bits 9 13 frame).
Proof.
  intros frame Hb [Hl|Hl]; frame_start frame Hb Hl; unfold modes_fields.ReadDownlinkRequest;
  mfield Hb; reflexivity.
Qed.

Lemma read_um : forall frame, bytes frame -> (len frame = 7 \/ len frame = 14) ->
  modes_fields.ReadUtilityMessage (frame_data frame) =
  Ok {| modes_fields.UtilityMessage_InterrogatorIdentifier := bits 14 17 frame;
        modes_fields.UtilityMessage_IdentifierDesignator := bits 18 19 frame |}.
Proof.
  intros frame Hb [Hl|Hl]; frame_start frame Hb Hl; unfold modes_fields.ReadUtilityMessage;
  mfield Hb; reflexivity.
Qed.

Lemma read_ri : forall frame, bytes frame -> (len frame = 7 \/ len frame = 14) ->
  modes_fields.ReadReplyInformationAirAir (frame_data frame) = Ok (bits 14 17 frame).
Proof.
  intros frame Hb [Hl|Hl]; frame_start frame Hb Hl; unfold modes_fields.ReadReplyInformationAirAir;
  mfield Hb; reflexivity.
Qed.

Lemma read_sl : forall frame, bytes frame -> (len frame = 7 \/ len frame = 14) ->
  modes_fields.ReadSensitivityLevelReport (frame_data frame) = Ok (bits 9 11 frame).
Proof.
  intros frame Hb [Hl|Hl]; frame_start frame Hb Hl; unfold modes_fields.ReadSensitivityLevelReport;
  mfield Hb; reflexivity.
Qed.

Lemma read_vs : forall frame, bytes frame -> (len frame = 7 \/ len frame = 14) ->
  modes_fields.ReadVerticalStatus (frame_data frame) = bits 6 6 frame.
Proof.
  intros frame Hb [Hl|Hl]; frame_start frame Hb Hl; unfold modes_fields.ReadVerticalStatus;
  mfield Hb; rewrite bit_spec; destruct (bit _ _); reflexivity.
Qed.

Lemma read_cc : forall frame, bytes frame -> (len frame = 7 \/ len frame = 14) ->
  modes_fields.ReadCrossLinkCompatibility (frame_data frame) = bits 7 7 frame.
Proof.
  intros frame Hb [Hl|Hl]; frame_start frame Hb Hl; unfold modes_fields.ReadCrossLinkCompatibility;
  mfield Hb; rewrite bit_spec; destruct (bit _ _); reflexivity.
Qed.

Lemma read_ke : forall frame, bytes frame -> (len frame = 7 \/ len frame = 14) ->
  modes_fields.ReadControlELM (frame_data frame) = bits 4 4 frame.
Proof.
  intros frame Hb [Hl|Hl]; frame_start frame Hb Hl; unfold modes_fields.ReadControlELM;
  mfield Hb; rewrite bit_spec; destruct (bit _ _); reflexivity.
Qed.

Lemma read_nd : forall frame, bytes frame -> (len frame = 7 \/ len frame = 14) ->
  modes_fields.ReadNumberOfDSegment (frame_data frame) = bits 5 8 frame.
Proof.
  intros frame Hb [Hl|Hl]; frame_start frame Hb Hl; unfold modes_fields.ReadNumberOfDSegment;
  mfield Hb; reflexivity.
Qed.

Lemma read_mv : forall frame, bytes frame -> len frame = 14 ->
  modes_fields.ReadMessageACAS (frame_data frame) = Ok (octets 5 11 frame).
Proof.
  intros frame Hb Hl; frame_start frame Hb Hl; reflexivity.
Qed.
Lemma read_mb : forall frame, bytes frame -> len frame = 14 ->
  modes_fields.ReadMessageCommB (frame_data frame) = Ok (octets 5 11 frame).
Proof.
  intros frame Hb Hl; frame_start frame Hb Hl; reflexivity.
Qed.
Lemma read_me : forall frame, bytes frame -> len frame = 14 ->
  modes_fields.ReadMessageExtendedSquitter (frame_data frame) = Ok (octets 5 11 frame).
Proof.
  intros frame Hb Hl; frame_start frame Hb Hl; reflexivity.
Qed.
Lemma read_md : forall frame, bytes frame -> len frame = 14 ->
  modes_fields.ReadMessageCommD (frame_data frame) = Ok (octets 2 11 frame).
Proof.
  intros frame Hb Hl; frame_start frame Hb Hl; reflexivity.
Qed.

Lemma payload_len : forall frame, (len frame = 7 \/ len frame = 14) ->
  len (octets 2 (len frame - 3) frame) = len frame - 4.
Proof.
  intros frame [Hl|Hl]; rewrite Hl; split_list frame Hl; reflexivity.
Qed.

(* the dispatch of ReadMessage, once the header is read *)
Definition dispatch (messageData : modes_common.MessageData) : res ModeSMessage :=
    let df := modes_common.MessageData_DownLinkFormat messageData in
    if df =? 0 then rmap MDF0 (modes_messages.ParseDF0 messageData)
    else if df =? 4 then rmap MDF4 (modes_messages.ParseDF4 messageData)
    else if df =? 5 then rmap MDF5 (modes_messages.ParseDF5 messageData)
    else if df =? 11 then rmap MDF11 (modes_messages.ParseDF11 messageData)
    else if df =? 16 then rmap MDF16 (modes_messages.ParseDF16 messageData)
    else if df =? 17 then rmap MDF17 (modes_messages.ParseDF17 messageData)
    else if df =? 18 then rmap MDF18 (modes_messages.ParseDF18 messageData)
    else if df =? 19 then rmap MDF19 (modes_messages.ParseDF19 messageData)
    else if df =? 20 then rmap MDF20 (modes_messages.ParseDF20 messageData)
    else if df =? 21 then rmap MDF21 (modes_messages.ParseDF21 messageData)
    else if (df =? 24) || (df =? 25) || (df =? 26) || (df =? 27) ||
            (df =? 28) || (df =? 29) || (df =? 30) || (df =? 31)
    then rmap MDF24 (modes_messages.ParseDF24 messageData)
    else Err ("the downlink format " ++ dec df ++ " is not supported")%string.

Lemma read_dispatch : forall frame, bytes frame -> (len frame = 7 \/ len frame = 14) ->
  ReadMessage frame = dispatch (frame_data frame).
Proof.
  intros frame Hb [Hl|Hl]; frame_start frame Hb Hl; unfold ReadMessage; gostep;
  normbits Hb; unfold dispatch; reflexivity.
Qed.

Lemma read_bad_length : forall frame, len frame <> 7 -> len frame <> 14 ->
  exists e, ReadMessage frame = Err e.
Proof.
  intros frame H7 H14. unfold ReadMessage.
  destruct (Z.eqb_spec (len frame) 7); [contradiction|].
  destruct (Z.eqb_spec (len frame) 14); [contradiction|]. eexists. reflexivity.
Qed.
