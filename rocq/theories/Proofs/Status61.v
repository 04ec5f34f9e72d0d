(* Aircraft status (C30) and target state and status (C31). *)
From Verif.Proofs Require Import Tac Octets AcasReader.
From Verif.Spec Require Import Acas Status.
From Verif.Gen Require bds61 bds61_fields bds62 bds62_fields.
Local Open Scope Z_scope.

(* ---- BDS 6,1 ---- *)

(* the reader, for all bodies of type 28 *)
Lemma read_bds61_code : forall data, bytes data -> len data = 7 -> bits 1 5 data = 28 ->
  bds61.ReadAircraftStatus data =
  if bits 6 8 data =? 0 then
    if bits 12 16 data =? 0 then
      Ok (bds61.IAircraftStatus_AircraftStatusNoInformation
        {| bds61.AircraftStatusNoInformation_FormatTypeCode := bits 1 5 data;
           bds61.AircraftStatusNoInformation_Subtype := bits 6 8 data;
           bds61.AircraftStatusNoInformation_EmergencyPriorityStatus := bits 9 11 data |})
    else Err "the bits 12 to 16 are expected to be 0"%string
  else if bits 6 8 data =? 1 then
    if bits 25 56 data =? 0 then
      Ok (bds61.IAircraftStatus_AircraftStatusEmergency
        {| bds61.AircraftStatusEmergency_FormatTypeCode := bits 1 5 data;
           bds61.AircraftStatusEmergency_Subtype := bits 6 8 data;
           bds61.AircraftStatusEmergency_EmergencyPriorityStatus := bits 9 11 data;
           bds61.AircraftStatusEmergency_ModeACode := bits 12 24 data |})
    else Err "the bits 25 to 56 are expected to be 0"%string
  else if bits 6 8 data =? 2 then
    match acas_ra.ReadResolutionAdvisory (octets 2 7 data) with
    | Ok ra => Ok (bds61.IAircraftStatus_AircraftStatusACAS
        {| bds61.AircraftStatusACAS_FormatTypeCode := bits 1 5 data;
           bds61.AircraftStatusACAS_Subtype := bits 6 8 data;
           bds61.AircraftStatusACAS_ResolutionAdvisory := ra |})
    | Err e => Err e
    | Panic => Panic
    end
  else Err ("the field SubType must be comprised between 0 and 2 included, got " ++ dec (bits 6 8 data))%string.
Proof.
  intros data Hb Hl Ht. unfold bds61.ReadAircraftStatus. split_list data Hl.
  unfold bds61.ReadAircraftStatusNoInformation, bds61.ReadAircraftStatusEmergency, bds61.ReadAircraftStatusACAS,
    bds61_fields.ReadSubtype, bds61_fields.ReadEmergencyPriorityStatus,
    bds61_fields.SubtypeNoInformation, bds61_fields.SubtypeEmergencyPriorityStatus, bds61_fields.SubtypeRABroadcast.
  gostep. unpack. normbits Hb.
  match type of Hb with bytes ?l =>
    assert (E : bits 25 56 l = bits 25 32 l * 16777216 + bits 33 40 l * 65536 + bits 41 48 l * 256 + bits 49 56 l) by (bveq l Hb);
    bits_bound 25 32 l; bits_bound 33 40 l; bits_bound 41 48 l; bits_bound 49 56 l;
    match l with [_; _; _; ?a; ?b; ?c; ?d] =>
      assert (Ea : a = bits 25 32 l) by (bveq l Hb); assert (Eb : b = bits 33 40 l) by (bveq l Hb);
      assert (Ec : c = bits 41 48 l) by (bveq l Hb); assert (Ed : d = bits 49 56 l) by (bveq l Hb);
      replace (bits 25 56 l =? 0) with ((a =? 0) && (b =? 0) && (c =? 0) && (d =? 0)) by lia;
      change (octets 2 7 l) with (List.tl l); cbn [List.tl]
    end;
    clear Ea Eb Ec Ed; set (f := l) in *
  end.
  repeat decide_if.
  destruct (bits 6 8 f =? 0); cbn [negb].
  - destruct (bits 12 16 f =? 0); reflexivity.
  - destruct (bits 6 8 f =? 1); cbn [negb].
    + destruct (d2 =? 0), (d3 =? 0), (d4 =? 0), (d5 =? 0); reflexivity.
    + destruct (bits 6 8 f =? 2); [|reflexivity].
      destruct (acas_ra.ReadResolutionAdvisory _); reflexivity.
Qed.

Lemma octets27_len : forall data, bytes data -> len data = 7 -> bytes (octets 2 7 data) /\ len (octets 2 7 data) = 6.
Proof. intros data Hb Hl. split; [apply octets_bytes; exact Hb|]. rewrite octets_len; lia. Qed.

Lemma read_bds61_total : forall data, bytes data -> len data = 7 -> bits 1 5 data = 28 ->
  bds61.ReadAircraftStatus data <> Panic.
Proof.
  intros data Hb Hl Ht. rewrite read_bds61_code by assumption.
  destruct (octets27_len data Hb Hl) as [Hb' _]. pose proof (read_ra_total _ Hb').
  destruct (bits 6 8 data =? 0); [destruct (bits 12 16 data =? 0); discriminate|].
  destruct (bits 6 8 data =? 1); [destruct (bits 25 56 data =? 0); discriminate|].
  destruct (bits 6 8 data =? 2); [|discriminate].
  destruct (acas_ra.ReadResolutionAdvisory _); congruence.
Qed.

(* C30, when the bits 17-56 of a 'no information' status are zero, and except for the threats
   identified by altitude, range and bearing that C43 excludes *)
Theorem aircraft_status_partial : forall data, bytes data -> len data = 7 -> bits 1 5 data = 28 ->
  (bits 6 8 data = 0 -> bits 17 56 data = 0) ->
  (bits 6 8 data = 2 -> bits 29 30 data = 2 -> bits 31 32 data = 0 /\ bits 50 50 data = 0) ->
  forall m, StatusOf data m <-> bds61.ReadAircraftStatus data = Ok m.
Proof.
  intros data Hb Hl Ht H0 H2 m. rewrite read_bds61_code by assumption.
  destruct (octets27_len data Hb Hl) as [Hb' Hl'].
  assert (E : bits 12 56 data = bits 12 16 data * 2 ^ 40 + bits 17 56 data
           /\ (bits 21 22 (octets 2 7 data) = 2 -> bits 29 30 data = 2)
           /\ (bits 31 32 data = 0 -> bits 23 24 (octets 2 7 data) = 0)
           /\ (bits 50 50 data = 0 -> bits 42 42 (octets 2 7 data) = 0)).
  { split; [clear - Hb Hl; split_list data Hl; change (2 ^ 40) with 1099511627776;
      match type of Hb with bytes ?l => bveq l Hb end|].
    rewrite !bits_octets by (auto; lia). cbn [Z.mul Z.add Z.sub Z.opp Pos.mul Pos.add Z.pos_sub Pos.pred_double]. 
    repeat split; auto. }
  change (2 ^ 40) with 1099511627776 in E. destruct E as (E & T & T1 & T2).
  assert (R : bits 6 8 data = 2 -> forall ra, Reports (octets 2 7 data) ra <-> acas_ra.ReadResolutionAdvisory (octets 2 7 data) = Ok ra).
  { intros S ra. apply resolution_advisory_partial; auto.
    intros U. destruct (H2 S (T U)). auto. }
  split.
  - intros [S Z0|S Z0|ra S Z0].
    + do 2 decide_if. reflexivity.
    + do 3 decide_if. reflexivity.
    + do 3 decide_if. apply R in Z0; [|exact S]. rewrite Z0. reflexivity.
  - intros G. destruct (bits 6 8 data =? 0) eqn:S0.
    + destruct (bits 12 16 data =? 0) eqn:S1; [|discriminate]. injection G as <-. constructor; lia.
    + destruct (bits 6 8 data =? 1) eqn:S1.
      * destruct (bits 25 56 data =? 0) eqn:S2; [|discriminate]. injection G as <-. constructor; lia.
      * destruct (bits 6 8 data =? 2) eqn:S2; [|discriminate].
        destruct (acas_ra.ReadResolutionAdvisory (octets 2 7 data)) eqn:S3; try discriminate.
        injection G as <-. constructor; [lia|]. apply R; [lia|reflexivity].
Qed.

(* The subtype 0 does not check the bits 17-56 *)
Theorem aircraft_status_refuted : exists data m,
  bytes data /\ len data = 7 /\ bits 1 5 data = 28 /\ bits 6 8 data = 0 /\ bits 12 56 data <> 0 /\
  bds61.ReadAircraftStatus data = Ok m.
Proof.
  exists [0xE0; 0; 0; 0; 0; 0; 1]. eexists. repeat split; try reflexivity; try discriminate.
  repeat constructor; lia.
Qed.
