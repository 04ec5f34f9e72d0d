(* Property theorems: CommBReason. Generated by tools/mkprops.py; proofs are in theories/Proofs. *)
From Verif Require Import GoBase Bits.
From Verif.Spec Require Import Floats Text Acas Identification Reasons CommBReasons.
From Verif.Gen Require Import bds00 bds07 bds10 bds17 bds20 bds30 bds40 bds44 bds45 bds50 bds60.
From Verif.Model Require Import CommbReader.
Require Import String List.
From Verif.Proofs Require CommBReasons.
Local Open Scope Z_scope.

Theorem C75_recognition_reason_partial : forall data, bytes data ->
  explains (checks_00 data) (ReadNoMessageAvailable data) /\
  (* the bits 7 and 8 are not looked at *)
  ((len data = 7 -> bits 7 8 data = 0) -> explains (checks_07 data) (ReadStatus data)) /\
  explains (checks_10 data) (ReadDataLinkCapabilityReport data) /\
  explains (checks_17 data) (ReadCommonUsageGICBCapabilityReport data) /\
  explains (checks_20 data) (ReadAircraftIdentification data) /\
  (* the text of the error is wrong when the first byte is; an altitude may be misread *)
  ((len data = 7 -> bits 1 8 data = 48) -> (len data = 7 -> bits 29 30 data = 2 -> bits 31 32 data = 0) ->
   explains (checks_30 data) (ReadACASResolutionAdvisory data)) /\
  explains (checks_40 data) (ReadSelectedVerticalIntention data) /\
  explains (checks_44 data) (ReadMeteorologicalRoutineAirReport data) /\
  explains (checks_44_v0 data) (ReadMeteorologicalRoutineAirReportV0 data) /\
  explains (checks_44_v1 data) (ReadMeteorologicalRoutineAirReportV1 data) /\
  explains (checks_44_v2 data) (ReadMeteorologicalRoutineAirReportV2 data) /\
  explains (checks_45 data) (ReadMeteorologicalHazardReport data) /\
  explains (checks_45_v0 data) (ReadMeteorologicalHazardReportV0 data) /\
  explains (checks_45_v1 data) (ReadMeteorologicalHazardReportV1 data) /\
  explains (checks_50 data) (ReadTrackAndTurnReport data) /\
  explains (checks_60 data) (ReadHeadingAndSpeedReport data).
Proof. exact CommBReasons.recognition_reason_partial. Qed.
Print Assumptions C75_recognition_reason_partial.

Theorem C75_status_reason_refuted : exists data m, bytes data /\ len data = 7 /\
  ReadStatus data = Ok m /\ first_failed (checks_07 data) "the bits 4 to 8 are reserved and must be 0"%string.
Proof. exact CommBReasons.status_reason_refuted. Qed.
Print Assumptions C75_status_reason_refuted.

Theorem C75_advisory_text_refuted : exists data, bytes data /\ len data = 7 /\ bits 1 8 data = 32 /\
  ReadACASResolutionAdvisory data = Err "the first byte of data is not 0x20"%string /\
  first_failed (checks_30 data) "the first byte of data is not 0x30"%string.
Proof. exact CommBReasons.advisory_text_refuted. Qed.
Print Assumptions C75_advisory_text_refuted.

Example C75_recognition_reason_example : exists data, bytes data /\ len data = 7 /\ bits 7 8 data = 0 /\ bits 1 8 data = 48 /\
  (bits 29 30 data = 2 -> bits 31 32 data = 0) /\
  ReadSelectedVerticalIntention data = Err "the bits 52 to 53 must be zero"%string.
Proof. exact CommBReasons.recognition_reason_example. Qed.
Print Assumptions C75_recognition_reason_example.

Theorem C76_coherency_reason : forall m, typed m ->
  (forall e, Message_CheckCoherency m = Err e <-> first_failed (coherency_checks m) e) /\
  (Message_CheckCoherency m = Ok tt <-> Forall fst (coherency_checks m)) /\
  Message_CheckCoherency m <> Panic.
Proof. exact CommBReasons.coherency_reason. Qed.
Print Assumptions C76_coherency_reason.

Theorem C76_decoded_typed : forall data messages, bytes data -> ReadCommBMessage data = Ok messages -> Forall typed messages.
Proof. exact CommBReasons.decoded_typed. Qed.
Print Assumptions C76_decoded_typed.

Theorem C76_older_typed : forall data, bytes data -> len data = 7 ->
  (forall m, ReadMeteorologicalRoutineAirReportV0 data = Ok m ->
     typed (B44 (IMeteorologicalRoutineAirReport_MeteorologicalRoutineAirReportV0 m))) /\
  (forall m, ReadMeteorologicalHazardReportV0 data = Ok m ->
     typed (B45 (IMeteorologicalHazardReport_MeteorologicalHazardReportV0 m))).
Proof. exact CommBReasons.older_typed. Qed.
Print Assumptions C76_older_typed.

Example C76_coherency_reason_example : exists data m, bytes data /\ ReadTrackAndTurnReport data = Ok m /\ typed (B50 m) /\
  Message_CheckCoherency (B50 m) = Err "the true air speed is too high (above 500 knots)"%string.
Proof. exact CommBReasons.coherency_reason_example. Qed.
Print Assumptions C76_coherency_reason_example.
