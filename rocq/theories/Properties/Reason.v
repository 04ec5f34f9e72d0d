(* Property theorems: Reason. Generated by tools/mkprops.py; proofs are in theories/Proofs. *)
From Verif Require Import GoBase Bits.
From Verif.Spec Require Import Altitude Acas Reasons.
From Verif.Gen Require acas_ra acas_ra_fields.
From Verif.Model Require Import Crc ModesReader AdsbReader.
Require Import String.
From Verif.Proofs Require Reasons.
Local Open Scope Z_scope.

Theorem C72_mode_s_reason : forall frame e, bytes frame ->
  ReadMessage frame = Err e <-> first_failed (mode_s_checks frame) e.
Proof. exact Reasons.mode_s_reason. Qed.
Print Assumptions C72_mode_s_reason.

Example C72_reason_length_example :
  first_failed (mode_s_checks [0x20; 0; 0x0F; 0x80; 0; 0; 0; 0; 0; 0; 0; 0; 0; 0]) "DF4 message must be 7 bytes long".
Proof. exact Reasons.reason_length_example. Qed.
Print Assumptions C72_reason_length_example.

Example C72_reason_format_example :
  first_failed (mode_s_checks [0x10; 0; 0; 0; 0; 0; 0]) "the downlink format 2 is not supported".
Proof. exact Reasons.reason_format_example. Qed.
Print Assumptions C72_reason_format_example.

Theorem C73_adsb_reason_partial : forall v a c data e, bytes data ->
  (bits 1 5 data = 28 -> bits 6 8 data = 0 -> bits 17 56 data = 0) ->
  (bits 1 5 data = 28 -> bits 6 8 data = 2 -> bits 29 30 data = 2 -> bits 31 32 data = 0) ->
  (bits 1 5 data = 31 -> bits 41 43 data <= 2 \/ bits 41 43 data = bits 6 8 data) ->
  ReadADSBMessage v a c data = Err e <-> first_failed (adsb_checks v data) e.
Proof. exact Reasons.adsb_reason_partial. Qed.
Print Assumptions C73_adsb_reason_partial.

Theorem C73_adsb_reason_refuted : exists data e,
  bytes data /\ len data = 7 /\ bits 1 5 data = 31 /\ bits 6 8 data = 1 /\ bits 41 43 data = 3 /\
  ReadADSBMessage 2 false false data = Err e /\
  e = "the field VersionNumber must be comprised between 0 and 2 included, got 1"%string /\
  ~ first_failed (adsb_checks 2 data) e.
Proof. exact Reasons.adsb_reason_refuted. Qed.
Print Assumptions C73_adsb_reason_refuted.

Example C73_reason_velocity_example :
  first_failed (adsb_checks 2 [0x9D; 0; 0; 0; 0; 0; 0])
    "the field SubType must be comprised between 1 and 4 included, got 5".
Proof. exact Reasons.reason_velocity_example. Qed.
Print Assumptions C73_reason_velocity_example.

Example C73_reason_service_level_example :
  first_failed (adsb_checks 1 [0xF8; 0x40; 0; 0; 0; 0x20; 0])
    "the ServiceLevel (field Capability Class) must be 0 (4 given)".
Proof. exact Reasons.reason_service_level_example. Qed.
Print Assumptions C73_reason_service_level_example.

Theorem C74_advisory_reason_partial : forall data e, bytes data ->
  (bits 21 22 data = 2 -> bits 23 24 data = 0) ->
  acas_ra.ReadResolutionAdvisory data = Err e <-> first_failed (advisory_checks data) e.
Proof. exact Reasons.advisory_reason_partial. Qed.
Print Assumptions C74_advisory_reason_partial.

Theorem C74_advisory_reason_refuted : exists data e,
  bytes data /\ len data = 6 /\ bits 21 22 data = 2 /\
  ThreatAltitude data {| acas_ra_fields.ThreatIdentityAltitude_AltitudeStatus := acas_ra_fields.AltitudeValid;
                         acas_ra_fields.ThreatIdentityAltitude_AltitudeInFeet := 2300 |} /\
  acas_ra.ReadResolutionAdvisory data = Err e /\ ~ first_failed (advisory_checks data) e.
Proof. exact Reasons.advisory_reason_refuted. Qed.
Print Assumptions C74_advisory_reason_refuted.

Example C74_reason_advisory_example :
  first_failed (advisory_checks [0x80; 0; 0x08; 0x04; 0; 0]) "the Altitude field is malformed".
Proof. exact Reasons.reason_advisory_example. Qed.
Print Assumptions C74_reason_advisory_example.
