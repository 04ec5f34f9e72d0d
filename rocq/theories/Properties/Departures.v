(* Property theorems: Departures. Generated by tools/mkprops.py; proofs are in theories/Proofs. *)
From Verif Require Import GoBase Bits.
From Verif.Spec Require Import Altitude Floats Acas Status CommB CommBMessages Adsb AdsbMessages Text Departures.
From Verif.Gen Require acas_ra acas_ra_fields bds07 bds10 bds30 bds40 bds44 bds61 bds62.
From Verif.Model Require Import AdsbReader.
Require Import String List.
From Verif.Proofs Require Departures.
Local Open Scope Z_scope.

Theorem C102_advisory_departs : forall data, bytes data -> len data = 6 -> forall ra,
  acas_ra.ReadResolutionAdvisory data = Ok ra <-> AdvisoryRead data ra.
Proof. exact Departures.advisory_departs. Qed.
Print Assumptions C102_advisory_departs.

Theorem C102_advisory_register_departs : forall data, bytes data -> len data = 7 -> forall m,
  bds30.ReadACASResolutionAdvisory data = Ok m <->
  bits 1 8 data = 48 /\ AdvisoryRead (octets 2 7 data) (bds30.ACASResolutionAdvisory_ResolutionAdvisory m).
Proof. exact Departures.advisory_register_departs. Qed.
Print Assumptions C102_advisory_register_departs.

Theorem C102_status_departs : forall data, bytes data -> len data = 7 -> bits 1 5 data = 28 -> forall m,
  bds61.ReadAircraftStatus data = Ok m <-> StatusRead data m.
Proof. exact Departures.status_departs. Qed.
Print Assumptions C102_status_departs.

Theorem C102_target_departs : forall data, bytes data -> len data = 7 -> bits 1 5 data = 29 ->
  (forall m, bds62.ReadTargetStateAndStatus data = Ok m -> TargetRead data m) /\
  (forall e, bds62.ReadTargetStateAndStatus data = Err e -> forall m, ~ TargetRead data m).
Proof. exact Departures.target_departs. Qed.
Print Assumptions C102_target_departs.

Theorem C102_status_register_departs : forall data m, bytes data -> len data = 7 ->
  bds07.ReadStatus data = Ok m <-> bits 4 6 data = 0 /\ bits 9 56 data = 0 /\ m = status_07 data.
Proof. exact Departures.status_register_departs. Qed.
Print Assumptions C102_status_register_departs.

Theorem C102_capability_departs : forall data m, bytes data -> len data = 7 ->
  bds10.ReadDataLinkCapabilityReport data = Ok m <->
  recognised_10 data /\ m = capability_10 data (2 * bits 18 18 data).
Proof. exact Departures.capability_departs. Qed.
Print Assumptions C102_capability_departs.

Theorem C102_intention_departs : forall data, bytes data -> len data = 7 ->
  (forall m, bds40.ReadSelectedVerticalIntention data = Ok m -> IntentionRead data m) /\
  (forall e, bds40.ReadSelectedVerticalIntention data = Err e -> ~ recognised_40 data).
Proof. exact Departures.intention_departs. Qed.
Print Assumptions C102_intention_departs.

Theorem C102_routine_departs : forall data, bytes data -> len data = 7 ->
  (forall m, bds44.ReadMeteorologicalRoutineAirReport data = Ok m ->
     RoutineRead data m /\ bds44.IMeteorologicalRoutineAirReport_GetSource m = 0) /\
  (forall e, bds44.ReadMeteorologicalRoutineAirReport data = Err e -> 4 < bits 1 4 data).
Proof. exact Departures.routine_departs. Qed.
Print Assumptions C102_routine_departs.

Theorem C102_routine_v0_departs : forall data, bytes data -> len data = 7 ->
  exists m, bds44.ReadMeteorologicalRoutineAirReportV0 data = Ok m /\ RoutineReadV0 data m.
Proof. exact Departures.routine_v0_departs. Qed.
Print Assumptions C102_routine_v0_departs.

Theorem C102_surface_7_departs : forall c data, bytes data -> len data = 7 -> bits 1 5 data = 7 ->
  exists m, ReadADSBMessage 1 false c data = Ok (ASurface m) /\ SurfaceRead7 data m.
Proof. exact Departures.surface_7_departs. Qed.
Print Assumptions C102_surface_7_departs.

Theorem C102_sense_departs : forall ffmt s a,
  acas_ra.ResolutionAdvisory_ToString ffmt (with_sense s a) = acas_ra.ResolutionAdvisory_ToString ffmt a.
Proof. exact Departures.sense_departs. Qed.
Print Assumptions C102_sense_departs.

Theorem C102_bearing_departs : forall b, 43 <= b <= 60 ->
  acas_ra_fields.ThreatIdentityBearing_ToString b =
  (numeral b ++ " - between " ++ numeral ((6 * (b - 1)) mod 256) ++ " and " ++ numeral (6 * b - 256))%string.
Proof. exact Departures.bearing_departs. Qed.
Print Assumptions C102_bearing_departs.

Theorem C102_continuation_departs : forall c m,
  bds10.DataLinkCapabilityReport_ToString (with_continuation c m) = bds10.DataLinkCapabilityReport_ToString m.
Proof. exact Departures.continuation_departs. Qed.
Print Assumptions C102_continuation_departs.

Example C102_threat_read_example :
  let data := [0x80; 0; 0x09; 0x20; 0; 0] in
  bytes data /\ len data = 6 /\ bits 21 22 data = 2 /\
  exists ra, AdvisoryRead data ra /\ acas_ra.ReadResolutionAdvisory data = Ok ra /\
    acas_ra.ResolutionAdvisory_ThreatIdentityAltitude ra =
      Some {| acas_ra_fields.ThreatIdentityAltitude_AltitudeStatus := acas_ra_fields.AltitudeValid;
              acas_ra_fields.ThreatIdentityAltitude_AltitudeInFeet := 126700 |}.
Proof. exact Departures.threat_read_example. Qed.
Print Assumptions C102_threat_read_example.

Example C102_heading_read_example :
  let data := [0xEA; 0; 0; 6; 0x80; 0; 0] in
  bytes data /\ len data = 7 /\ bits 1 5 data = 29 /\ bits 6 7 data = 1 /\
  bits 30 30 data = 1 /\ bit 31 data = true /\ (heading_degrees true (bits 32 39 data) == -135)%Q /\
  exists m, bds62.ReadTargetStateAndStatus data = Ok (bds62.ITargetStateAndStatus_TargetStateAndStatus1 m) /\
    is_value (bds62.TargetStateAndStatus1_SelectedHeading m) (-45).
Proof. exact Departures.heading_read_example. Qed.
Print Assumptions C102_heading_read_example.
