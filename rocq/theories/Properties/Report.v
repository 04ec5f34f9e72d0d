(* Property theorems: Report. Generated by tools/mkprops.py; proofs are in theories/Proofs. *)
From Verif Require Import GoBase Bits.
From Verif.Spec Require Import Text Report Reports.
From Verif.Gen Require modes_messages acas_ra acas_ra_fields bds10.
From Verif.Model Require Import Crc ModesReader.
From Verif.Model Require AdsbReader CommbReader.
Require Import String Ascii.
From Verif.Proofs Require EmergencyText ReportsApi ReportsModeS TextsExact.
Local Open Scope Z_scope.

Theorem C68_modes_report : forall frame m, bytes frame -> ReadMessage frame = Ok m ->
  exists text, ModeSMessage_ToString m = Ok text /\ shows text (modes_rows m).
Proof. exact ReportsModeS.modes_report. Qed.
Print Assumptions C68_modes_report.

Theorem C68_modes_report_example : exists m text, bytes [0x5D; 0x48; 0x40; 0xD6; 0xF8; 0x74; 0x0F] /\ ReadMessage [0x5D; 0x48; 0x40; 0xD6; 0xF8; 0x74; 0x0F] = Ok m /\
  ModeSMessage_ToString m = Ok text /\
  split_lines text =
    ["Downlink format:  11 - All-call reply"%string;
     "Capability:       5 - Level 2 Airborne"%string;
     "AddressAnnounced: 48 40 D6"%string]%list.
Proof. exact ReportsModeS.modes_report_example. Qed.
Print Assumptions C68_modes_report_example.

Theorem C69_adsb_report_partial : forall ffmt matan2 v a c data m, (forall f, one_line (ffmt f)) -> bytes data ->
  AdsbReader.ReadADSBMessage v a c data = Ok m ->
  (forall ra, adsb_advisory m = Some ra -> printable_advisory ra) ->
  exists text, AdsbReader.Message_ToString ffmt matan2 m = Ok text /\ shows text (adsb_rows ffmt matan2 m).
Proof. exact ReportsApi.adsb_report_partial. Qed.
Print Assumptions C69_adsb_report_partial.

Theorem C69_adsb_report_exactly_partial : forall ffmt matan2 v a c data m, (forall f, one_line (ffmt f)) -> bytes data ->
  AdsbReader.ReadADSBMessage v a c data = Ok m ->
  exists text, AdsbReader.Message_ToString ffmt matan2 m = Ok text /\
    (shows text (adsb_rows ffmt matan2 m) <-> forall ra, adsb_advisory m = Some ra -> printable_advisory ra).
Proof. exact TextsExact.adsb_report_exactly. Qed.
Print Assumptions C69_adsb_report_exactly_partial.

Theorem C69_adsb_report_refuted : exists data m text, bytes data /\ AdsbReader.ReadADSBMessage 2 false false data = Ok m /\
  forall ffmt matan2, AdsbReader.Message_ToString ffmt matan2 m = Ok text /\ ~ shows text (adsb_rows ffmt matan2 m).
Proof. exact ReportsApi.adsb_report_refuted. Qed.
Print Assumptions C69_adsb_report_refuted.

Theorem C69_emergency_code_refuted : forall ffmt matan2 v a c data data',
  bytes data -> len data = 7 -> bits 1 5 data = 28 -> bits 6 8 data = 1 -> bits 25 56 data = 0 ->
  bytes data' -> len data' = 7 -> bits 1 5 data' = 28 -> bits 6 8 data' = 1 -> bits 25 56 data' = 0 ->
  bits 9 11 data = bits 9 11 data' -> bits 12 24 data <> bits 12 24 data' ->
  exists m m', AdsbReader.ReadADSBMessage v a c data = Ok m /\ AdsbReader.ReadADSBMessage v a c data' = Ok m' /\
    m <> m' /\ AdsbReader.Message_ToString ffmt matan2 m = AdsbReader.Message_ToString ffmt matan2 m'.
Proof. exact EmergencyText.emergency_code_refuted. Qed.
Print Assumptions C69_emergency_code_refuted.

Theorem C69_emergency_code_example :
  (bytes [0xE1; 0x2A; 0xAA; 0; 0; 0; 0] /\ bytes [0xE1; 0x2A; 0xA2; 0; 0; 0; 0]) /\
  bits 1 5 [0xE1; 0x2A; 0xAA; 0; 0; 0; 0] = 28 /\ bits 6 8 [0xE1; 0x2A; 0xAA; 0; 0; 0; 0] = 1 /\
  bits 25 56 [0xE1; 0x2A; 0xAA; 0; 0; 0; 0] = 0 /\ bits 9 11 [0xE1; 0x2A; 0xAA; 0; 0; 0; 0] = 1 /\
  bits 1 5 [0xE1; 0x2A; 0xA2; 0; 0; 0; 0] = 28 /\ bits 6 8 [0xE1; 0x2A; 0xA2; 0; 0; 0; 0] = 1 /\
  bits 25 56 [0xE1; 0x2A; 0xA2; 0; 0; 0; 0] = 0 /\ bits 9 11 [0xE1; 0x2A; 0xA2; 0; 0; 0; 0] = 1 /\
  bits 12 24 [0xE1; 0x2A; 0xAA; 0; 0; 0; 0] = 0xAAA /\ bits 12 24 [0xE1; 0x2A; 0xA2; 0; 0; 0; 0] = 0xAA2.
Proof. exact EmergencyText.emergency_code_example. Qed.
Print Assumptions C69_emergency_code_example.

Theorem C69_adsb_report_example : exists m ra, bytes [0xE2; 0xC4; 0x00; 0x08; 0x00; 0x14; 0x8A] /\
  AdsbReader.ReadADSBMessage 2 false false [0xE2; 0xC4; 0x00; 0x08; 0x00; 0x14; 0x8A] = Ok m /\
  adsb_advisory m = Some ra /\ printable_advisory ra.
Proof. exact ReportsApi.adsb_report_example. Qed.
Print Assumptions C69_adsb_report_example.

Theorem C70_commb_report_partial : forall ffmt data l m, (forall f, one_line (ffmt f)) -> bytes data ->
  CommbReader.ReadCommBMessage data = Ok l -> List.In m l ->
  (forall ra, commb_advisory m = Some ra -> printable_advisory ra) ->
  (forall x, m = CommbReader.B10 x -> bds10.DataLinkCapabilityReport_ContinuationFlag x = bds10.DataLinkCapabilityReport_OverlayCommandCapability x) ->
  exists text, CommbReader.Message_ToString ffmt m = Ok text /\ shows text (commb_rows ffmt m).
Proof. exact ReportsApi.commb_report_partial. Qed.
Print Assumptions C70_commb_report_partial.

Theorem C70_commb_report_exactly_partial : forall ffmt data l m, (forall f, one_line (ffmt f)) -> bytes data ->
  CommbReader.ReadCommBMessage data = Ok l -> List.In m l ->
  exists text, CommbReader.Message_ToString ffmt m = Ok text /\
    (shows text (commb_rows ffmt m) <->
     (forall ra, commb_advisory m = Some ra -> printable_advisory ra) /\
     (forall x, m = CommbReader.B10 x -> bds10.DataLinkCapabilityReport_ContinuationFlag x = bds10.DataLinkCapabilityReport_OverlayCommandCapability x)).
Proof. exact TextsExact.commb_report_exactly. Qed.
Print Assumptions C70_commb_report_exactly_partial.

Theorem C70_commb_report_refuted : exists data l m text, bytes data /\ CommbReader.ReadCommBMessage data = Ok l /\ List.In m l /\
  forall ffmt, CommbReader.Message_ToString ffmt m = Ok text /\ ~ shows text (commb_rows ffmt m).
Proof. exact ReportsApi.commb_report_refuted. Qed.
Print Assumptions C70_commb_report_refuted.

Theorem C70_commb_report_example : exists l x, bytes [0x10; 0; 0; 0; 0; 0; 0] /\
  CommbReader.ReadCommBMessage [0x10; 0; 0; 0; 0; 0; 0] = Ok l /\ List.In (CommbReader.B10 x) l /\ (2 <= List.length l)%nat /\
  bds10.DataLinkCapabilityReport_ContinuationFlag x = bds10.DataLinkCapabilityReport_OverlayCommandCapability x.
Proof. exact ReportsApi.commb_report_example. Qed.
Print Assumptions C70_commb_report_example.

Theorem C71_ra_report_partial : forall ffmt data m, (forall f, one_line (ffmt f)) -> bytes data ->
  acas_ra.ReadResolutionAdvisory data = Ok m -> printable_advisory m ->
  exists text, acas_ra.ResolutionAdvisory_ToString ffmt m = Ok text /\ shows text (resolution_advisory_rows ffmt m).
Proof. exact ReportsApi.ra_report_partial. Qed.
Print Assumptions C71_ra_report_partial.

Theorem C71_ra_report_exactly_partial : forall ffmt data m, (forall f, one_line (ffmt f)) -> bytes data ->
  acas_ra.ReadResolutionAdvisory data = Ok m ->
  exists text, acas_ra.ResolutionAdvisory_ToString ffmt m = Ok text /\
    (shows text (resolution_advisory_rows ffmt m) <-> printable_advisory m).
Proof. exact TextsExact.ra_report_exactly. Qed.
Print Assumptions C71_ra_report_exactly_partial.

Theorem C71_ra_report_refuted : exists data m text, bytes data /\ acas_ra.ReadResolutionAdvisory data = Ok m /\
  forall ffmt, acas_ra.ResolutionAdvisory_ToString ffmt m = Ok text /\ ~ shows text (resolution_advisory_rows ffmt m).
Proof. exact ReportsApi.ra_report_refuted. Qed.
Print Assumptions C71_ra_report_refuted.

Theorem C71_ra_sense_refuted : exists data m text, bytes data /\ acas_ra.ReadResolutionAdvisory data = Ok m /\
  forall ffmt, acas_ra.ResolutionAdvisory_ToString ffmt m = Ok text /\ ~ shows text (resolution_advisory_rows ffmt m).
Proof. exact ReportsApi.ra_sense_refuted. Qed.
Print Assumptions C71_ra_sense_refuted.

Theorem C71_ra_report_example : exists m, bytes [0xC4; 0x00; 0x08; 0x00; 0x14; 0x8A] /\ acas_ra.ReadResolutionAdvisory [0xC4; 0x00; 0x08; 0x00; 0x14; 0x8A] = Ok m /\
  acas_ra.ResolutionAdvisory_ThreatIdentityBearing m = Some 10%Z /\ printable_advisory m.
Proof. exact ReportsApi.ra_report_example. Qed.
Print Assumptions C71_ra_report_example.
