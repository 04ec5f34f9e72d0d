(* Property theorems: CommB. Generated by tools/mkprops.py; proofs are in theories/Proofs. *)
From Verif Require Import GoBase Bits.
From Verif.Spec Require Import Floats Acas Identification CommB CommBMessages.
From Verif.Gen Require bds_register bds00 bds07 bds07_fields bds10 bds10_fields bds17 bds20 bds30 bds40 bds40_fields
  bds44 bds44_fields bds45 bds45_fields bds50 bds50_fields bds60 bds60_fields acas_ra acas_ra_fields.
From Verif.Model Require Import CommbReader.
From Verif.Proofs Require AcasReader Coherence CommB1 CommB2 CommB3 CommB4 CommBApi ExamplesCommB.
Local Open Scope Z_scope.

Theorem C35_commb_total : forall data, bytes data ->
  ReadCommBMessage data <> Panic /\ ((exists e, ReadCommBMessage data = Err e) <-> len data <> 7).
Proof. exact CommBApi.commb_total. Qed.
Print Assumptions C35_commb_total.

Example C35_commb_any_example : (exists e, ReadCommBMessage [0x20] = Err e) /\
  (exists l, ReadCommBMessage [0xFF; 0xFF; 0xFF; 0xFF; 0xFF; 0xFF; 0xFF] = Ok l).
Proof. exact ExamplesCommB.commb_any_example. Qed.
Print Assumptions C35_commb_any_example.

Theorem C36_commb_sound : forall data l m, bytes data ->
  ReadCommBMessage data = Ok l -> List.In m l -> decodes data m /\ coherent m.
Proof. exact CommBApi.commb_sound. Qed.
Print Assumptions C36_commb_sound.

Example C36_commb_one : exists data l, bytes data /\ len data = 7 /\ ReadCommBMessage data = Ok l /\ List.map number l = [50].
Proof. exact CommBApi.commb_one. Qed.
Print Assumptions C36_commb_one.

Theorem C37_commb_complete : forall data, bytes data -> len data = 7 ->
  (forall m, exclusive m -> decodes data m -> ~ coherent m) ->
  exists l, ReadCommBMessage data = Ok l /\ increasing l /\
    forall m, List.In m l <-> decodes data m /\ coherent m.
Proof. exact CommBApi.commb_complete. Qed.
Print Assumptions C37_commb_complete.

Theorem C37_commb_increasing : forall data l, bytes data -> ReadCommBMessage data = Ok l -> increasing l.
Proof. exact CommBApi.commb_increasing. Qed.
Print Assumptions C37_commb_increasing.

Theorem C37_commb_registers : forall data, bytes data -> len data = 7 ->
  bits 1 56 data <> 0 ->
  ~ ((bits 4 6 data = 0 /\ bits 9 56 data = 0) /\ coherent_07 data) ->
  ~ (recognised_20 data /\ legal_characters data) ->
  exists l, ReadCommBMessage data = Ok l /\ forall k, has k l <-> plausible k data.
Proof. exact CommBApi.commb_registers. Qed.
Print Assumptions C37_commb_registers.

Example C37_commb_ambiguous : exists data l, bytes data /\ len data = 7 /\ ReadCommBMessage data = Ok l /\ List.map number l = [17;40;50].
Proof. exact CommBApi.commb_ambiguous. Qed.
Print Assumptions C37_commb_ambiguous.

Example C37_registers_example : bits 1 56 [0x81; 0x95; 0x15; 0x36; 0xE0; 0x24; 0xD4] <> 0 /\
  ~ ((bits 4 6 [0x81; 0x95; 0x15; 0x36; 0xE0; 0x24; 0xD4] = 0 /\ bits 9 56 [0x81; 0x95; 0x15; 0x36; 0xE0; 0x24; 0xD4] = 0) /\ coherent_07 [0x81; 0x95; 0x15; 0x36; 0xE0; 0x24; 0xD4]) /\
  ~ (recognised_20 [0x81; 0x95; 0x15; 0x36; 0xE0; 0x24; 0xD4] /\ legal_characters [0x81; 0x95; 0x15; 0x36; 0xE0; 0x24; 0xD4]) /\
  exists l, ReadCommBMessage [0x81; 0x95; 0x15; 0x36; 0xE0; 0x24; 0xD4] = Ok l /\ List.In 50 (List.map number l).
Proof. exact ExamplesCommB.registers_example. Qed.
Print Assumptions C37_registers_example.

Theorem C38_commb_exclusive : forall data, bytes data -> len data = 7 ->
  (bits 1 56 data = 0 -> ReadCommBMessage data = Ok [B00 bds00.mkNoMessageAvailable]) /\
  (forall m, bits 1 56 data <> 0 -> decodes data (B07 m) -> coherent (B07 m) -> ReadCommBMessage data = Ok [B07 m]) /\
  (forall m, bits 1 56 data <> 0 -> (forall m', decodes data (B07 m') -> ~ coherent (B07 m')) ->
     decodes data (B20 m) -> coherent (B20 m) -> ReadCommBMessage data = Ok [B20 m]).
Proof. exact CommBApi.commb_exclusive. Qed.
Print Assumptions C38_commb_exclusive.

Example C38_exclusive_example : exists m7 m20,
  bytes [0x60; 0; 0; 0; 0; 0; 0] /\ len [0x60; 0; 0; 0; 0; 0; 0] = 7 /\ bits 1 56 [0x60; 0; 0; 0; 0; 0; 0] <> 0 /\ ReadCommBMessage [0x60; 0; 0; 0; 0; 0; 0] = Ok [B07 m7] /\
  bds07.Status_CheckCoherency m7 = Ok tt /\
  bytes [0x20; 0x50; 0x86; 0x73; 0xE1; 0x98; 0x20] /\ len [0x20; 0x50; 0x86; 0x73; 0xE1; 0x98; 0x20] = 7 /\ bits 1 56 [0x20; 0x50; 0x86; 0x73; 0xE1; 0x98; 0x20] <> 0 /\
  ReadCommBMessage [0x20; 0x50; 0x86; 0x73; 0xE1; 0x98; 0x20] = Ok [B20 m20] /\ bds20.AircraftIdentification_CheckCoherency m20 = Ok tt.
Proof. exact ExamplesCommB.exclusive_example. Qed.
Print Assumptions C38_exclusive_example.

Theorem C39_read_bds00_partial : forall data m, bytes data -> len data = 7 ->
  (bds00.ReadNoMessageAvailable data = Ok m <-> recognised_00 data /\ m = bds00.mkNoMessageAvailable).
Proof. exact CommB1.read_bds00. Qed.
Print Assumptions C39_read_bds00_partial.

Theorem C39_bds07_partial : forall data m, bytes data -> len data = 7 ->
  (recognised_07 data -> bds07.ReadStatus data = Ok (status_07 data)) /\
  (bits 7 8 data = 0 -> bds07.ReadStatus data = Ok m -> recognised_07 data /\ m = status_07 data).
Proof. exact CommB1.bds07_partial. Qed.
Print Assumptions C39_bds07_partial.

Theorem C39_bds07_refuted :
  bytes [1;0;0;0;0;0;0] /\ len [1;0;0;0;0;0;0] = 7 /\ ~ recognised_07 [1;0;0;0;0;0;0] /\
  exists m, bds07.ReadStatus [1;0;0;0;0;0;0] = Ok m.
Proof. exact CommB1.bds07_refuted. Qed.
Print Assumptions C39_bds07_refuted.

Theorem C39_coherence_bds07_partial : forall data, bytes data -> len data = 7 ->
  (bds07.Status_CheckCoherency (status_07 data) = Ok tt <-> coherent_07 data) /\
  bds07.Status_CheckCoherency (status_07 data) <> Panic.
Proof. exact CommB1.coherence_bds07. Qed.
Print Assumptions C39_coherence_bds07_partial.

Example C39_status_07_example : bytes [0x60; 0; 0; 0; 0; 0; 0] /\ len [0x60; 0; 0; 0; 0; 0; 0] = 7 /\ recognised_07 [0x60; 0; 0; 0; 0; 0; 0] /\ coherent_07 [0x60; 0; 0; 0; 0; 0; 0] /\
  bits 7 8 [0x60; 0; 0; 0; 0; 0; 0] = 0 /\ recognised_00 [0; 0; 0; 0; 0; 0; 0].
Proof. exact ExamplesCommB.status_07_example. Qed.
Print Assumptions C39_status_07_example.

Theorem C40_bds10_partial : forall data m, bytes data -> len data = 7 ->
  (bds10.ReadDataLinkCapabilityReport data = Ok m <->
   recognised_10 data /\ m = capability_10 data (2 * bits 18 18 data)).
Proof. exact CommB1.bds10_partial. Qed.
Print Assumptions C40_bds10_partial.

Theorem C40_bds10_refuted :
  bytes [16;0;0;0;32;0;0] /\ len [16;0;0;0;32;0;0] = 7 /\ recognised_10 [16;0;0;0;32;0;0] /\ bits 35 35 [16;0;0;0;32;0;0] = 1 /\
  exists m, bds10.ReadDataLinkCapabilityReport [16;0;0;0;32;0;0] = Ok m /\
            bds10.DataLinkCapabilityReport_SurveillanceIdentifierCode m = 0.
Proof. exact CommB1.bds10_refuted. Qed.
Print Assumptions C40_bds10_refuted.

Theorem C40_coherence_bds10_partial : forall data sic, bytes data -> len data = 7 ->
  (bds10.DataLinkCapabilityReport_CheckCoherency (capability_10 data sic) = Ok tt <-> coherent_10 data) /\
  bds10.DataLinkCapabilityReport_CheckCoherency (capability_10 data sic) <> Panic.
Proof. exact CommB1.coherence_bds10. Qed.
Print Assumptions C40_coherence_bds10_partial.

Example C40_capability_10_example : bytes [0x10; 0x02; 0x0A; 0x80; 0xE5; 0x00; 0x00] /\ len [0x10; 0x02; 0x0A; 0x80; 0xE5; 0x00; 0x00] = 7 /\ recognised_10 [0x10; 0x02; 0x0A; 0x80; 0xE5; 0x00; 0x00] /\
  exists m, bds10.ReadDataLinkCapabilityReport [0x10; 0x02; 0x0A; 0x80; 0xE5; 0x00; 0x00] = Ok m.
Proof. exact ExamplesCommB.capability_10_example. Qed.
Print Assumptions C40_capability_10_example.

Theorem C41_read_bds17 : forall data m, bytes data -> len data = 7 ->
  (bds17.ReadCommonUsageGICBCapabilityReport data = Ok m <-> recognised_17 data /\ m = capability_17 data).
Proof. exact CommB1.read_bds17. Qed.
Print Assumptions C41_read_bds17.

Example C41_capability_17_example : bytes [0xFA; 0x81; 0xC1; 0x00; 0x00; 0x00; 0x00] /\ len [0xFA; 0x81; 0xC1; 0x00; 0x00; 0x00; 0x00] = 7 /\ recognised_17 [0xFA; 0x81; 0xC1; 0x00; 0x00; 0x00; 0x00] /\
  exists m, bds17.ReadCommonUsageGICBCapabilityReport [0xFA; 0x81; 0xC1; 0x00; 0x00; 0x00; 0x00] = Ok m /\
    bds17.CommonUsageGICBCapabilityReport_ExtendedSquitterAirbornePosition m = true.
Proof. exact ExamplesCommB.capability_17_example. Qed.
Print Assumptions C41_capability_17_example.

Theorem C42_read_bds20_iff : forall data m, bytes data -> len data = 7 ->
  (bds20.ReadAircraftIdentification data = Ok m <->
   recognised_20 data /\
   m = {| bds20.AircraftIdentification_Identification := text (List.map shown (char_codes data)) |}).
Proof. exact CommB1.read_bds20_iff. Qed.
Print Assumptions C42_read_bds20_iff.

Theorem C42_coherence_bds20 : forall data, bytes data -> len data = 7 ->
  let m := {| bds20.AircraftIdentification_Identification := text (List.map shown (char_codes data)) |} in
  (bds20.AircraftIdentification_CheckCoherency m = Ok tt <-> legal_characters data) /\
  bds20.AircraftIdentification_CheckCoherency m <> Panic.
Proof. exact CommB1.coherence_bds20. Qed.
Print Assumptions C42_coherence_bds20.

Example C42_identification_20_example : bytes [0x20; 0x50; 0x86; 0x73; 0xE1; 0x98; 0x20] /\ len [0x20; 0x50; 0x86; 0x73; 0xE1; 0x98; 0x20] = 7 /\ recognised_20 [0x20; 0x50; 0x86; 0x73; 0xE1; 0x98; 0x20] /\
  text (List.map shown (char_codes [0x20; 0x50; 0x86; 0x73; 0xE1; 0x98; 0x20])) = "THY38Y  "%string.
Proof. exact ExamplesCommB.identification_20_example. Qed.
Print Assumptions C42_identification_20_example.

Theorem C43_resolution_advisory_partial : forall data, bytes data -> len data = 6 ->
  (bits 21 22 data = 2 -> bits 23 24 data = 0 /\ bits 42 42 data = 0) ->
  forall ra, Reports data ra <-> acas_ra.ReadResolutionAdvisory data = Ok ra.
Proof. exact AcasReader.resolution_advisory_partial. Qed.
Print Assumptions C43_resolution_advisory_partial.

Theorem C43_threat_altitude_refuted :
  bytes [0x80; 0; 0x09; 0x20; 0; 0] /\ len [0x80; 0; 0x09; 0x20; 0; 0] = 6 /\
  exists ra ra', Reports [0x80; 0; 0x09; 0x20; 0; 0] ra /\ acas_ra.ReadResolutionAdvisory [0x80; 0; 0x09; 0x20; 0; 0] = Ok ra' /\
    acas_ra.ResolutionAdvisory_ThreatIdentityAltitude ra =
      Some {| acas_ra_fields.ThreatIdentityAltitude_AltitudeStatus := acas_ra_fields.AltitudeValid;
              acas_ra_fields.ThreatIdentityAltitude_AltitudeInFeet := 30700 |} /\
    acas_ra.ResolutionAdvisory_ThreatIdentityAltitude ra' <> acas_ra.ResolutionAdvisory_ThreatIdentityAltitude ra.
Proof. exact AcasReader.threat_altitude_refuted. Qed.
Print Assumptions C43_threat_altitude_refuted.

Theorem C43_threat_range_refuted :
  bytes [0x80; 0; 0x08; 0; 0; 0x40] /\ len [0x80; 0; 0x08; 0; 0; 0x40] = 6 /\
  exists ra ra', Reports [0x80; 0; 0x08; 0; 0; 0x40] ra /\ acas_ra.ReadResolutionAdvisory [0x80; 0; 0x08; 0; 0; 0x40] = Ok ra' /\
    acas_ra.ResolutionAdvisory_ThreatIdentityRange ra = Some 1 /\
    acas_ra.ResolutionAdvisory_ThreatIdentityRange ra' = Some 0.
Proof. exact AcasReader.threat_range_refuted. Qed.
Print Assumptions C43_threat_range_refuted.

Theorem C43_bds30_partial : forall data m, bytes data -> len data = 7 ->
  (bits 29 30 data = 2 -> bits 31 32 data = 0 /\ bits 50 50 data = 0) ->
  (bds30.ReadACASResolutionAdvisory data = Ok m <->
   recognised_30 data /\ Reports (octets 2 7 data) (bds30.ACASResolutionAdvisory_ResolutionAdvisory m)).
Proof. exact CommB1.bds30_partial. Qed.
Print Assumptions C43_bds30_partial.

Example C43_advisory_example : bytes [0x30; 0xC0; 0x80; 0x05; 0x69; 0xA5; 0xF4] /\ len [0x30; 0xC0; 0x80; 0x05; 0x69; 0xA5; 0xF4] = 7 /\ recognised_30 [0x30; 0xC0; 0x80; 0x05; 0x69; 0xA5; 0xF4] /\
  bits 29 30 [0x30; 0xC0; 0x80; 0x05; 0x69; 0xA5; 0xF4] = 1 /\
  exists m ra, bds30.ReadACASResolutionAdvisory [0x30; 0xC0; 0x80; 0x05; 0x69; 0xA5; 0xF4] = Ok m /\
    acas_ra.ReadResolutionAdvisory (octets 2 7 [0x30; 0xC0; 0x80; 0x05; 0x69; 0xA5; 0xF4]) = Ok ra /\
    acas_ra.ResolutionAdvisory_ThreatIdentityAddress ra = Some 0x5A697D.
Proof. exact ExamplesCommB.advisory_example. Qed.
Print Assumptions C43_advisory_example.

Example C43_advisory_altitude_example : let data := [0xC0; 0x80; 0x08; 0x60; 0x00; 0x8A] in
  bytes data /\ len data = 6 /\ bits 21 22 data = 2 /\ bits 23 24 data = 0 /\ bits 42 42 data = 0 /\
  exists ra a, acas_ra.ReadResolutionAdvisory data = Ok ra /\
    acas_ra.ResolutionAdvisory_ThreatIdentityAltitude ra = Some a /\
    acas_ra.ResolutionAdvisory_ThreatIdentityRange ra = Some 2 /\
    acas_ra.ResolutionAdvisory_ThreatIdentityBearing ra = Some 10.
Proof. exact ExamplesCommB.advisory_altitude_example. Qed.
Print Assumptions C43_advisory_altitude_example.

Theorem C44_bds40_partial : forall data, bytes data -> len data = 7 ->
  (* recognition, and all the fields but the altitudes and the status of the pressure *)
  (forall m, bds40.ReadSelectedVerticalIntention data = Ok m ->
     recognised_40 data /\ exists mcp fms status pressure,
     is_close pressure (setting_hpa (bits 28 39 data)) (1 # 10000) /\
     m = intention data mcp fms status pressure) /\
  (recognised_40 data -> exists m, bds40.ReadSelectedVerticalIntention data = Ok m) /\
  (* the whole property when the two altitudes are equal and the statuses too *)
  (bits 2 13 data = bits 15 26 data -> bit 27 data = bit 1 data -> forall m,
     bds40.ReadSelectedVerticalIntention data = Ok m -> IntentionOf data m).
Proof. exact CommB1.bds40_partial. Qed.
Print Assumptions C44_bds40_partial.

Theorem C44_bds40_refuted :
  bytes [190;128;0;48;168;0;0] /\ len [190;128;0;48;168;0;0] = 7 /\ recognised_40 [190;128;0;48;168;0;0] /\ coherent_40 [190;128;0;48;168;0;0] /\
  bit 1 [190;128;0;48;168;0;0] = true /\ 16 * bits 2 13 [190;128;0;48;168;0;0] = 32000 /\
  exists m, bds40.ReadSelectedVerticalIntention [190;128;0;48;168;0;0] = Ok m /\
    bds40.SelectedVerticalIntention_MCPFCUSelectedAltitudeAvailable m = true /\
    bds40.SelectedVerticalIntention_MCPFCUSelectedAltitude m = 0 /\
    bds40.SelectedVerticalIntention_FMSSelectedAltitudeAvailable m = false /\
    bds40.SelectedVerticalIntention_FMSSelectedAltitude m = 32000 /\
    ~ IntentionOf [190;128;0;48;168;0;0] m /\
    (* and the message is then rejected as not coherent *)
    exists e, bds40.SelectedVerticalIntention_CheckCoherency m = Err e.
Proof. exact CommB1.bds40_refuted. Qed.
Print Assumptions C44_bds40_refuted.

Theorem C44_bds40_pressure_refuted :
  bytes [0;0;0;48;168;0;0] /\ len [0;0;0;48;168;0;0] = 7 /\ recognised_40 [0;0;0;48;168;0;0] /\ coherent_40 [0;0;0;48;168;0;0] /\
  bit 27 [0;0;0;48;168;0;0] = true /\
  exists m, bds40.ReadSelectedVerticalIntention [0;0;0;48;168;0;0] = Ok m /\
    bds40.SelectedVerticalIntention_BarometricPressureSettingAvailable m = false /\
    exists e, bds40.SelectedVerticalIntention_CheckCoherency m = Err e.
Proof. exact CommB1.bds40_pressure_refuted. Qed.
Print Assumptions C44_bds40_pressure_refuted.

Theorem C44_intention_coherent_partial : forall m,
  bds40.SelectedVerticalIntention_CheckCoherency m = Ok tt <->
  (bds40.SelectedVerticalIntention_MCPFCUSelectedAltitudeAvailable m = true \/
   bds40.SelectedVerticalIntention_FMSSelectedAltitudeAvailable m = true \/
   bds40.SelectedVerticalIntention_BarometricPressureSettingAvailable m = true) /\
  (bds40.SelectedVerticalIntention_MCPFCUSelectedAltitudeAvailable m = false ->
   bds40.SelectedVerticalIntention_MCPFCUSelectedAltitude m = 0) /\
  (bds40.SelectedVerticalIntention_FMSSelectedAltitudeAvailable m = false ->
   bds40.SelectedVerticalIntention_FMSSelectedAltitude m = 0) /\
  (bds40.SelectedVerticalIntention_BarometricPressureSettingAvailable m = false ->
   is_value (bds40.SelectedVerticalIntention_BarometricPressureSetting m) 0).
Proof. exact Coherence.intention_coherent. Qed.
Print Assumptions C44_intention_coherent_partial.

Example C44_intention_example : bytes [0x85; 0xE4; 0x2F; 0x31; 0x30; 0x01; 0xE7] /\ len [0x85; 0xE4; 0x2F; 0x31; 0x30; 0x01; 0xE7] = 7 /\ recognised_40 [0x85; 0xE4; 0x2F; 0x31; 0x30; 0x01; 0xE7] /\
  bits 2 13 [0x85; 0xE4; 0x2F; 0x31; 0x30; 0x01; 0xE7] = bits 15 26 [0x85; 0xE4; 0x2F; 0x31; 0x30; 0x01; 0xE7] /\ bit 27 [0x85; 0xE4; 0x2F; 0x31; 0x30; 0x01; 0xE7] = bit 1 [0x85; 0xE4; 0x2F; 0x31; 0x30; 0x01; 0xE7] /\
  exists m, bds40.ReadSelectedVerticalIntention [0x85; 0xE4; 0x2F; 0x31; 0x30; 0x01; 0xE7] = Ok m /\
    bds40.SelectedVerticalIntention_MCPFCUSelectedAltitude m = 3008 /\
    bds40.SelectedVerticalIntention_CheckCoherency m = Ok tt.
Proof. exact ExamplesCommB.intention_example. Qed.
Print Assumptions C44_intention_example.

Theorem C45_routine_report_partial : forall data, bytes data -> len data = 7 ->
  (forall m, bit 6 data = false -> bds44.ReadMeteorologicalRoutineAirReport data = Ok m ->
     RoutineOf data m /\
     (bds44.IMeteorologicalRoutineAirReport_CheckCoherency m = Ok tt <-> coherent_44 data)) /\
  ((exists m, bds44.ReadMeteorologicalRoutineAirReport data = Ok m) <-> bits 1 4 data <= 4).
Proof. exact CommB3.routine_report_partial. Qed.
Print Assumptions C45_routine_report_partial.

Theorem C45_routine_report_refuted :
  bytes [28;178;129;246;0;0;0] /\ len [28;178;129;246;0;0;0] = 7 /\ bits 1 4 [28;178;129;246;0;0;0] = 1 /\ bit 5 [28;178;129;246;0;0;0] = true /\
  bits 6 14 [28;178;129;246;0;0;0] = 300 /\
  exists m, bds44.ReadMeteorologicalRoutineAirReport [28;178;129;246;0;0;0] = Ok (bds44.IMeteorologicalRoutineAirReport_MeteorologicalRoutineAirReportV2 m) /\
    bds44.MeteorologicalRoutineAirReportV2_WindSpeed m = 44 /\
    (* implausible, and yet accepted *)
    ~ coherent_44 [28;178;129;246;0;0;0] /\ bds44.MeteorologicalRoutineAirReportV2_CheckCoherency m = Ok tt.
Proof. exact CommB3.routine_report_refuted. Qed.
Print Assumptions C45_routine_report_refuted.

Theorem C45_routine_source_refuted :
  exists m, bds44.ReadMeteorologicalRoutineAirReport [28;178;129;246;0;0;0] = Ok m /\ bits 1 4 [28;178;129;246;0;0;0] = 1 /\
    bds44.IMeteorologicalRoutineAirReport_GetSource m = 0.
Proof. exact CommB3.routine_source_refuted. Qed.
Print Assumptions C45_routine_source_refuted.

Theorem C45_routine_report_v0_partial : forall data, bytes data -> len data = 7 -> bit 6 data = false ->
  exists m direction temperature humidity,
    bds44.ReadMeteorologicalRoutineAirReportV0 data = Ok m /\
    is_value direction (inject_Z (bits 15 23 data) * (180 # 256)) /\
    is_value humidity (inject_Z (bits 51 56 data) * (100 # 64)) /\
    m = routine_v0 data (bits 6 14 data) direction temperature humidity.
Proof. exact CommB3.routine_report_v0_partial. Qed.
Print Assumptions C45_routine_report_v0_partial.

Theorem C45_routine_report_v0_refuted :
  exists data data' m, bytes data /\ bytes data' /\ len data = 7 /\ len data' = 7 /\
    bit 24 data = false /\ bit 24 data' = true /\ bits 25 34 data = bits 25 34 data' /\
    bds44.ReadMeteorologicalRoutineAirReportV0 data = Ok m /\ bds44.ReadMeteorologicalRoutineAirReportV0 data' = Ok m.
Proof. exact CommB3.routine_report_v0_refuted. Qed.
Print Assumptions C45_routine_report_v0_refuted.

Example C45_routine_example : exists data, bytes data /\ len data = 7 /\ bit 6 data = false /\ coherent_44 data.
Proof. exact CommB3.routine_example. Qed.
Print Assumptions C45_routine_example.

Theorem C45_routine_coherent_v0_partial : forall data m, bytes data -> len data = 7 ->
  bit 6 data = false -> bit 24 data = false -> bit 32 data = false -> absent_is_zero 47 48 49 data ->
  bds44.ReadMeteorologicalRoutineAirReportV0 data = Ok m ->
  is_value (bds44.MeteorologicalRoutineAirReportV0_StaticAirTemperature m) (inject_Z (signed 24 34 data) * (1 # 4)) /\
  (bds44.MeteorologicalRoutineAirReportV0_CheckCoherency m = Ok tt <-> coherent_44_v0 data) /\
  bds44.MeteorologicalRoutineAirReportV0_CheckCoherency m <> Panic.
Proof. exact CommB4.routine_coherent_v0_partial. Qed.
Print Assumptions C45_routine_coherent_v0_partial.

Theorem C45_routine_coherent_v0_refuted : exists data m, bytes data /\ len data = 7 /\
  bit 6 data = false /\ bit 24 data = false /\ bit 32 data = false /\
  bit 47 data = false /\ bits 48 49 data = 2 /\
  bds44.ReadMeteorologicalRoutineAirReportV0 data = Ok m /\
  bds44.MeteorologicalRoutineAirReportV0_CheckCoherency m = Ok tt /\ ~ coherent_44_v0 data.
Proof. exact CommB4.routine_coherent_v0_refuted. Qed.
Print Assumptions C45_routine_coherent_v0_refuted.

Example C45_routine_v0_example : exists data m, bytes data /\ len data = 7 /\ bit 6 data = false /\ bit 24 data = false /\
  bit 32 data = false /\ absent_is_zero 47 48 49 data /\ coherent_44_v0 data /\
  bds44.ReadMeteorologicalRoutineAirReportV0 data = Ok m.
Proof. exact CommB4.routine_v0_example. Qed.
Print Assumptions C45_routine_v0_example.

Theorem C46_hazard_report : forall data m, bytes data -> len data = 7 ->
  bds45.ReadMeteorologicalHazardReport data = Ok m ->
  HazardOf data m /\
  (bds45.IMeteorologicalHazardReport_CheckCoherency m = Ok tt <-> coherent_45 data) /\
  bds45.IMeteorologicalHazardReport_CheckCoherency m <> Panic.
Proof. exact CommB3.hazard_report. Qed.
Print Assumptions C46_hazard_report.

Theorem C46_hazard_report_recognised : forall data, bytes data -> len data = 7 ->
  ((exists m, bds45.ReadMeteorologicalHazardReport data = Ok m) <-> bits 55 56 data = 0).
Proof. exact CommB3.hazard_report_recognised. Qed.
Print Assumptions C46_hazard_report_recognised.

Theorem C46_hazard_report_v0 : forall data m, bytes data -> len data = 7 ->
  bds45.ReadMeteorologicalHazardReportV0 data = Ok m ->
  bits 52 56 data = 0 /\
  exists temperature, is_value temperature (inject_Z (signed 17 26 data) * (1 # 4)) /\ m = hazard_v0 data temperature.
Proof. exact CommB3.hazard_report_v0. Qed.
Print Assumptions C46_hazard_report_v0.

Example C46_hazard_example : exists data m, bytes data /\ len data = 7 /\ coherent_45 data /\
  bds45.ReadMeteorologicalHazardReport data = Ok m.
Proof. exact CommB3.hazard_example. Qed.
Print Assumptions C46_hazard_example.

Theorem C46_hazard_coherent_v0 : forall data m, bytes data -> len data = 7 ->
  bds45.ReadMeteorologicalHazardReportV0 data = Ok m ->
  (bds45.MeteorologicalHazardReportV0_CheckCoherency m = Ok tt <-> coherent_45_v0 data) /\
  bds45.MeteorologicalHazardReportV0_CheckCoherency m <> Panic.
Proof. exact CommB4.hazard_coherent_v0. Qed.
Print Assumptions C46_hazard_coherent_v0.

Example C46_hazard_v0_example : exists data m, bytes data /\ len data = 7 /\ coherent_45_v0 data /\
  bds45.ReadMeteorologicalHazardReportV0 data = Ok m.
Proof. exact CommB4.hazard_v0_example. Qed.
Print Assumptions C46_hazard_v0_example.

Theorem C47_track_and_turn_report : forall data, bytes data -> len data = 7 ->
  exists m, bds50.ReadTrackAndTurnReport data = Ok m /\ TrackOf data m /\
    (bds50.TrackAndTurnReport_CheckCoherency m = Ok tt <-> coherent_50 data) /\
    bds50.TrackAndTurnReport_CheckCoherency m <> Panic.
Proof. exact CommB2.track_and_turn_report. Qed.
Print Assumptions C47_track_and_turn_report.

Example C47_track_and_turn_example : exists data, bytes data /\ len data = 7 /\ coherent_50 data.
Proof. exact CommB2.track_and_turn_example. Qed.
Print Assumptions C47_track_and_turn_example.

Theorem C48_heading_and_speed_report : forall data, bytes data -> len data = 7 ->
  exists m, bds60.ReadHeadingAndSpeedReport data = Ok m /\ HeadingOf data m /\
    (bds60.HeadingAndTrackReport_CheckCoherency m = Ok tt <-> coherent_60 data) /\
    bds60.HeadingAndTrackReport_CheckCoherency m <> Panic.
Proof. exact CommB2.heading_and_speed_report. Qed.
Print Assumptions C48_heading_and_speed_report.

Example C48_heading_and_speed_example : exists data, bytes data /\ len data = 7 /\ coherent_60 data.
Proof. exact CommB2.heading_and_speed_example. Qed.
Print Assumptions C48_heading_and_speed_example.

Theorem C59_commb_register_ids : forall m, bds_register.Register_id (Message_GetRegister m) =
  match number m with
  | 0 => "BDS 0,0" | 7 => "BDS 0,7" | 10 => "BDS 1,0" | 17 => "BDS 1,7" | 20 => "BDS 2,0" | 30 => "BDS 3,0"
  | 40 => "BDS 4,0" | 44 => "BDS 4,4" | 45 => "BDS 4,5" | 50 => "BDS 5,0" | _ => "BDS 6,0" end%string.
Proof. exact CommBApi.commb_register_ids. Qed.
Print Assumptions C59_commb_register_ids.
