(* Concrete cases meeting the hypotheses of the property theorems: Comm-B registers, accessors. *)
From Verif Require Import GoBase Bits.
From Verif.Spec Require Import Floats Acas Identification CommB CommBMessages.
From Verif.Gen Require bds_register bds00 bds07 bds07_fields bds10 bds10_fields bds17 bds20 bds30 bds40 bds40_fields
  bds44 bds44_fields bds45 bds45_fields bds50 bds50_fields bds60 bds60_fields acas_ra acas_ra_fields.
From Verif.Model Require Import CommbReader.
From Verif.Proofs Require Import Examples.
Local Open Scope Z_scope.

Definition mb_status : list Z := [0x60; 0; 0; 0; 0; 0; 0].
Definition mb_link : list Z := [0x10; 0x02; 0x0A; 0x80; 0xE5; 0x00; 0x00].
Definition mb_gicb : list Z := [0xFA; 0x81; 0xC1; 0x00; 0x00; 0x00; 0x00].
Definition mb_identification : list Z := [0x20; 0x50; 0x86; 0x73; 0xE1; 0x98; 0x20].
Definition mb_advisory : list Z := [0x30; 0xC0; 0x80; 0x05; 0x69; 0xA5; 0xF4].
Definition mb_intention : list Z := [0x85; 0xE4; 0x2F; 0x31; 0x30; 0x01; 0xE7].
Definition mb_track : list Z := [0x81; 0x95; 0x15; 0x36; 0xE0; 0x24; 0xD4].

Example commb_any_example : (exists e, ReadCommBMessage [0x20] = Err e) /\
  (exists l, ReadCommBMessage [0xFF; 0xFF; 0xFF; 0xFF; 0xFF; 0xFF; 0xFF] = Ok l).
Proof. concrete. Qed.

Example exclusive_example : exists m7 m20,
  bytes mb_status /\ len mb_status = 7 /\ bits 1 56 mb_status <> 0 /\ ReadCommBMessage mb_status = Ok [B07 m7] /\
  bds07.Status_CheckCoherency m7 = Ok tt /\
  bytes mb_identification /\ len mb_identification = 7 /\ bits 1 56 mb_identification <> 0 /\
  ReadCommBMessage mb_identification = Ok [B20 m20] /\ bds20.AircraftIdentification_CheckCoherency m20 = Ok tt.
Proof. concrete. Qed.

Example status_07_example : bytes mb_status /\ len mb_status = 7 /\ recognised_07 mb_status /\ coherent_07 mb_status /\
  bits 7 8 mb_status = 0 /\ recognised_00 [0; 0; 0; 0; 0; 0; 0].
Proof. unfold recognised_07, coherent_07, recognised_00. concrete. Qed.

Example capability_10_example : bytes mb_link /\ len mb_link = 7 /\ recognised_10 mb_link /\
  exists m, bds10.ReadDataLinkCapabilityReport mb_link = Ok m.
Proof. unfold recognised_10. concrete. Qed.

Example capability_17_example : bytes mb_gicb /\ len mb_gicb = 7 /\ recognised_17 mb_gicb /\
  exists m, bds17.ReadCommonUsageGICBCapabilityReport mb_gicb = Ok m /\
    bds17.CommonUsageGICBCapabilityReport_ExtendedSquitterAirbornePosition m = true.
Proof. unfold recognised_17. concrete. Qed.

Example identification_20_example : bytes mb_identification /\ len mb_identification = 7 /\ recognised_20 mb_identification /\
  text (List.map shown (char_codes mb_identification)) = "THY38Y  "%string.
Proof. unfold recognised_20. concrete. Qed.

Example advisory_example : bytes mb_advisory /\ len mb_advisory = 7 /\ recognised_30 mb_advisory /\
  bits 29 30 mb_advisory = 1 /\
  exists m ra, bds30.ReadACASResolutionAdvisory mb_advisory = Ok m /\
    acas_ra.ReadResolutionAdvisory (octets 2 7 mb_advisory) = Ok ra /\
    acas_ra.ResolutionAdvisory_ThreatIdentityAddress ra = Some 0x5A697D.
Proof. unfold recognised_30. concrete. Qed.

(* an encounter with a threat located by altitude, range and bearing *)
Example advisory_altitude_example : let data := [0xC0; 0x80; 0x08; 0x60; 0x00; 0x8A] in
  bytes data /\ len data = 6 /\ bits 21 22 data = 2 /\ bits 23 24 data = 0 /\ bits 42 42 data = 0 /\
  exists ra a, acas_ra.ReadResolutionAdvisory data = Ok ra /\
    acas_ra.ResolutionAdvisory_ThreatIdentityAltitude ra = Some a /\
    acas_ra.ResolutionAdvisory_ThreatIdentityRange ra = Some 2 /\
    acas_ra.ResolutionAdvisory_ThreatIdentityBearing ra = Some 10.
Proof. cbv zeta. concrete. Qed.

Example intention_example : bytes mb_intention /\ len mb_intention = 7 /\ recognised_40 mb_intention /\
  bits 2 13 mb_intention = bits 15 26 mb_intention /\ bit 27 mb_intention = bit 1 mb_intention /\
  exists m, bds40.ReadSelectedVerticalIntention mb_intention = Ok m /\
    bds40.SelectedVerticalIntention_MCPFCUSelectedAltitude m = 3008 /\
    bds40.SelectedVerticalIntention_CheckCoherency m = Ok tt.
Proof. unfold recognised_40. concrete. Qed.

Example registers_example : bits 1 56 mb_track <> 0 /\
  ~ ((bits 4 6 mb_track = 0 /\ bits 9 56 mb_track = 0) /\ coherent_07 mb_track) /\
  ~ (recognised_20 mb_track /\ legal_characters mb_track) /\
  exists l, ReadCommBMessage mb_track = Ok l /\ List.In 50 (List.map number l).
Proof.
  concrete.
  - intros [[_ H] _]. vm_compute in H. discriminate.
  - intros [H _]. vm_compute in H. discriminate.
  - vm_compute. tauto.
Qed.
