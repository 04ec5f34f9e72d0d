(* GENERATED by tools/tests2coq.py: the unit tests of the repository, on the model. *)
From Verif Require Import GoBase.
From Verif.Gen Require acas_ra acas_ra_fields bds00 bds05 bds05_fields bds06 bds08 bds08_fields bds09 bds09_fields bds20 bds40 bds40_fields bds44 bds44_fields bds45 bds45_fields bds50 bds60 bds61 bds61_fields bds62 bds62_fields bds65 bds65_fields bds_register modes_common modes_fields modes_messages.
Local Open Scope Z_scope.
Local Open Scope bool_scope.

(* pkg/modes/messages/df0_test.go:9-48 *)
Example TestReadFormatDF0Valid_modes_messages :
  (match modes_messages.ParseDF0 ({| modes_common.MessageData_DownLinkFormat := 0; modes_common.MessageData_FirstField := 6; modes_common.MessageData_Payload := [165; 21; 53]; modes_common.MessageData_Parity := [0; 0; 0] |}) with Ok msg =>
  ((modes_messages.MessageDF0_VerticalStatus msg) =? modes_fields.VerticalStatusOnTheGround) &&
  ((modes_messages.MessageDF0_CrossLinkCapability msg) =? modes_fields.CrossLinkCompatibilitySupported) &&
  ((modes_messages.MessageDF0_ReplyInformation msg) =? modes_fields.ReplyInformationMaximumAirSpeed140To280) &&
  ((modes_messages.MessageDF0_Altitude msg) =? 33125) &&
  ((modes_messages.MessageDF0_AltitudeReportMethod msg) =? modes_fields.AltitudeCodeReport25FootIncrements) &&
  (0 <? (Z.of_nat (String.length (modes_messages.MessageDF0_ToString (msg))))) &&
  true
  | _ => false end) = true.
Proof. vm_compute. reflexivity. Qed.

(* pkg/modes/messages/df11_test.go:9-30 *)
Example TestReadFormatDF11Valid_modes_messages :
  (match modes_messages.ParseDF11 ({| modes_common.MessageData_DownLinkFormat := 11; modes_common.MessageData_FirstField := 5; modes_common.MessageData_Payload := [105; 167; 240]; modes_common.MessageData_Parity := [0; 0; 0] |}) with Ok msg =>
  ((modes_messages.MessageDF11_Capability msg) =? modes_fields.CapabilityLevel2Airborne) &&
  ((modes_fields.AddressAnnounced_Address (modes_messages.MessageDF11_AddressAnnounced msg)) =? 6924272) &&
  (0 <? (Z.of_nat (String.length (modes_messages.MessageDF11_ToString (msg))))) &&
  true
  | _ => false end) = true.
Proof. vm_compute. reflexivity. Qed.

(* pkg/modes/messages/df16_test.go:9-70 *)
Example TestReadFormatDF16Valid_modes_messages :
  (match modes_messages.ParseDF16 ({| modes_common.MessageData_DownLinkFormat := 16; modes_common.MessageData_FirstField := 4; modes_common.MessageData_Payload := [165; 21; 53; 1; 35; 69; 103; 137; 171; 205]; modes_common.MessageData_Parity := [0; 0; 0; 0; 0; 0; 0; 0; 0; 0; 0; 0; 0; 0; 0; 0] |}) with Ok msg =>
  ((modes_messages.MessageDF16_VerticalStatus msg) =? modes_fields.VerticalStatusOnTheGround) &&
  ((modes_messages.MessageDF16_ReplyInformation msg) =? modes_fields.ReplyInformationMaximumAirSpeed140To280) &&
  ((modes_messages.MessageDF16_Altitude msg) =? 33125) &&
  ((modes_messages.MessageDF16_AltitudeReportMethod msg) =? modes_fields.AltitudeCodeReport25FootIncrements) &&
  ((nth 0 (modes_messages.MessageDF16_MessageACAS msg) 0) =? 1) &&
  ((nth 1 (modes_messages.MessageDF16_MessageACAS msg) 0) =? 35) &&
  ((nth 2 (modes_messages.MessageDF16_MessageACAS msg) 0) =? 69) &&
  ((nth 3 (modes_messages.MessageDF16_MessageACAS msg) 0) =? 103) &&
  ((nth 4 (modes_messages.MessageDF16_MessageACAS msg) 0) =? 137) &&
  ((nth 5 (modes_messages.MessageDF16_MessageACAS msg) 0) =? 171) &&
  ((nth 6 (modes_messages.MessageDF16_MessageACAS msg) 0) =? 205) &&
  (0 <? (Z.of_nat (String.length (modes_messages.MessageDF16_ToString (msg))))) &&
  true
  | _ => false end) = true.
Proof. vm_compute. reflexivity. Qed.

(* pkg/modes/messages/df17_test.go:9-58 *)
Example TestReadFormatDF17Valid_modes_messages :
  (match modes_messages.ParseDF17 ({| modes_common.MessageData_DownLinkFormat := 17; modes_common.MessageData_FirstField := 5; modes_common.MessageData_Payload := [105; 167; 240; 1; 35; 69; 103; 137; 171; 205]; modes_common.MessageData_Parity := [0; 0; 0] |}) with Ok msg =>
  ((modes_messages.MessageDF17_Capability msg) =? modes_fields.CapabilityLevel2Airborne) &&
  ((modes_fields.AddressAnnounced_Address (modes_messages.MessageDF17_AddressAnnounced msg)) =? 6924272) &&
  ((nth 0 (modes_messages.MessageDF17_MessageExtendedSquitter msg) 0) =? 1) &&
  ((nth 1 (modes_messages.MessageDF17_MessageExtendedSquitter msg) 0) =? 35) &&
  ((nth 2 (modes_messages.MessageDF17_MessageExtendedSquitter msg) 0) =? 69) &&
  ((nth 3 (modes_messages.MessageDF17_MessageExtendedSquitter msg) 0) =? 103) &&
  ((nth 4 (modes_messages.MessageDF17_MessageExtendedSquitter msg) 0) =? 137) &&
  ((nth 5 (modes_messages.MessageDF17_MessageExtendedSquitter msg) 0) =? 171) &&
  ((nth 6 (modes_messages.MessageDF17_MessageExtendedSquitter msg) 0) =? 205) &&
  (0 <? (Z.of_nat (String.length (match modes_messages.MessageDF17_ToString (msg) with Ok x__ => x__ | _ => ""%string end)))) &&
  true
  | _ => false end) = true.
Proof. vm_compute. reflexivity. Qed.

(* pkg/modes/messages/df18_test.go:9-58 *)
Example TestReadFormatDF18Valid_modes_messages :
  (match modes_messages.ParseDF18 ({| modes_common.MessageData_DownLinkFormat := 18; modes_common.MessageData_FirstField := 5; modes_common.MessageData_Payload := [105; 167; 240; 1; 35; 69; 103; 137; 171; 205]; modes_common.MessageData_Parity := [0; 0; 0] |}) with Ok msg =>
  ((modes_messages.MessageDF18_ControlField msg) =? modes_fields.ControlFieldTISBRelayADSB) &&
  ((modes_fields.AddressAnnounced_Address (modes_messages.MessageDF18_AddressAnnounced msg)) =? 6924272) &&
  ((nth 0 (modes_messages.MessageDF18_MessageExtendedSquitter msg) 0) =? 1) &&
  ((nth 1 (modes_messages.MessageDF18_MessageExtendedSquitter msg) 0) =? 35) &&
  ((nth 2 (modes_messages.MessageDF18_MessageExtendedSquitter msg) 0) =? 69) &&
  ((nth 3 (modes_messages.MessageDF18_MessageExtendedSquitter msg) 0) =? 103) &&
  ((nth 4 (modes_messages.MessageDF18_MessageExtendedSquitter msg) 0) =? 137) &&
  ((nth 5 (modes_messages.MessageDF18_MessageExtendedSquitter msg) 0) =? 171) &&
  ((nth 6 (modes_messages.MessageDF18_MessageExtendedSquitter msg) 0) =? 205) &&
  (0 <? (Z.of_nat (String.length (match modes_messages.MessageDF18_ToString (msg) with Ok x__ => x__ | _ => ""%string end)))) &&
  true
  | _ => false end) = true.
Proof. vm_compute. reflexivity. Qed.

(* pkg/modes/messages/df19_test.go:9-25 *)
Example TestReadFormatDF19Valid_modes_messages :
  (match modes_messages.ParseDF19 ({| modes_common.MessageData_DownLinkFormat := 19; modes_common.MessageData_FirstField := 5; modes_common.MessageData_Payload := [0; 0; 0; 0; 0; 0; 0; 0; 0; 0]; modes_common.MessageData_Parity := [0; 0; 0] |}) with Ok msg =>
  ((modes_messages.MessageDF19_ApplicationField msg) =? modes_fields.ApplicationFieldReserved5) &&
  (0 <? (Z.of_nat (String.length (modes_messages.MessageDF19_ToString (msg))))) &&
  true
  | _ => false end) = true.
Proof. vm_compute. reflexivity. Qed.

(* pkg/modes/messages/df20_test.go:9-80 *)
Example TestReadFormatDF20Valid_modes_messages :
  (match modes_messages.ParseDF20 ({| modes_common.MessageData_DownLinkFormat := 20; modes_common.MessageData_FirstField := 5; modes_common.MessageData_Payload := [170; 181; 53; 1; 35; 69; 103; 137; 171; 205]; modes_common.MessageData_Parity := [0; 0; 0] |}) with Ok msg =>
  ((modes_messages.MessageDF20_FlightStatus msg) =? modes_fields.FlightStatusAlertSPIOnTheGround) &&
  ((modes_messages.MessageDF20_DownlinkRequest msg) =? modes_fields.DownlinkRequestELMAvailable6Segments) &&
  ((modes_fields.UtilityMessage_InterrogatorIdentifier (modes_messages.MessageDF20_UtilityMessage msg)) =? 5) &&
  ((modes_fields.UtilityMessage_IdentifierDesignator (modes_messages.MessageDF20_UtilityMessage msg)) =? modes_fields.UtilityMessageIdentifierDesignatorCommB) &&
  ((modes_messages.MessageDF20_Altitude msg) =? 33125) &&
  ((modes_messages.MessageDF20_AltitudeReportMethod msg) =? modes_fields.AltitudeCodeReport25FootIncrements) &&
  ((nth 0 (modes_messages.MessageDF20_MessageCommB msg) 0) =? 1) &&
  ((nth 1 (modes_messages.MessageDF20_MessageCommB msg) 0) =? 35) &&
  ((nth 2 (modes_messages.MessageDF20_MessageCommB msg) 0) =? 69) &&
  ((nth 3 (modes_messages.MessageDF20_MessageCommB msg) 0) =? 103) &&
  ((nth 4 (modes_messages.MessageDF20_MessageCommB msg) 0) =? 137) &&
  ((nth 5 (modes_messages.MessageDF20_MessageCommB msg) 0) =? 171) &&
  ((nth 6 (modes_messages.MessageDF20_MessageCommB msg) 0) =? 205) &&
  (0 <? (Z.of_nat (String.length (match modes_messages.MessageDF20_ToString (msg) with Ok x__ => x__ | _ => ""%string end)))) &&
  true
  | _ => false end) = true.
Proof. vm_compute. reflexivity. Qed.

(* pkg/modes/messages/df21_test.go:9-74 *)
Example TestReadFormatDF21Valid_modes_messages :
  (match modes_messages.ParseDF21 ({| modes_common.MessageData_DownLinkFormat := 21; modes_common.MessageData_FirstField := 5; modes_common.MessageData_Payload := [170; 188; 9; 1; 35; 69; 103; 137; 171; 205]; modes_common.MessageData_Parity := [0; 0; 0] |}) with Ok msg =>
  ((modes_messages.MessageDF21_FlightStatus msg) =? modes_fields.FlightStatusAlertSPIOnTheGround) &&
  ((modes_messages.MessageDF21_DownlinkRequest msg) =? modes_fields.DownlinkRequestELMAvailable6Segments) &&
  ((modes_fields.UtilityMessage_InterrogatorIdentifier (modes_messages.MessageDF21_UtilityMessage msg)) =? 5) &&
  ((modes_fields.UtilityMessage_IdentifierDesignator (modes_messages.MessageDF21_UtilityMessage msg)) =? modes_fields.UtilityMessageIdentifierDesignatorCommB) &&
  (String.eqb (modes_fields.Identity_Identity (modes_messages.MessageDF21_Identity msg)) "1234"%string) &&
  ((nth 0 (modes_messages.MessageDF21_MessageCommB msg) 0) =? 1) &&
  ((nth 1 (modes_messages.MessageDF21_MessageCommB msg) 0) =? 35) &&
  ((nth 2 (modes_messages.MessageDF21_MessageCommB msg) 0) =? 69) &&
  ((nth 3 (modes_messages.MessageDF21_MessageCommB msg) 0) =? 103) &&
  ((nth 4 (modes_messages.MessageDF21_MessageCommB msg) 0) =? 137) &&
  ((nth 5 (modes_messages.MessageDF21_MessageCommB msg) 0) =? 171) &&
  ((nth 6 (modes_messages.MessageDF21_MessageCommB msg) 0) =? 205) &&
  (0 <? (Z.of_nat (String.length (match modes_messages.MessageDF21_ToString (msg) with Ok x__ => x__ | _ => ""%string end)))) &&
  true
  | _ => false end) = true.
Proof. vm_compute. reflexivity. Qed.

(* pkg/modes/messages/df24_test.go:9-69 *)
Example TestReadFormatDF24Valid_modes_messages :
  (match modes_messages.ParseDF24 ({| modes_common.MessageData_DownLinkFormat := 27; modes_common.MessageData_FirstField := 2; modes_common.MessageData_Payload := [255; 0; 170; 1; 35; 69; 103; 137; 171; 205]; modes_common.MessageData_Parity := [0; 0; 0] |}) with Ok msg =>
  ((modes_messages.MessageDF24_ControlELM msg) =? modes_fields.UplinkELMAcknowledgement) &&
  ((modes_messages.MessageDF24_NumberOfDSegment msg) =? 10) &&
  ((nth 0 (modes_messages.MessageDF24_MessageCommD msg) 0) =? 255) &&
  ((nth 1 (modes_messages.MessageDF24_MessageCommD msg) 0) =? 0) &&
  ((nth 2 (modes_messages.MessageDF24_MessageCommD msg) 0) =? 170) &&
  ((nth 3 (modes_messages.MessageDF24_MessageCommD msg) 0) =? 1) &&
  ((nth 4 (modes_messages.MessageDF24_MessageCommD msg) 0) =? 35) &&
  ((nth 5 (modes_messages.MessageDF24_MessageCommD msg) 0) =? 69) &&
  ((nth 6 (modes_messages.MessageDF24_MessageCommD msg) 0) =? 103) &&
  ((nth 7 (modes_messages.MessageDF24_MessageCommD msg) 0) =? 137) &&
  ((nth 8 (modes_messages.MessageDF24_MessageCommD msg) 0) =? 171) &&
  ((nth 9 (modes_messages.MessageDF24_MessageCommD msg) 0) =? 205) &&
  (0 <? (Z.of_nat (String.length (match modes_messages.MessageDF24_ToString (msg) with Ok x__ => x__ | _ => ""%string end)))) &&
  true
  | _ => false end) = true.
Proof. vm_compute. reflexivity. Qed.

(* pkg/modes/messages/df4_test.go:9-52 *)
Example TestReadFormatDF4Valid_modes_messages :
  (match modes_messages.ParseDF4 ({| modes_common.MessageData_DownLinkFormat := 4; modes_common.MessageData_FirstField := 5; modes_common.MessageData_Payload := [170; 181; 53]; modes_common.MessageData_Parity := [0; 0; 0] |}) with Ok msg =>
  ((modes_messages.MessageDF4_FlightStatus msg) =? modes_fields.FlightStatusAlertSPIOnTheGround) &&
  ((modes_messages.MessageDF4_DownlinkRequest msg) =? modes_fields.DownlinkRequestELMAvailable6Segments) &&
  ((modes_fields.UtilityMessage_InterrogatorIdentifier (modes_messages.MessageDF4_UtilityMessage msg)) =? 5) &&
  ((modes_fields.UtilityMessage_IdentifierDesignator (modes_messages.MessageDF4_UtilityMessage msg)) =? modes_fields.UtilityMessageIdentifierDesignatorCommB) &&
  ((modes_messages.MessageDF4_Altitude msg) =? 33125) &&
  ((modes_messages.MessageDF4_AltitudeReportMethod msg) =? modes_fields.AltitudeCodeReport25FootIncrements) &&
  (0 <? (Z.of_nat (String.length (modes_messages.MessageDF4_ToString (msg))))) &&
  true
  | _ => false end) = true.
Proof. vm_compute. reflexivity. Qed.

(* pkg/modes/messages/df5_test.go:9-46 *)
Example TestReadFormatDF5Valid_modes_messages :
  (match modes_messages.ParseDF5 ({| modes_common.MessageData_DownLinkFormat := 5; modes_common.MessageData_FirstField := 5; modes_common.MessageData_Payload := [170; 188; 9]; modes_common.MessageData_Parity := [0; 0; 0] |}) with Ok msg =>
  ((modes_messages.MessageDF5_FlightStatus msg) =? modes_fields.FlightStatusAlertSPIOnTheGround) &&
  ((modes_messages.MessageDF5_DownlinkRequest msg) =? modes_fields.DownlinkRequestELMAvailable6Segments) &&
  ((modes_fields.UtilityMessage_InterrogatorIdentifier (modes_messages.MessageDF5_UtilityMessage msg)) =? 5) &&
  ((modes_fields.UtilityMessage_IdentifierDesignator (modes_messages.MessageDF5_UtilityMessage msg)) =? modes_fields.UtilityMessageIdentifierDesignatorCommB) &&
  (String.eqb (modes_fields.Identity_Identity (modes_messages.MessageDF5_Identity msg)) "1234"%string) &&
  (0 <? (Z.of_nat (String.length (modes_messages.MessageDF5_ToString (msg))))) &&
  true
  | _ => false end) = true.
Proof. vm_compute. reflexivity. Qed.

(* pkg/acas/ra/fields/threat_identity_altitude_test.go:7-21 *)
Example TestAltitudeInvalid_acas_ra_fields :
  (match acas_ra_fields.ReadThreatIdentityAltitude ([0; 0; 0; 0; 0; 0]) with Ok altitude =>
  ((acas_ra_fields.ThreatIdentityAltitude_AltitudeStatus altitude) =? acas_ra_fields.AltitudeInvalid) &&
  true
  | _ => false end) = true.
Proof. vm_compute. reflexivity. Qed.

(* pkg/acas/ra/fields/threat_identity_altitude_test.go:23-52 *)
Example TestAltitudeLow_acas_ra_fields :
  (match acas_ra_fields.ReadThreatIdentityAltitude ([0; 0; 0; 32; 0; 0]) with Ok altitude =>
  ((acas_ra_fields.ThreatIdentityAltitude_AltitudeStatus altitude) =? acas_ra_fields.AltitudeValid) &&
  ((acas_ra_fields.ThreatIdentityAltitude_AltitudeInFeet altitude) =? (-1200)) &&
  true
  | _ => false end) = true.
Proof. vm_compute. reflexivity. Qed.

(* pkg/acas/ra/fields/threat_identity_altitude_test.go:54-89 *)
Example TestAltitudeZero_acas_ra_fields :
  (match acas_ra_fields.ReadThreatIdentityAltitude ([0; 0; 0; 129; 64; 0]) with Ok altitude =>
  ((acas_ra_fields.ThreatIdentityAltitude_AltitudeStatus altitude) =? acas_ra_fields.AltitudeValid) &&
  ((acas_ra_fields.ThreatIdentityAltitude_AltitudeInFeet altitude) =? 0) &&
  true
  | _ => false end) = true.
Proof. vm_compute. reflexivity. Qed.

(* pkg/acas/ra/fields/threat_identity_altitude_test.go:91-122 *)
Example TestAltitudeHigh_acas_ra_fields :
  (match acas_ra_fields.ReadThreatIdentityAltitude ([0; 0; 0; 32; 128; 0]) with Ok altitude =>
  ((acas_ra_fields.ThreatIdentityAltitude_AltitudeStatus altitude) =? acas_ra_fields.AltitudeValid) &&
  ((acas_ra_fields.ThreatIdentityAltitude_AltitudeInFeet altitude) =? 126700) &&
  true
  | _ => false end) = true.
Proof. vm_compute. reflexivity. Qed.

(* pkg/acas/ra/resolution_advisory_test.go:8-93 *)
Example TestReadResolutionAdvisoryMultipleThreatSameSeparationValid_acas_ra :
  (match acas_ra.ReadResolutionAdvisory ([254; 3; 245; 105; 165; 244]) with Ok msg =>
  ((acas_ra_fields.IActiveResolutionAdvisory_GetType ((acas_ra.ResolutionAdvisory_ActiveRA msg))) =? acas_ra_fields.OneThreatOrSameSeparation) &&
  match (acas_ra.ResolutionAdvisory_ActiveRA msg) with acas_ra_fields.IActiveResolutionAdvisory_ActiveRAOneThreatOrSameSeparation resolutionAdvisory =>
  ((acas_ra_fields.ActiveRAOneThreatOrSameSeparation_PreventiveCorrective resolutionAdvisory) =? acas_ra_fields.ActiveRACorrective) &&
  ((acas_ra_fields.ActiveRAOneThreatOrSameSeparation_Sense resolutionAdvisory) =? acas_ra_fields.ActiveRASenseDownward) &&
  (Bool.eqb (acas_ra_fields.ActiveRAOneThreatOrSameSeparation_IsIncreasedRate resolutionAdvisory) true) &&
  (Bool.eqb (acas_ra_fields.ActiveRAOneThreatOrSameSeparation_IsSenseReversal resolutionAdvisory) true) &&
  (Bool.eqb (acas_ra_fields.ActiveRAOneThreatOrSameSeparation_IsAltitudeCrossing resolutionAdvisory) true) &&
  ((acas_ra_fields.ActiveRAOneThreatOrSameSeparation_VerticalSpeedLimitOrPositive resolutionAdvisory) =? acas_ra_fields.ActiveRAPositive) &&
  (Bool.eqb (acas_ra_fields.RAComplement_DoNotPassBelow (acas_ra.ResolutionAdvisory_RAComplement msg)) true) &&
  (Bool.eqb (acas_ra_fields.RAComplement_DoNotPassAbove (acas_ra.ResolutionAdvisory_RAComplement msg)) true) &&
  (Bool.eqb (acas_ra_fields.RAComplement_DoNotTurnLeft (acas_ra.ResolutionAdvisory_RAComplement msg)) true) &&
  (Bool.eqb (acas_ra_fields.RAComplement_DoNotTurnRight (acas_ra.ResolutionAdvisory_RAComplement msg)) true) &&
  ((acas_ra.ResolutionAdvisory_MultipleThreatEncounter msg) =? acas_ra_fields.MTETwoOrMore) &&
  ((acas_ra.ResolutionAdvisory_ThreatTypeIndicator msg) =? acas_ra_fields.ThreatTypeModeS) &&
  (negb (match (acas_ra.ResolutionAdvisory_ThreatIdentityAddress msg) with None => true | Some _ => false end)) && (((match (acas_ra.ResolutionAdvisory_ThreatIdentityAddress msg) with Some x__ => x__ | None => 0 end) =? 5925245) &&
  true) &&
  (0 <? (Z.of_nat (String.length (match acas_ra.ResolutionAdvisory_ToString (fun _ => ""%string) (msg) with Ok x__ => x__ | _ => ""%string end)))) &&
  true
  | _ => false end
  | _ => false end) = true.
Proof. vm_compute. reflexivity. Qed.

(* pkg/acas/ra/resolution_advisory_test.go:147-240 *)
Example TestReadResolutionAdvisoryMultipleThreatDifferentSeparationValid_acas_ra :
  (match acas_ra.ReadResolutionAdvisory ([126; 1; 120; 129; 85; 170]) with Ok msg =>
  ((acas_ra_fields.IActiveResolutionAdvisory_GetType ((acas_ra.ResolutionAdvisory_ActiveRA msg))) =? acas_ra_fields.MultipleThreatDifferentSeparation) &&
  match (acas_ra.ResolutionAdvisory_ActiveRA msg) with acas_ra_fields.IActiveResolutionAdvisory_ActiveRAMultipleThreatsDifferentSeparation resolutionAdvisory =>
  (Bool.eqb (acas_ra_fields.ActiveRAMultipleThreatsDifferentSeparation_RequiresCorrectionUpwardSense resolutionAdvisory) true) &&
  (Bool.eqb (acas_ra_fields.ActiveRAMultipleThreatsDifferentSeparation_RequiresPositiveClimb resolutionAdvisory) true) &&
  (Bool.eqb (acas_ra_fields.ActiveRAMultipleThreatsDifferentSeparation_RequiresCorrectionDownwardSense resolutionAdvisory) true) &&
  (Bool.eqb (acas_ra_fields.ActiveRAMultipleThreatsDifferentSeparation_RequiresPositiveDescend resolutionAdvisory) true) &&
  (Bool.eqb (acas_ra_fields.ActiveRAMultipleThreatsDifferentSeparation_RequiresCrossing resolutionAdvisory) true) &&
  (Bool.eqb (acas_ra_fields.ActiveRAMultipleThreatsDifferentSeparation_IsSenseReversal resolutionAdvisory) true) &&
  (Bool.eqb (acas_ra_fields.RAComplement_DoNotPassBelow (acas_ra.ResolutionAdvisory_RAComplement msg)) false) &&
  (Bool.eqb (acas_ra_fields.RAComplement_DoNotPassAbove (acas_ra.ResolutionAdvisory_RAComplement msg)) true) &&
  (Bool.eqb (acas_ra_fields.RAComplement_DoNotTurnLeft (acas_ra.ResolutionAdvisory_RAComplement msg)) false) &&
  (Bool.eqb (acas_ra_fields.RAComplement_DoNotTurnRight (acas_ra.ResolutionAdvisory_RAComplement msg)) true) &&
  ((acas_ra.ResolutionAdvisory_MultipleThreatEncounter msg) =? acas_ra_fields.MTETwoOrMore) &&
  ((acas_ra.ResolutionAdvisory_ThreatTypeIndicator msg) =? acas_ra_fields.ThreatTypeAltitudeRangeBearing) &&
  (negb (match (acas_ra.ResolutionAdvisory_ThreatIdentityAltitude msg) with None => true | Some _ => false end)) && (((acas_ra_fields.ThreatIdentityAltitude_AltitudeInFeet (match (acas_ra.ResolutionAdvisory_ThreatIdentityAltitude msg) with Some x__ => x__ | None => (acas_ra_fields.mkThreatIdentityAltitude 0 0) end)) =? 0) &&
  true) &&
  (negb (match (acas_ra.ResolutionAdvisory_ThreatIdentityRange msg) with None => true | Some _ => false end)) && ((SFeqb (acas_ra_fields.ThreatIdentityRange_GetRange ((match (acas_ra.ResolutionAdvisory_ThreatIdentityRange msg) with Some x__ => x__ | None => 0 end))) (f64_lit 17 2)) &&
  true) &&
  (negb (match (acas_ra.ResolutionAdvisory_ThreatIdentityBearing msg) with None => true | Some _ => false end)) && (((acas_ra_fields.ThreatIdentityBearing_GetBearing ((match (acas_ra.ResolutionAdvisory_ThreatIdentityBearing msg) with Some x__ => x__ | None => 0 end))) =? 249) &&
  true) &&
  (0 <? (Z.of_nat (String.length (match acas_ra.ResolutionAdvisory_ToString (fun _ => ""%string) (msg) with Ok x__ => x__ | _ => ""%string end)))) &&
  true
  | _ => false end
  | _ => false end) = true.
Proof. vm_compute. reflexivity. Qed.

(* pkg/bds/bds00/no_message_available_test.go:9-24 *)
Example TestReadNoMessageAvailableValid_bds00 :
  (match bds00.ReadNoMessageAvailable ([0; 0; 0; 0; 0; 0; 0]) with Ok message =>
  (String.eqb (bds_register.Register_id (bds00.NoMessageAvailable_GetRegister (message))) (bds_register.Register_id bds_register.BDS00)) &&
  (match bds00.NoMessageAvailable_CheckCoherency (message) with Ok _ => true | _ => false end) &&
  true
  | _ => false end) = true.
Proof. vm_compute. reflexivity. Qed.

(* pkg/bds/bds00/no_message_available_test.go:26-38 *)
Example TestReadNoMessageAvailableErroneous_bds00 :
  ((match bds00.ReadNoMessageAvailable ([0; 0; 0; 0; 0; 0]) with Err _ => true | _ => false end) &&
  (match bds00.ReadNoMessageAvailable ([0; 0; 0; 0; 0; 0; 1]) with Err _ => true | _ => false end) &&
  true) = true.
Proof. vm_compute. reflexivity. Qed.

(* pkg/bds/bds05/airborne_position_test.go:11-38 *)
Example TestReadAirbornePositionAltitudeBaro25FeetIncrement_bds05 :
  (match bds05.ReadAirbornePosition ([88; 195; 130; 214; 144; 200; 172]) with Ok message =>
  (String.eqb (bds_register.Register_id (bds05.AirbornePosition_GetRegister (message))) (bds_register.Register_id bds_register.BDS05)) &&
  (match bds05.AirbornePosition_CheckCoherency (message) with Ok _ => true | _ => false end) &&
  ((bds05.AirbornePosition_AltitudeSource message) =? bds05_fields.AltitudeBarometric) &&
  ((bds05.AirbornePosition_AltitudeReportMethod message) =? bds05_fields.AltitudeReport25FootIncrements) &&
  ((bds05.AirbornePosition_AltitudeInFeet message) =? 38000) &&
  true
  | _ => false end) = true.
Proof. vm_compute. reflexivity. Qed.

(* pkg/bds/bds05/airborne_position_test.go:40-67 *)
Example TestReadAirbornePositionAltitudeGNSS25FeetIncrement_bds05 :
  (match bds05.ReadAirbornePosition ([88; 201; 1; 55; 81; 71; 239]) with Ok message =>
  (String.eqb (bds_register.Register_id (bds05.AirbornePosition_GetRegister (message))) (bds_register.Register_id bds_register.BDS05)) &&
  (match bds05.AirbornePosition_CheckCoherency (message) with Ok _ => true | _ => false end) &&
  ((bds05.AirbornePosition_AltitudeSource message) =? bds05_fields.AltitudeBarometric) &&
  ((bds05.AirbornePosition_AltitudeReportMethod message) =? bds05_fields.AltitudeReport25FootIncrements) &&
  ((bds05.AirbornePosition_AltitudeInFeet message) =? 39000) &&
  true
  | _ => false end) = true.
Proof. vm_compute. reflexivity. Qed.

(* pkg/bds/bds06/surface_position_test.go:10-41 *)
Example TestReadSurfacePosition_bds06 :
  (match bds06.ReadSurfacePosition ([58; 154; 21; 50; 55; 174; 240]) with Ok message =>
  (String.eqb (bds_register.Register_id (bds06.SurfacePosition_GetRegister (message))) (bds_register.Register_id bds_register.BDS06)) &&
  (match bds06.SurfacePosition_CheckCoherency (message) with Ok _ => true | _ => false end) &&
  ((bds06.SurfacePosition_MovementStatus message) =? 41) &&
  (SFeqb (bds06.SurfacePosition_MovementSpeed message) (f32_lit 17 1)) &&
  (Bool.eqb (bds06.SurfacePosition_GroundTrackStatus message) true) &&
  ((negb (SFltb (bds06.SurfacePosition_GroundTrack message) (f32_lit 927 10))) && (negb (SFltb (f32_lit 929 10) (bds06.SurfacePosition_GroundTrack message)))) &&
  true
  | _ => false end) = true.
Proof. vm_compute. reflexivity. Qed.

(* pkg/bds/bds08/aircraft_identification_and_category_test.go:11-34 *)
Example TestReadAircraftIdentificationAndCategoryValid_bds08 :
  (match bds08.ReadAircraftIdentificationAndCategory ([17; 80; 134; 115; 225; 152; 32]) with Ok message =>
  (String.eqb (bds_register.Register_id (bds08.AircraftIdentificationAndCategory_GetRegister (message))) (bds_register.Register_id bds_register.BDS08)) &&
  (match bds08.AircraftIdentificationAndCategory_CheckCoherency (message) with Ok _ => true | _ => false end) &&
  (match (bds08.AircraftIdentificationAndCategory_Category message) with bds08_fields.IAircraftCategory_AircraftCategorySetC x__ => x__ =? bds08_fields.ACSCSurfaceEmergency | _ => false end) &&
  (String.eqb (bds08.AircraftIdentificationAndCategory_Identification message) "THY38Y  "%string) &&
  true
  | _ => false end) = true.
Proof. vm_compute. reflexivity. Qed.

(* pkg/bds/bds08/aircraft_identification_and_category_test.go:36-51 *)
Example TestReadAircraftIdentificationAndCategoryIncoherent_bds08 :
  (match bds08.ReadAircraftIdentificationAndCategory ([17; 80; 134; 115; 225; 152; 47]) with Ok message =>
  (negb (match bds08.AircraftIdentificationAndCategory_CheckCoherency (message) with Ok _ => true | _ => false end)) &&
  (String.eqb (bds08.AircraftIdentificationAndCategory_Identification message) "THY38Y #"%string) &&
  true
  | _ => false end) = true.
Proof. vm_compute. reflexivity. Qed.

(* pkg/bds/bds08/aircraft_identification_and_category_test.go:53-65 *)
Example TestReadAircraftIdentificationAndCategoryErroneous_bds08 :
  ((match bds08.ReadAircraftIdentificationAndCategory ([17; 80; 134; 115; 225; 152]) with Err _ => true | _ => false end) &&
  (match bds08.ReadAircraftIdentificationAndCategory ([240; 80; 134; 115; 225; 152; 32]) with Err _ => true | _ => false end) &&
  true) = true.
Proof. vm_compute. reflexivity. Qed.

(* pkg/bds/bds09/airborne_velocity_air_speed_normal_test.go:10-46 *)
Example TestReadAirborneVelocityAirSpeedNormalValid_bds09 :
  (match bds09.ReadAirborneVelocityAirSpeedNormal ([155; 6; 182; 175; 24; 148; 0]) with Ok message =>
  (String.eqb (bds_register.Register_id (bds09.AirborneVelocityAirSpeedNormal_GetRegister (message))) (bds_register.Register_id bds_register.BDS09)) &&
  (match bds09.AirborneVelocityAirSpeedNormal_CheckCoherency (message) with Ok _ => true | _ => false end) &&
  ((bds09.AirborneVelocityAirSpeedNormal_AirspeedStatus message) =? bds09_fields.NVSRegular) &&
  ((bds09.AirborneVelocityAirSpeedNormal_Airspeed message) =? 375) &&
  ((bds09.AirborneVelocityAirSpeedNormal_MagneticHeadingStatus message) =? bds09_fields.MHSAvailable) &&
  ((negb (SFltb (bds09.AirborneVelocityAirSpeedNormal_MagneticHeading message) (f32_lit 243 1))) && (negb (SFltb (f32_lit 244 1) (bds09.AirborneVelocityAirSpeedNormal_MagneticHeading message)))) &&
  ((bds09.AirborneVelocityAirSpeedNormal_VerticalRate message) =? (-2304)) &&
  true
  | _ => false end) = true.
Proof. vm_compute. reflexivity. Qed.

(* pkg/bds/bds09/airborne_velocity_ground_speed_normal_test.go:11-79 *)
Example TestReadAirborneVelocityGroundSpeedNormalValid_bds09 :
  (match bds09.ReadAirborneVelocityGroundSpeedNormal ([153; 68; 9; 148; 8; 56; 23]) with Ok message =>
  (String.eqb (bds_register.Register_id (bds09.AirborneVelocityGroundSpeedNormal_GetRegister (message))) (bds_register.Register_id bds_register.BDS09)) &&
  (match bds09.AirborneVelocityGroundSpeedNormal_CheckCoherency (message) with Ok _ => true | _ => false end) &&
  ((bds09.AirborneVelocityGroundSpeedNormal_DirectionEastWest message) =? bds09_fields.DEWWest) &&
  ((bds09.AirborneVelocityGroundSpeedNormal_VelocityEW message) =? 8) &&
  ((bds09.AirborneVelocityGroundSpeedNormal_DirectionNorthSouth message) =? bds09_fields.DNSSouth) &&
  ((bds09.AirborneVelocityGroundSpeedNormal_VelocityNS message) =? 159) &&
  ((bds09.AirborneVelocityGroundSpeedNormal_VerticalRateStatus message) =? bds09_fields.NVSRegular) &&
  ((bds09.AirborneVelocityGroundSpeedNormal_VerticalRate message) =? (-832)) &&
  ((bds09.AirborneVelocityGroundSpeedNormal_DifferenceAltitudeGNSSBaroStatus message) =? bds09_fields.NVSRegular) &&
  ((bds09.AirborneVelocityGroundSpeedNormal_DifferenceAltitudeGNSSBaro message) =? 550) &&
  match bds09.AirborneVelocityGroundSpeedNormal_GetSpeed (message) with Ok speed =>
  (speed =? 159) &&
  match bds09.AirborneVelocityGroundSpeedNormal_GetTrack (fun _ _ => f64_lit (-309132) 100000) (message) with Ok track =>
  ((negb (SFltb track (f32_lit 182 1))) && (negb (SFltb (f32_lit 183 1) track))) &&
  true
  | _ => false end
  | _ => false end
  | _ => false end) = true.
Proof. vm_compute. reflexivity. Qed.

(* pkg/bds/bds09/airborne_velocity_test.go:11-30 *)
Example TestReadAirborneVelocityValid1_bds09 :
  (match bds09.ReadAirborneVelocity ([153; 68; 9; 148; 8; 56; 23]) with Ok message =>
  (String.eqb (bds_register.Register_id (bds09.IAirborneVelocity_GetRegister (message))) (bds_register.Register_id bds_register.BDS09)) &&
  (match bds09.IAirborneVelocity_CheckCoherency (message) with Ok _ => true | _ => false end) &&
  ((bds09.IAirborneVelocity_GetSubtype (message)) =? bds09_fields.SubtypeGroundSpeedNormal) &&
  true
  | _ => false end) = true.
Proof. vm_compute. reflexivity. Qed.

(* pkg/bds/bds09/airborne_velocity_test.go:32-51 *)
Example TestReadAirborneVelocityValid2_bds09 :
  (match bds09.ReadAirborneVelocity ([155; 6; 182; 175; 24; 148; 0]) with Ok message =>
  (String.eqb (bds_register.Register_id (bds09.IAirborneVelocity_GetRegister (message))) (bds_register.Register_id bds_register.BDS09)) &&
  (match bds09.IAirborneVelocity_CheckCoherency (message) with Ok _ => true | _ => false end) &&
  ((bds09.IAirborneVelocity_GetSubtype (message)) =? bds09_fields.SubtypeAirspeedNormal) &&
  true
  | _ => false end) = true.
Proof. vm_compute. reflexivity. Qed.

(* pkg/bds/bds20/aircraft_identification_test.go:9-28 *)
Example TestReadAircraftIdentificationValid_bds20 :
  (match bds20.ReadAircraftIdentification ([32; 80; 134; 115; 225; 152; 32]) with Ok message =>
  (String.eqb (bds_register.Register_id (bds20.AircraftIdentification_GetRegister (message))) (bds_register.Register_id bds_register.BDS20)) &&
  (match bds20.AircraftIdentification_CheckCoherency (message) with Ok _ => true | _ => false end) &&
  (String.eqb (bds20.AircraftIdentification_Identification message) "THY38Y  "%string) &&
  true
  | _ => false end) = true.
Proof. vm_compute. reflexivity. Qed.

(* pkg/bds/bds20/aircraft_identification_test.go:30-45 *)
Example TestReadAircraftIdentificationIncoherent_bds20 :
  (match bds20.ReadAircraftIdentification ([32; 80; 134; 115; 225; 152; 47]) with Ok message =>
  (negb (match bds20.AircraftIdentification_CheckCoherency (message) with Ok _ => true | _ => false end)) &&
  (String.eqb (bds20.AircraftIdentification_Identification message) "THY38Y #"%string) &&
  true
  | _ => false end) = true.
Proof. vm_compute. reflexivity. Qed.

(* pkg/bds/bds20/aircraft_identification_test.go:47-59 *)
Example TestReadAircraftIdentificationErroneous_bds20 :
  ((match bds20.ReadAircraftIdentification ([32; 80; 134; 115; 225; 152]) with Err _ => true | _ => false end) &&
  (match bds20.ReadAircraftIdentification ([48; 80; 134; 115; 225; 152; 32]) with Err _ => true | _ => false end) &&
  true) = true.
Proof. vm_compute. reflexivity. Qed.

(* pkg/bds/bds40/selected_vertical_intention_test.go:11-74 *)
Example TestReadSelectedVerticalIntentionValid_bds40 :
  (match bds40.ReadSelectedVerticalIntention ([133; 228; 47; 49; 48; 1; 231]) with Ok message =>
  (String.eqb (bds_register.Register_id (bds40.SelectedVerticalIntention_GetRegister (message))) (bds_register.Register_id bds_register.BDS40)) &&
  (match bds40.SelectedVerticalIntention_CheckCoherency (message) with Ok _ => true | _ => false end) &&
  (Bool.eqb (bds40.SelectedVerticalIntention_FMSSelectedAltitudeAvailable message) true) &&
  ((bds40.SelectedVerticalIntention_FMSSelectedAltitude message) =? 3008) &&
  (Bool.eqb (bds40.SelectedVerticalIntention_MCPFCUSelectedAltitudeAvailable message) true) &&
  ((bds40.SelectedVerticalIntention_MCPFCUSelectedAltitude message) =? 3008) &&
  (Bool.eqb (bds40.SelectedVerticalIntention_BarometricPressureSettingAvailable message) true) &&
  (SFeqb (bds40.SelectedVerticalIntention_BarometricPressureSetting message) (f32_lit 1020 1)) &&
  ((bds40.SelectedVerticalIntention_StatusOfModeBits message) =? bds40_fields.SMBInformationProvided) &&
  (Bool.eqb (bds40.SelectedVerticalIntention_VNAVMode message) true) &&
  (Bool.eqb (bds40.SelectedVerticalIntention_AltitudeHoldMode message) true) &&
  (Bool.eqb (bds40.SelectedVerticalIntention_ApproachMode message) true) &&
  ((bds40.SelectedVerticalIntention_StatusOfTargetAltitudeSource message) =? bds40_fields.STASInformationProvided) &&
  ((bds40.SelectedVerticalIntention_TargetAltitudeSource message) =? bds40_fields.TASFMSSelectedAltitude) &&
  true
  | _ => false end) = true.
Proof. vm_compute. reflexivity. Qed.

(* pkg/bds/bds40/selected_vertical_intention_test.go:76-86 *)
Example TestReadSelectedVerticalIntentionIncoherent_bds40 :
  (match bds40.ReadSelectedVerticalIntention ([0; 0; 0; 0; 0; 0; 0]) with Ok messageAllStatusFalse =>
  (negb (match bds40.SelectedVerticalIntention_CheckCoherency (messageAllStatusFalse) with Ok _ => true | _ => false end)) &&
  true
  | _ => false end) = true.
Proof. vm_compute. reflexivity. Qed.

(* pkg/bds/bds40/selected_vertical_intention_test.go:88-115 *)
Example TestReadSelectedVerticalIntentionErroneous_bds40 :
  ((match bds40.ReadSelectedVerticalIntention ([133; 228; 47; 49; 48]) with Err _ => true | _ => false end) &&
  (match bds40.ReadSelectedVerticalIntention ([133; 228; 47; 49; 49; 0; 0]) with Err _ => true | _ => false end) &&
  (match bds40.ReadSelectedVerticalIntention ([133; 228; 47; 49; 48; 128; 0]) with Err _ => true | _ => false end) &&
  (match bds40.ReadSelectedVerticalIntention ([133; 228; 47; 49; 48; 0; 16]) with Err _ => true | _ => false end) &&
  true) = true.
Proof. vm_compute. reflexivity. Qed.

(* pkg/bds/bds44/meteorological_routine_air_report_test.go:11-32 *)
Example TestReadMeteorologicalRoutineAirReportValid_bds44 :
  (match bds44.ReadMeteorologicalRoutineAirReport ([24; 187; 169; 205; 192; 0; 0]) with Ok message =>
  (String.eqb (bds_register.Register_id (bds44.IMeteorologicalRoutineAirReport_GetRegister (message))) (bds_register.Register_id bds_register.BDS44)) &&
  (match bds44.IMeteorologicalRoutineAirReport_CheckCoherency (message) with Ok _ => true | _ => false end) &&
  ((bds44.IMeteorologicalRoutineAirReport_GetSource (message)) =? bds44_fields.SourceInvalid) &&
  true
  | _ => false end) = true.
Proof. vm_compute. reflexivity. Qed.

(* pkg/bds/bds44/meteorological_routine_air_report_v1_test.go:10-26 *)
Example TestReadMeteorologicalRoutineAirReportV1Valid_bds44 :
  (match bds44.ReadMeteorologicalRoutineAirReportV1 ([8; 187; 169; 205; 192; 0; 0]) with Ok message =>
  (String.eqb (bds_register.Register_id (bds44.MeteorologicalRoutineAirReportV1_GetRegister (message))) (bds_register.Register_id bds_register.BDS44)) &&
  (match bds44.MeteorologicalRoutineAirReportV1_CheckCoherency (message) with Ok _ => true | _ => false end) &&
  true
  | _ => false end) = true.
Proof. vm_compute. reflexivity. Qed.

(* pkg/bds/bds44/meteorological_routine_air_report_v2_test.go:11-54 *)
Example TestReadMeteorologicalRoutineAirReportV2Valid_bds44 :
  (match bds44.ReadMeteorologicalRoutineAirReportV2 ([24; 187; 169; 205; 192; 0; 0]) with Ok message =>
  (String.eqb (bds_register.Register_id (bds44.MeteorologicalRoutineAirReportV2_GetRegister (message))) (bds_register.Register_id bds_register.BDS44)) &&
  (match bds44.MeteorologicalRoutineAirReportV2_CheckCoherency (message) with Ok _ => true | _ => false end) &&
  ((bds44.MeteorologicalRoutineAirReportV2_Source message) =? bds44_fields.SourceINS) &&
  (Bool.eqb (bds44.MeteorologicalRoutineAirReportV2_WindSpeedStatus message) true) &&
  ((bds44.MeteorologicalRoutineAirReportV2_WindSpeed message) =? 46) &&
  (Bool.eqb (bds44.MeteorologicalRoutineAirReportV2_WindDirectionStatus message) true) &&
  ((negb (SFltb (bds44.MeteorologicalRoutineAirReportV2_WindDirection message) (f32_lit 298 1))) && (negb (SFltb (f32_lit 597 2) (bds44.MeteorologicalRoutineAirReportV2_WindDirection message)))) &&
  (Bool.eqb (bds44.MeteorologicalRoutineAirReportV2_StaticAirTemperatureStatus message) true) &&
  ((negb (SFltb (bds44.MeteorologicalRoutineAirReportV2_StaticAirTemperature message) (f32_lit (-101) 2))) && (negb (SFltb (f32_lit (-50) 1) (bds44.MeteorologicalRoutineAirReportV2_StaticAirTemperature message)))) &&
  true
  | _ => false end) = true.
Proof. vm_compute. reflexivity. Qed.

(* pkg/bds/bds45/meteorological_hazard_report_v1_test.go:10-89 *)
Example TestReadMeteorologicalRoutineAirReportV2Valid_bds45 :
  (match bds45.ReadMeteorologicalHazardReportV1 ([242; 228; 236; 182; 253; 60; 156]) with Ok message =>
  (String.eqb (bds_register.Register_id (bds45.MeteorologicalHazardReportV1_GetRegister (message))) (bds_register.Register_id bds_register.BDS45)) &&
  (match bds45.MeteorologicalHazardReportV1_CheckCoherency (message) with Ok _ => true | _ => false end) &&
  (Bool.eqb (bds45.MeteorologicalHazardReportV1_WindShearStatus message) true) &&
  ((bds45.MeteorologicalHazardReportV1_WindShear message) =? bds45_fields.HLSevere) &&
  (Bool.eqb (bds45.MeteorologicalHazardReportV1_MicroBurstStatus message) true) &&
  ((bds45.MeteorologicalHazardReportV1_MicroBurst message) =? bds45_fields.HLNil) &&
  (Bool.eqb (bds45.MeteorologicalHazardReportV1_IcingStatus message) true) &&
  ((bds45.MeteorologicalHazardReportV1_Icing message) =? bds45_fields.HLLight) &&
  (Bool.eqb (bds45.MeteorologicalHazardReportV1_WakeVortexStatus message) true) &&
  ((bds45.MeteorologicalHazardReportV1_WakeVortex message) =? bds45_fields.HLModerate) &&
  (Bool.eqb (bds45.MeteorologicalHazardReportV1_StaticAirTemperatureStatus message) false) &&
  (SFeqb (bds45.MeteorologicalHazardReportV1_StaticAirTemperature message) (f32_lit (-197) 2)) &&
  (Bool.eqb (bds45.MeteorologicalHazardReportV1_RadioHeightStatus message) true) &&
  ((bds45.MeteorologicalHazardReportV1_RadioHeight message) =? 3518) &&
  (Bool.eqb (bds45.MeteorologicalHazardReportV1_TurbulenceStatus message) true) &&
  (SFeqb (bds45.MeteorologicalHazardReportV1_TurbulenceAverageEDR message) (f32_lit 19 50)) &&
  (SFeqb (bds45.MeteorologicalHazardReportV1_TurbulencePeakEDR message) (f32_lit 1 1)) &&
  ((bds45.MeteorologicalHazardReportV1_TurbulencePeakDelayInterval message) =? 7) &&
  true
  | _ => false end) = true.
Proof. vm_compute. reflexivity. Qed.

(* pkg/bds/bds50/track_and_turn_report_test.go:10-65 *)
Example TestReadTrackAndTurnReportValid_bds50 :
  (match bds50.ReadTrackAndTurnReport ([129; 149; 21; 54; 224; 36; 212]) with Ok message =>
  (String.eqb (bds_register.Register_id (bds50.TrackAndTurnReport_GetRegister (message))) (bds_register.Register_id bds_register.BDS50)) &&
  (match bds50.TrackAndTurnReport_CheckCoherency (message) with Ok _ => true | _ => false end) &&
  (Bool.eqb (bds50.TrackAndTurnReport_RollAngleStatus message) true) &&
  ((negb (SFltb (bds50.TrackAndTurnReport_RollAngle message) (f32_lit 41 20))) && (negb (SFltb (f32_lit 43 20) (bds50.TrackAndTurnReport_RollAngle message)))) &&
  (Bool.eqb (bds50.TrackAndTurnReport_TrueTrackAngleStatus message) true) &&
  ((negb (SFltb (bds50.TrackAndTurnReport_TrueTrackAngle message) (f32_lit 571 5))) && (negb (SFltb (f32_lit 1143 10) (bds50.TrackAndTurnReport_TrueTrackAngle message)))) &&
  (Bool.eqb (bds50.TrackAndTurnReport_GroundSpeedStatus message) true) &&
  ((bds50.TrackAndTurnReport_GroundSpeed message) =? 438) &&
  (Bool.eqb (bds50.TrackAndTurnReport_TrackAngleRateStatus message) true) &&
  ((negb (SFltb (bds50.TrackAndTurnReport_TrackAngleRate message) (f32_lit 1 10))) && (negb (SFltb (f32_lit 1 5) (bds50.TrackAndTurnReport_TrackAngleRate message)))) &&
  (Bool.eqb (bds50.TrackAndTurnReport_TrueAirSpeedStatus message) true) &&
  ((bds50.TrackAndTurnReport_TrueAirSpeed message) =? 424) &&
  true
  | _ => false end) = true.
Proof. vm_compute. reflexivity. Qed.

(* pkg/bds/bds50/track_and_turn_report_test.go:67-90 *)
Example TestReadTrackAndTurnReportValid2_bds50 :
  (match bds50.ReadTrackAndTurnReport ([255; 210; 99; 55; 127; 252; 224]) with Ok message =>
  (String.eqb (bds_register.Register_id (bds50.TrackAndTurnReport_GetRegister (message))) (bds_register.Register_id bds_register.BDS50)) &&
  (match bds50.TrackAndTurnReport_CheckCoherency (message) with Ok _ => true | _ => false end) &&
  (Bool.eqb (bds50.TrackAndTurnReport_RollAngleStatus message) true) &&
  ((negb (SFltb (bds50.TrackAndTurnReport_RollAngle message) (f32_lit (-9) 25))) && (negb (SFltb (f32_lit (-7) 20) (bds50.TrackAndTurnReport_RollAngle message)))) &&
  true
  | _ => false end) = true.
Proof. vm_compute. reflexivity. Qed.

(* pkg/bds/bds50/track_and_turn_report_test.go:92-145 *)
Example TestReadTrackAndTurnReportIncoherent_bds50 :
  (match bds50.ReadTrackAndTurnReport ([0; 0; 0; 0; 0; 0; 0]) with Ok messageAllStatusFalse =>
  (negb (match bds50.TrackAndTurnReport_CheckCoherency (messageAllStatusFalse) with Ok _ => true | _ => false end)) &&
  match bds50.ReadTrackAndTurnReport ([191; 149; 21; 54; 224; 36; 212]) with Ok messageRollAngleTooHigh =>
  (negb (match bds50.TrackAndTurnReport_CheckCoherency (messageRollAngleTooHigh) with Ok _ => true | _ => false end)) &&
  match bds50.ReadTrackAndTurnReport ([129; 149; 21; 246; 224; 36; 212]) with Ok messageGroundSpeedTooHigh =>
  (negb (match bds50.TrackAndTurnReport_CheckCoherency (messageGroundSpeedTooHigh) with Ok _ => true | _ => false end)) &&
  match bds50.ReadTrackAndTurnReport ([129; 149; 21; 54; 224; 39; 212]) with Ok messageAirSpeedTooHigh =>
  (negb (match bds50.TrackAndTurnReport_CheckCoherency (messageAirSpeedTooHigh) with Ok _ => true | _ => false end)) &&
  match bds50.ReadTrackAndTurnReport ([129; 149; 21; 54; 224; 36; 0]) with Ok messageDifferenceTooHigh =>
  (negb (match bds50.TrackAndTurnReport_CheckCoherency (messageDifferenceTooHigh) with Ok _ => true | _ => false end)) &&
  true
  | _ => false end
  | _ => false end
  | _ => false end
  | _ => false end
  | _ => false end) = true.
Proof. vm_compute. reflexivity. Qed.

(* pkg/bds/bds50/track_and_turn_report_test.go:147-153 *)
Example TestReadTrackAndTurnReportErroneous_bds50 :
  ((match bds50.ReadTrackAndTurnReport ([133; 228; 47; 49; 48]) with Err _ => true | _ => false end) &&
  true) = true.
Proof. vm_compute. reflexivity. Qed.

(* pkg/bds/bds60/heading_and_speed_report_test.go:9-64 *)
Example TestReadHeadingAndSpeedReportValid_bds60 :
  (match bds60.ReadHeadingAndSpeedReport ([143; 57; 249; 26; 126; 39; 196]) with Ok message =>
  (String.eqb (bds_register.Register_id (bds60.HeadingAndTrackReport_GetRegister (message))) (bds_register.Register_id bds_register.BDS60)) &&
  (match bds60.HeadingAndTrackReport_CheckCoherency (message) with Ok _ => true | _ => false end) &&
  (Bool.eqb (bds60.HeadingAndTrackReport_MagneticHeadingStatus message) true) &&
  ((negb (SFltb (bds60.HeadingAndTrackReport_MagneticHeading message) (f32_lit 427 10))) && (negb (SFltb (f32_lit 214 5) (bds60.HeadingAndTrackReport_MagneticHeading message)))) &&
  (Bool.eqb (bds60.HeadingAndTrackReport_IndicatedAirSpeedStatus message) true) &&
  ((bds60.HeadingAndTrackReport_IndicatedAirSpeed message) =? 252) &&
  (Bool.eqb (bds60.HeadingAndTrackReport_MachStatus message) true) &&
  ((negb (SFltb (bds60.HeadingAndTrackReport_Mach message) (f32_lit 41 100))) && (negb (SFltb (f32_lit 43 100) (bds60.HeadingAndTrackReport_Mach message)))) &&
  (Bool.eqb (bds60.HeadingAndTrackReport_BarometricAltitudeRateStatus message) true) &&
  ((bds60.HeadingAndTrackReport_BarometricAltitudeRate message) =? (-1920)) &&
  (Bool.eqb (bds60.HeadingAndTrackReport_InitialVerticalVelocityStatus message) true) &&
  ((bds60.HeadingAndTrackReport_InitialVerticalVelocity message) =? (-1920)) &&
  true
  | _ => false end) = true.
Proof. vm_compute. reflexivity. Qed.

(* pkg/bds/bds60/heading_and_speed_report_test.go:66-120 *)
Example TestReadHeadingAndSpeedReportIncoherent_bds60 :
  (match bds60.ReadHeadingAndSpeedReport ([0; 0; 0; 0; 0; 0; 0]) with Ok messageAllStatusFalse =>
  (negb (match bds60.HeadingAndTrackReport_CheckCoherency (messageAllStatusFalse) with Ok _ => true | _ => false end)) &&
  match bds60.ReadHeadingAndSpeedReport ([143; 63; 1; 26; 126; 39; 196]) with Ok messageAirSpeedTooHigh =>
  (negb (match bds60.HeadingAndTrackReport_CheckCoherency (messageAirSpeedTooHigh) with Ok _ => true | _ => false end)) &&
  match bds60.ReadHeadingAndSpeedReport ([143; 57; 249; 128; 62; 39; 196]) with Ok messageMachTooHigh =>
  (negb (match bds60.HeadingAndTrackReport_CheckCoherency (messageMachTooHigh) with Ok _ => true | _ => false end)) &&
  match bds60.ReadHeadingAndSpeedReport ([143; 57; 249; 26; 112; 7; 196]) with Ok messageBarometricTooHigh =>
  (negb (match bds60.HeadingAndTrackReport_CheckCoherency (messageBarometricTooHigh) with Ok _ => true | _ => false end)) &&
  match bds60.ReadHeadingAndSpeedReport ([143; 57; 249; 26; 126; 38; 0]) with Ok messageInertialTooHigh =>
  (negb (match bds60.HeadingAndTrackReport_CheckCoherency (messageInertialTooHigh) with Ok _ => true | _ => false end)) &&
  true
  | _ => false end
  | _ => false end
  | _ => false end
  | _ => false end
  | _ => false end) = true.
Proof. vm_compute. reflexivity. Qed.

(* pkg/bds/bds60/heading_and_speed_report_test.go:122-128 *)
Example TestReadHeadingAndSpeedReportErroneous_bds60 :
  ((match bds60.ReadHeadingAndSpeedReport ([143; 57; 249; 26; 126; 39]) with Err _ => true | _ => false end) &&
  true) = true.
Proof. vm_compute. reflexivity. Qed.

(* pkg/bds/bds61/aircraft_status_emergency_test.go:11-30 *)
Example TestReadHeadingAndSpeedReportValid_bds61 :
  (match bds61.ReadAircraftStatusEmergency ([225; 25; 29; 0; 0; 0; 0]) with Ok message =>
  (String.eqb (bds_register.Register_id (bds61.AircraftStatusEmergency_GetRegister (message))) (bds_register.Register_id bds_register.BDS61)) &&
  (match bds61.AircraftStatusEmergency_CheckCoherency (message) with Ok _ => true | _ => false end) &&
  ((bds61.AircraftStatusEmergency_EmergencyPriorityStatus message) =? bds61_fields.EPSNoEmergency) &&
  true
  | _ => false end) = true.
Proof. vm_compute. reflexivity. Qed.

(* pkg/bds/bds62/target_state_and_status_test.go:11-30 *)
Example TestReadTargetStateAndStatusValid1_bds62 :
  (match bds62.ReadTargetStateAndStatus ([234; 33; 72; 92; 191; 63; 140]) with Ok message =>
  (String.eqb (bds_register.Register_id (bds62.ITargetStateAndStatus_GetRegister (message))) (bds_register.Register_id bds_register.BDS62)) &&
  (match bds62.ITargetStateAndStatus_CheckCoherency (message) with Ok _ => true | _ => false end) &&
  ((bds62.ITargetStateAndStatus_GetSubtype (message)) =? bds62_fields.Subtype1) &&
  true
  | _ => false end) = true.
Proof. vm_compute. reflexivity. Qed.

(* pkg/bds/bds62/target_state_and_status_type_1_test.go:11-86 *)
Example TestReadTargetStateAndStatus1Valid1_bds62 :
  (match bds62.ReadTargetStateAndStatus1 ([234; 33; 72; 92; 191; 63; 140]) with Ok message =>
  (String.eqb (bds_register.Register_id (bds62.TargetStateAndStatus1_GetRegister (message))) (bds_register.Register_id bds_register.BDS62)) &&
  (match bds62.TargetStateAndStatus1_CheckCoherency (message) with Ok _ => true | _ => false end) &&
  ((bds62.TargetStateAndStatus1_GetSubtype (message)) =? bds62_fields.Subtype1) &&
  ((bds62.TargetStateAndStatus1_SourceIntegrityLevelSupplement message) =? bds62_fields.SILSByHour) &&
  ((bds62.TargetStateAndStatus1_SelectedAltitudeType message) =? bds62_fields.SATByMCPFCU) &&
  ((bds62.TargetStateAndStatus1_SelectedAltitudeStatus message) =? bds62_fields.NVSRegular) &&
  ((bds62.TargetStateAndStatus1_SelectedAltitude message) =? 16992) &&
  ((bds62.TargetStateAndStatus1_BarometricPressureSettingStatus message) =? bds62_fields.NVSRegular) &&
  ((negb (SFltb (bds62.TargetStateAndStatus1_BarometricPressureSetting message) (f32_lit 10127 10))) && (negb (SFltb (f32_lit 10129 10) (bds62.TargetStateAndStatus1_BarometricPressureSetting message)))) &&
  ((bds62.TargetStateAndStatus1_SelectedHeadingStatus message) =? bds62_fields.SHSValid) &&
  ((negb (SFltb (bds62.TargetStateAndStatus1_SelectedHeading message) (f32_lit 667 10))) && (negb (SFltb (f32_lit 669 10) (bds62.TargetStateAndStatus1_SelectedHeading message)))) &&
  (Bool.eqb (bds62.TargetStateAndStatus1_AutopilotEngaged message) true) &&
  (Bool.eqb (bds62.TargetStateAndStatus1_VNAVModeEngaged message) true) &&
  (Bool.eqb (bds62.TargetStateAndStatus1_AltitudeHoldModeEngaged message) false) &&
  (Bool.eqb (bds62.TargetStateAndStatus1_ApproachModeEngaged message) false) &&
  (Bool.eqb (bds62.TargetStateAndStatus1_TCASACASOperational message) true) &&
  (Bool.eqb (bds62.TargetStateAndStatus1_LNAVModeEngaged message) true) &&
  true
  | _ => false end) = true.
Proof. vm_compute. reflexivity. Qed.

(* pkg/bds/bds65/aircraft_operational_status_airborne_adsb2_test.go:11-94 *)
Example TestReadAircraftOperationalStatusAirborneADSB2_bds65 :
  (match bds65.ReadAircraftOperationalStatusAirborneADSB2 ([248; 35; 0; 3; 0; 64; 8]) with Ok message =>
  (String.eqb (bds_register.Register_id (bds65.AircraftOperationalStatusAirborneADSB2_GetRegister (message))) (bds_register.Register_id bds_register.BDS65)) &&
  (match bds65.AircraftOperationalStatusAirborneADSB2_CheckCoherency (message) with Ok _ => true | _ => false end) &&
  ((bds65_fields.AirborneCapabilityClassV2_ACASOperational (bds65.AircraftOperationalStatusAirborneADSB2_AirborneCapabilityClass message)) =? bds65_fields.AOOperational) &&
  ((bds65_fields.AirborneCapabilityClassV2_ExtendedSquitterIn (bds65.AircraftOperationalStatusAirborneADSB2_AirborneCapabilityClass message)) =? bds65_fields.ESINoCapability) &&
  ((bds65_fields.AirborneCapabilityClassV2_AirReferencedVelocityReportCapability (bds65.AircraftOperationalStatusAirborneADSB2_AirborneCapabilityClass message)) =? bds65_fields.ARVCapable) &&
  ((bds65_fields.AirborneCapabilityClassV2_TargetStateReportCapability (bds65.AircraftOperationalStatusAirborneADSB2_AirborneCapabilityClass message)) =? bds65_fields.TSRCCapable) &&
  ((bds65_fields.AirborneCapabilityClassV2_TargetChangeReportCapability (bds65.AircraftOperationalStatusAirborneADSB2_AirborneCapabilityClass message)) =? bds65_fields.TCRCNoCapability) &&
  ((bds65_fields.AirborneCapabilityClassV2_UniversalAccessTransceiverCapability (bds65.AircraftOperationalStatusAirborneADSB2_AirborneCapabilityClass message)) =? bds65_fields.UATNoCapability) &&
  ((bds65_fields.AirborneOperationalMode_ACASResolutionAdvisoryActive (bds65.AircraftOperationalStatusAirborneADSB2_OperationalMode message)) =? bds65_fields.ARAV2NotActive) &&
  ((bds65_fields.AirborneOperationalMode_IdentSwitchActive (bds65.AircraftOperationalStatusAirborneADSB2_OperationalMode message)) =? bds65_fields.ISANotActive) &&
  ((bds65_fields.AirborneOperationalMode_SingleAntennaFlag (bds65.AircraftOperationalStatusAirborneADSB2_OperationalMode message)) =? bds65_fields.SAFTwoAntennas) &&
  ((bds65_fields.AirborneOperationalMode_SystemDesignAssurance (bds65.AircraftOperationalStatusAirborneADSB2_OperationalMode message)) =? bds65_fields.SDALevelB) &&
  ((bds65.AircraftOperationalStatusAirborneADSB2_NICSupplementA message) =? bds65_fields.NICAZero) &&
  ((bds65.AircraftOperationalStatusAirborneADSB2_NavigationalAccuracyCategoryPosition message) =? bds65_fields.NACV2PEPUGreaterThan18Point52Km) &&
  ((bds65.AircraftOperationalStatusAirborneADSB2_GeometricVerticalAccuracy message) =? bds65_fields.GVAUnknownOrGreaterThan150m) &&
  ((bds65.AircraftOperationalStatusAirborneADSB2_SourceIntegrityLevel message) =? bds65_fields.SILLevel0) &&
  ((bds65.AircraftOperationalStatusAirborneADSB2_NICBaro message) =? bds65_fields.NICBGilhamCrossCheckedOrNonGilham) &&
  ((bds65.AircraftOperationalStatusAirborneADSB2_HorizontalReferenceDirection message) =? bds65_fields.HRDTrueNorth) &&
  ((bds65.AircraftOperationalStatusAirborneADSB2_SourceIntegrityLevelSupplement message) =? bds65_fields.SILSByHour) &&
  true
  | _ => false end) = true.
Proof. vm_compute. reflexivity. Qed.

(* pkg/bds/bds65/aircraft_operational_status_surface_adsb2_test.go:11-94 *)
Example TestReadAircraftOperationalStatusSurfaceADSB2_bds65 :
  (match bds65.ReadAircraftOperationalStatusSurfaceADSB2 ([249; 0; 33; 2; 129; 74; 60]) with Ok message =>
  (String.eqb (bds_register.Register_id (bds65.AircraftOperationalStatusSurfaceADSB2_GetRegister (message))) (bds_register.Register_id bds_register.BDS65)) &&
  (match bds65.AircraftOperationalStatusSurfaceADSB2_CheckCoherency (message) with Ok _ => true | _ => false end) &&
  ((bds65_fields.SurfaceCapabilityClassV2_ExtendedSquitterIn (bds65.AircraftOperationalStatusSurfaceADSB2_SurfaceCapabilityClass message)) =? bds65_fields.ESINoCapability) &&
  ((bds65_fields.SurfaceCapabilityClassV2_B2Low (bds65.AircraftOperationalStatusSurfaceADSB2_SurfaceCapabilityClass message)) =? bds65_fields.B2LGreaterThan70W) &&
  ((bds65_fields.SurfaceCapabilityClassV2_UniversalAccessTransceiverCapability (bds65.AircraftOperationalStatusSurfaceADSB2_SurfaceCapabilityClass message)) =? bds65_fields.UATNoCapability) &&
  ((bds65_fields.SurfaceCapabilityClassV2_NavigationAccuracyCategoryVelocity (bds65.AircraftOperationalStatusSurfaceADSB2_SurfaceCapabilityClass message)) =? 1) &&
  ((bds65_fields.SurfaceCapabilityClassV2_NICSupplementC (bds65.AircraftOperationalStatusSurfaceADSB2_SurfaceCapabilityClass message)) =? bds65_fields.NICCSZero) &&
  ((bds65.AircraftOperationalStatusSurfaceADSB2_LengthAndWidth message) =? bds65_fields.LWLength15Width23) &&
  ((bds65_fields.SurfaceOperationalMode_ACASResolutionAdvisoryActive (bds65.AircraftOperationalStatusSurfaceADSB2_OperationalMode message)) =? bds65_fields.ARAV2NotActive) &&
  ((bds65_fields.SurfaceOperationalMode_IdentSwitchActive (bds65.AircraftOperationalStatusSurfaceADSB2_OperationalMode message)) =? bds65_fields.ISANotActive) &&
  ((bds65_fields.SurfaceOperationalMode_SingleAntennaFlag (bds65.AircraftOperationalStatusSurfaceADSB2_OperationalMode message)) =? bds65_fields.SAFTwoAntennas) &&
  ((bds65_fields.GPSAntenna_GPSAntennaLateral (bds65_fields.SurfaceOperationalMode_GPSAntenna (bds65.AircraftOperationalStatusSurfaceADSB2_OperationalMode message))) =? 4) &&
  ((bds65_fields.GPSAntenna_GPSAntennaLongitudinal (bds65_fields.SurfaceOperationalMode_GPSAntenna (bds65.AircraftOperationalStatusSurfaceADSB2_OperationalMode message))) =? 1) &&
  ((bds65.AircraftOperationalStatusSurfaceADSB2_NICSupplementA message) =? bds65_fields.NICAZero) &&
  ((bds65.AircraftOperationalStatusSurfaceADSB2_NavigationalAccuracyCategoryPosition message) =? bds65_fields.NACV2PEPULowerThan10M) &&
  ((bds65.AircraftOperationalStatusSurfaceADSB2_SourceIntegrityLevel message) =? bds65_fields.SILLevel3) &&
  ((bds65.AircraftOperationalStatusSurfaceADSB2_TrackAngleHeading message) =? bds65_fields.TAHTrackAngleReported) &&
  ((bds65.AircraftOperationalStatusSurfaceADSB2_HorizontalReferenceDirection message) =? bds65_fields.HRDMagneticNorth) &&
  ((bds65.AircraftOperationalStatusSurfaceADSB2_SourceIntegrityLevelSupplement message) =? bds65_fields.SILSByHour) &&
  true
  | _ => false end) = true.
Proof. vm_compute. reflexivity. Qed.
