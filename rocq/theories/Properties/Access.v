(* Property theorems: Access. Generated by tools/mkprops.py; proofs are in theories/Proofs. *)
From Verif Require Import GoBase Bits.
From Verif.Spec Require Import Floats Adsb AdsbMessages CommB Accessors Text.
From Verif.Gen Require acas_ra acas_ra_fields adsb_surface_position adsb_surface_position_fields adsb_airborne_velocity adsb_aircraft_status
  adsb_aircraft_identification_and_category adsb_target_state_and_status bds08 bds08_fields bds09 bds61 bds62 bds45.
From Verif.Model Require Import Crc ModesReader AdsbReader.
Require Import String.
From Verif.Proofs Require Accessors Coherence ExamplesAdsb.
Local Open Scope Z_scope.

Theorem C62_threat_range_value_partial : forall n, 0 <= n <= 127 ->
  exists r, threat_range n r /\ is_close (acas_ra_fields.ThreatIdentityRange_GetRange n) r (1 # 100000000000000).
Proof. exact Accessors.threat_range_value. Qed.
Print Assumptions C62_threat_range_value_partial.

Theorem C62_threat_bearing_value_partial : forall n,
  (1 <= n <= 60 -> in_sector n (acas_ra_fields.ThreatIdentityBearing_GetBearing n) /\
     2 * acas_ra_fields.ThreatIdentityBearing_GetBearing n = 6 * (n - 1) + 6 * n) /\
  (n = 0 -> acas_ra_fields.ThreatIdentityBearing_GetBearing n = 0) /\
  (61 <= n <= 63 -> acas_ra_fields.ThreatIdentityBearing_GetBearing n > 360).
Proof. exact Accessors.threat_bearing_value. Qed.
Print Assumptions C62_threat_bearing_value_partial.

Theorem C62_bearing_text_partial : forall n, 1 <= n <= 42 ->
  acas_ra_fields.ThreatIdentityBearing_ToString n =
  (numeral n ++ " - between " ++ numeral (6 * (n - 1)) ++ " and " ++ numeral (6 * n))%string.
Proof. exact Accessors.bearing_text_partial. Qed.
Print Assumptions C62_bearing_text_partial.

Theorem C62_bearing_text_refuted :
  acas_ra_fields.ThreatIdentityBearing_ToString 43 = "43 - between 252 and 2"%string /\
  acas_ra_fields.ThreatIdentityBearing_ToString 60 = "60 - between 98 and 104"%string.
Proof. exact Accessors.bearing_text_refuted. Qed.
Print Assumptions C62_bearing_text_refuted.

Theorem C63_surface_bounds : forall a c data m, bytes data -> len data = 7 -> KindOf data KSurface ->
  ReadADSBMessage 0 a c data = Ok (ASurface (adsb_surface_position.IMessage_SurfacePositionV0 m)) ->
  let hpl := adsb_surface_position.SurfacePositionV0_HorizontalProtectionLimit m in
  let radius := adsb_surface_position.SurfacePositionV0_ContainmentRadius m in
  bound_is (adsb_surface_position_fields.HorizontalProtectionLimit_GetHPLLowerBound hpl) (fst (hpl_bounds (bits 1 5 data))) /\
  bound_is (adsb_surface_position_fields.HorizontalProtectionLimit_GetHPLHigherBound hpl) (snd (hpl_bounds (bits 1 5 data))) /\
  bound_is (adsb_surface_position_fields.ContainmentRadius_GetHorizontalContainmentLowerBound radius) (fst (radius_bounds (bits 1 5 data))) /\
  bound_is (adsb_surface_position_fields.ContainmentRadius_GetHorizontalContainmentHigherBound radius) (snd (radius_bounds (bits 1 5 data))).
Proof. exact Accessors.surface_bounds. Qed.
Print Assumptions C63_surface_bounds.

Theorem C63_surface_bounds_ordered : forall tc l h,
  hpl_bounds tc = (Some l, Some h) \/ radius_bounds tc = (Some l, Some h) -> (l < h)%Q.
Proof. exact Accessors.surface_bounds_ordered. Qed.
Print Assumptions C63_surface_bounds_ordered.

Example C63_bounds_example : exists m, bytes [0x3A; 0x9A; 0x15; 0x32; 0x37; 0xAE; 0xF0] /\ len [0x3A; 0x9A; 0x15; 0x32; 0x37; 0xAE; 0xF0] = 7 /\ KindOf [0x3A; 0x9A; 0x15; 0x32; 0x37; 0xAE; 0xF0] KSurface /\
  ReadADSBMessage 0 false false [0x3A; 0x9A; 0x15; 0x32; 0x37; 0xAE; 0xF0] = Ok (ASurface (adsb_surface_position.IMessage_SurfacePositionV0 m)) /\
  bits 1 5 [0x3A; 0x9A; 0x15; 0x32; 0x37; 0xAE; 0xF0] = 7.
Proof. exact ExamplesAdsb.bounds_example. Qed.
Print Assumptions C63_bounds_example.

Theorem C64_velocity_subtype : forall v a c data m, bytes data -> len data = 7 -> KindOf data KVelocity ->
  ReadADSBMessage v a c data = Ok (AVelocity m) ->
  bds09.IAirborneVelocity_GetSubtype (adsb_airborne_velocity.AirborneVelocity_AirborneVelocity m) = bits 6 8 data.
Proof. exact Accessors.velocity_subtype. Qed.
Print Assumptions C64_velocity_subtype.

Theorem C64_status_subtype : forall v a c data m, bytes data -> len data = 7 -> KindOf data KStatus ->
  ReadADSBMessage v a c data = Ok (AStatus m) ->
  bds61.IAircraftStatus_GetSubtype (adsb_aircraft_status.AircraftStatus_AircraftStatus m) = bits 6 8 data.
Proof. exact Accessors.status_subtype. Qed.
Print Assumptions C64_status_subtype.

Theorem C64_target_subtype : forall v a c data m, bytes data -> len data = 7 -> KindOf data KTarget ->
  ReadADSBMessage v a c data = Ok (ATarget m) ->
  bds62.ITargetStateAndStatus_GetSubtype (adsb_target_state_and_status.TargetStateAndStatus_TargetStateAndStatus m) = bits 6 7 data.
Proof. exact Accessors.target_subtype. Qed.
Print Assumptions C64_target_subtype.

Theorem C64_advisory_form_type : forall data ra, bytes data -> len data = 6 ->
  acas_ra.ReadResolutionAdvisory data = Ok ra ->
  acas_ra_fields.IActiveResolutionAdvisory_GetType (acas_ra.ResolutionAdvisory_ActiveRA ra) =
  match advisory_of data with
  | OneThreat => acas_ra_fields.OneThreatOrSameSeparation
  | SeveralThreats => acas_ra_fields.MultipleThreatDifferentSeparation
  | NoVerticalAdvisory => acas_ra_fields.NoVerticalRAGenerated
  end.
Proof. exact Accessors.advisory_form_type. Qed.
Print Assumptions C64_advisory_form_type.

Theorem C64_advisory_forms_distinct :
  NoDup [acas_ra_fields.OneThreatOrSameSeparation; acas_ra_fields.MultipleThreatDifferentSeparation; acas_ra_fields.NoVerticalRAGenerated].
Proof. exact Accessors.advisory_forms_distinct. Qed.
Print Assumptions C64_advisory_forms_distinct.

Theorem C64_category_set : forall v a c data m, bytes data -> len data = 7 -> KindOf data KIdentification ->
  ReadADSBMessage v a c data = Ok (AIdentification m) ->
  bds08_fields.IAircraftCategory_GetCategorySetName
    (bds08.AircraftIdentificationAndCategory_Category
      (adsb_aircraft_identification_and_category.AircraftIdentificationAndCategory_AircraftIdentificationAndCategory m)) =
  category_set_name (bits 1 5 data).
Proof. exact Accessors.category_set. Qed.
Print Assumptions C64_category_set.

Theorem C64_turbulence_status : forall data m, bytes data -> len data = 7 ->
  bds45.ReadMeteorologicalHazardReport data = Ok m ->
  bds45.IMeteorologicalHazardReport_GetTurbulenceStatus m = bit 38 data.
Proof. exact Accessors.turbulence_status. Qed.
Print Assumptions C64_turbulence_status.

Theorem C64_turbulence_status_v0 : forall data m, bytes data -> len data = 7 ->
  bds45.ReadMeteorologicalHazardReportV0 data = Ok m ->
  bds45.MeteorologicalHazardReportV0_GetTurbulenceStatus m = bit 1 data.
Proof. exact Accessors.turbulence_status_v0. Qed.
Print Assumptions C64_turbulence_status_v0.

Theorem C64_message_names : forall m m', ModeSMessage_GetName m = ModeSMessage_GetName m' <-> GetDownLinkFormat m = GetDownLinkFormat m'.
Proof. exact Accessors.message_names. Qed.
Print Assumptions C64_message_names.

Theorem C65_adsb_coherent : forall v a c data m, bytes data -> ReadADSBMessage v a c data = Ok m ->
  (Message_CheckCoherency m = Ok tt <-> coherent_body data) /\ Message_CheckCoherency m <> Panic.
Proof. exact Coherence.adsb_coherent. Qed.
Print Assumptions C65_adsb_coherent.

Example C65_coherent_example : exists m m',
  bytes [0x20; 0x2C; 0xC3; 0x71; 0xC3; 0x2C; 0xE0] /\ ReadADSBMessage 0 false false [0x20; 0x2C; 0xC3; 0x71; 0xC3; 0x2C; 0xE0] = Ok m /\ Message_CheckCoherency m = Ok tt /\
  bytes [0x11; 0x50; 0x86; 0x73; 0xE1; 0x98; 0x2F] /\
  ReadADSBMessage 0 false false [0x11; 0x50; 0x86; 0x73; 0xE1; 0x98; 0x2F] = Ok m' /\
  exists e, Message_CheckCoherency m' = Err e.
Proof. exact ExamplesAdsb.coherent_example. Qed.
Print Assumptions C65_coherent_example.
