(* Property theorems: Adsb. Generated by tools/mkprops.py; proofs are in theories/Proofs. *)
From Verif Require Import GoBase Bits.
From Verif.Spec Require Import Altitude Floats Adsb Identification Velocity Acas Status AdsbMessages.
From Verif.Gen Require bds05 bds05_fields bds06 bds06_fields adsb adsb_airborne_position
  adsb_airborne_position_fields adsb_surface_position adsb_surface_position_fields
  adsb_no_position_information adsb_aircraft_identification_and_category adsb_airborne_velocity
  adsb_aircraft_status adsb_target_state_and_status adsb_aircraft_operational_status bds08 bds08_fields bds09 bds61 bds62 bds65 acas_ra acas_ra_fields.
From Verif.Model Require Import AdsbReader.
From Verif.Proofs Require AdsbApi ExamplesAdsb GroundSpeed Status61 Status62.
Local Open Scope Z_scope.

Theorem C19_adsb_total : forall v a c data, bytes data -> ReadADSBMessage v a c data <> Panic.
Proof. exact AdsbApi.adsb_total. Qed.
Print Assumptions C19_adsb_total.

Example C19_any_bytes_example : (exists e, ReadADSBMessage 7 true true [1; 2] = Err e) /\
  (exists e, ReadADSBMessage 0 false false [0xFF; 0xFF; 0xFF; 0xFF; 0xFF; 0xFF; 0xFF] = Err e) /\
  exists m, ReadADSBMessage 2 true false [0x58; 0xC3; 0x82; 0xD6; 0x90; 0xC8; 0xAC] = Ok m.
Proof. exact ExamplesAdsb.any_bytes_example. Qed.
Print Assumptions C19_any_bytes_example.

Theorem C20_adsb_kind : forall v a c data m, bytes data -> ReadADSBMessage v a c data = Ok m -> len data = 7 /\ KindOf data (kind m).
Proof. exact AdsbApi.adsb_kind. Qed.
Print Assumptions C20_adsb_kind.

Theorem C20_kind_unique : forall data k k', KindOf data k -> KindOf data k' -> k = k'.
Proof. exact AdsbApi.kind_unique. Qed.
Print Assumptions C20_kind_unique.

Theorem C20_adsb_bad_length : forall v a c data, len data <> 7 -> exists e, ReadADSBMessage v a c data = Err e.
Proof. exact AdsbApi.adsb_bad_length. Qed.
Print Assumptions C20_adsb_bad_length.

Example C20_kinds_example : exists m1 m2 m3,
  bytes [0x3A; 0x9A; 0x15; 0x32; 0x37; 0xAE; 0xF0] /\ ReadADSBMessage 1 true false [0x3A; 0x9A; 0x15; 0x32; 0x37; 0xAE; 0xF0] = Ok (ASurface m1) /\ KindOf [0x3A; 0x9A; 0x15; 0x32; 0x37; 0xAE; 0xF0] KSurface /\
  bytes [0x58; 0xC3; 0x82; 0xD6; 0x90; 0xC8; 0xAC] /\ ReadADSBMessage 1 true false [0x58; 0xC3; 0x82; 0xD6; 0x90; 0xC8; 0xAC] = Ok (AAirborne m2) /\ KindOf [0x58; 0xC3; 0x82; 0xD6; 0x90; 0xC8; 0xAC] KAirborne /\
  bytes [0x99; 0x44; 0x09; 0x94; 0x08; 0x38; 0x17] /\ ReadADSBMessage 1 true false [0x99; 0x44; 0x09; 0x94; 0x08; 0x38; 0x17] = Ok (AVelocity m3) /\ KindOf [0x99; 0x44; 0x09; 0x94; 0x08; 0x38; 0x17] KVelocity.
Proof. exact ExamplesAdsb.kinds_example. Qed.
Print Assumptions C20_kinds_example.

Theorem C21_airborne_ok : forall v a c data alt, bytes data -> len data = 7 -> KindOf data KAirborne ->
  0 <= v <= 2 -> Altitude12 data alt ->
  exists m, ReadADSBMessage v a c data = Ok (AAirborne m) /\ AirborneOf v a data m.
Proof. exact AdsbApi.airborne_ok. Qed.
Print Assumptions C21_airborne_ok.

Theorem C21_airborne_bad_version : forall v a c data, bytes data -> len data = 7 -> KindOf data KAirborne ->
  ~ 0 <= v <= 2 -> exists e, ReadADSBMessage v a c data = Err e.
Proof. exact AdsbApi.airborne_bad_version. Qed.
Print Assumptions C21_airborne_bad_version.

Example C21_airborne_example : bytes [0x58; 0xC3; 0x82; 0xD6; 0x90; 0xC8; 0xAC] /\ len [0x58; 0xC3; 0x82; 0xD6; 0x90; 0xC8; 0xAC] = 7 /\ KindOf [0x58; 0xC3; 0x82; 0xD6; 0x90; 0xC8; 0xAC] KAirborne /\ Altitude12 [0x58; 0xC3; 0x82; 0xD6; 0x90; 0xC8; 0xAC] 38000.
Proof. exact ExamplesAdsb.airborne_example. Qed.
Print Assumptions C21_airborne_example.

Theorem C22_airborne_bad_altitude : forall v a c data, bytes data -> len data = 7 -> KindOf data KAirborne ->
  (forall alt, ~ Altitude12 data alt) -> exists e, ReadADSBMessage v a c data = Err e.
Proof. exact AdsbApi.airborne_bad_altitude. Qed.
Print Assumptions C22_airborne_bad_altitude.

Theorem C22_airborne_ok : forall v a c data alt, bytes data -> len data = 7 -> KindOf data KAirborne ->
  0 <= v <= 2 -> Altitude12 data alt ->
  exists m, ReadADSBMessage v a c data = Ok (AAirborne m) /\ AirborneOf v a data m.
Proof. exact AdsbApi.airborne_ok. Qed.
Print Assumptions C22_airborne_ok.

Example C22_bad_altitude_example : bytes [0x58; 0x00; 0x00; 0xD6; 0x90; 0xC8; 0xAC] /\ len [0x58; 0x00; 0x00; 0xD6; 0x90; 0xC8; 0xAC] = 7 /\ KindOf [0x58; 0x00; 0x00; 0xD6; 0x90; 0xC8; 0xAC] KAirborne /\
  (forall alt, ~ Altitude12 [0x58; 0x00; 0x00; 0xD6; 0x90; 0xC8; 0xAC] alt).
Proof. exact ExamplesAdsb.bad_altitude_example. Qed.
Print Assumptions C22_bad_altitude_example.

Theorem C23_airborne_ok : forall v a c data alt, bytes data -> len data = 7 -> KindOf data KAirborne ->
  0 <= v <= 2 -> Altitude12 data alt ->
  exists m, ReadADSBMessage v a c data = Ok (AAirborne m) /\ AirborneOf v a data m.
Proof. exact AdsbApi.airborne_ok. Qed.
Print Assumptions C23_airborne_ok.

Example C23_airborne_gillham_example : bytes [0x58; 0x28; 0x80; 0xD6; 0x90; 0xC8; 0xAC] /\ len [0x58; 0x28; 0x80; 0xD6; 0x90; 0xC8; 0xAC] = 7 /\ KindOf [0x58; 0x28; 0x80; 0xD6; 0x90; 0xC8; 0xAC] KAirborne /\
  Altitude12 [0x58; 0x28; 0x80; 0xD6; 0x90; 0xC8; 0xAC] 600 /\ exists m, ReadADSBMessage 0 false false [0x58; 0x28; 0x80; 0xD6; 0x90; 0xC8; 0xAC] = Ok m.
Proof. exact ExamplesAdsb.airborne_gillham_example. Qed.
Print Assumptions C23_airborne_gillham_example.

Theorem C24_surface_fields : forall v a c data, bytes data -> len data = 7 -> KindOf data KSurface -> 0 <= v <= 2 ->
  exists m, ReadADSBMessage v a c data = Ok (ASurface m) /\ surface_position data (surface_part m).
Proof. exact AdsbApi.surface_fields. Qed.
Print Assumptions C24_surface_fields.

Theorem C24_surface_bad_version : forall v a c data, bytes data -> len data = 7 -> KindOf data KSurface ->
  ~ 0 <= v <= 2 -> exists e, ReadADSBMessage v a c data = Err e.
Proof. exact AdsbApi.surface_bad_version. Qed.
Print Assumptions C24_surface_bad_version.

Example C24_surface_example : bytes [0x3A; 0x9A; 0x15; 0x32; 0x37; 0xAE; 0xF0] /\ len [0x3A; 0x9A; 0x15; 0x32; 0x37; 0xAE; 0xF0] = 7 /\ KindOf [0x3A; 0x9A; 0x15; 0x32; 0x37; 0xAE; 0xF0] KSurface /\
  bits 6 12 [0x3A; 0x9A; 0x15; 0x32; 0x37; 0xAE; 0xF0] = 41 /\ bit 13 [0x3A; 0x9A; 0x15; 0x32; 0x37; 0xAE; 0xF0] = true /\ ~ (bits 1 5 [0x3A; 0x9A; 0x15; 0x32; 0x37; 0xAE; 0xF0] = 7 /\ true = false).
Proof. exact ExamplesAdsb.surface_example. Qed.
Print Assumptions C24_surface_example.

Theorem C25_surface_fields : forall v a c data, bytes data -> len data = 7 -> KindOf data KSurface -> 0 <= v <= 2 ->
  exists m, ReadADSBMessage v a c data = Ok (ASurface m) /\ surface_position data (surface_part m).
Proof. exact AdsbApi.surface_fields. Qed.
Print Assumptions C25_surface_fields.

Example C25_surface_example : bytes [0x3A; 0x9A; 0x15; 0x32; 0x37; 0xAE; 0xF0] /\ len [0x3A; 0x9A; 0x15; 0x32; 0x37; 0xAE; 0xF0] = 7 /\ KindOf [0x3A; 0x9A; 0x15; 0x32; 0x37; 0xAE; 0xF0] KSurface /\
  bits 6 12 [0x3A; 0x9A; 0x15; 0x32; 0x37; 0xAE; 0xF0] = 41 /\ bit 13 [0x3A; 0x9A; 0x15; 0x32; 0x37; 0xAE; 0xF0] = true /\ ~ (bits 1 5 [0x3A; 0x9A; 0x15; 0x32; 0x37; 0xAE; 0xF0] = 7 /\ true = false).
Proof. exact ExamplesAdsb.surface_example. Qed.
Print Assumptions C25_surface_example.

Theorem C26_surface_ok_partial : forall v a c data, bytes data -> len data = 7 -> KindOf data KSurface ->
  0 <= v <= 2 -> ~ (v = 1 /\ bits 1 5 data = 7 /\ a = false) ->
  exists m, ReadADSBMessage v a c data = Ok (ASurface m) /\ SurfaceOf v a c data m.
Proof. exact AdsbApi.surface_ok_partial. Qed.
Print Assumptions C26_surface_ok_partial.

Theorem C26_surface_v1_radius_refuted : exists c data m, bytes data /\ len data = 7 /\ KindOf data KSurface /\
  ReadADSBMessage 1 false c data = Ok (ASurface m) /\ ~ SurfaceOf 1 false c data m.
Proof. exact AdsbApi.surface_v1_radius_refuted. Qed.
Print Assumptions C26_surface_v1_radius_refuted.

Example C26_surface_example : bytes [0x3A; 0x9A; 0x15; 0x32; 0x37; 0xAE; 0xF0] /\ len [0x3A; 0x9A; 0x15; 0x32; 0x37; 0xAE; 0xF0] = 7 /\ KindOf [0x3A; 0x9A; 0x15; 0x32; 0x37; 0xAE; 0xF0] KSurface /\
  bits 6 12 [0x3A; 0x9A; 0x15; 0x32; 0x37; 0xAE; 0xF0] = 41 /\ bit 13 [0x3A; 0x9A; 0x15; 0x32; 0x37; 0xAE; 0xF0] = true /\ ~ (bits 1 5 [0x3A; 0x9A; 0x15; 0x32; 0x37; 0xAE; 0xF0] = 7 /\ true = false).
Proof. exact ExamplesAdsb.surface_example. Qed.
Print Assumptions C26_surface_example.

Theorem C27_identification_ok : forall v a c data, bytes data -> len data = 7 -> KindOf data KIdentification ->
  ReadADSBMessage v a c data = Ok (AIdentification
    {| adsb_aircraft_identification_and_category.AircraftIdentificationAndCategory_AircraftIdentificationAndCategory := identification data;
       adsb_aircraft_identification_and_category.AircraftIdentificationAndCategory_adsbVersion := v |}).
Proof. exact AdsbApi.identification_ok. Qed.
Print Assumptions C27_identification_ok.

Theorem C27_identification_coherent : forall v a c data m, bytes data -> len data = 7 -> KindOf data KIdentification ->
  ReadADSBMessage v a c data = Ok m ->
  (Message_CheckCoherency m = Ok tt <-> legal_characters data /\ category_defined data).
Proof. exact AdsbApi.identification_coherent. Qed.
Print Assumptions C27_identification_coherent.

Example C27_identification_example : bytes [0x20; 0x2C; 0xC3; 0x71; 0xC3; 0x2C; 0xE0] /\ len [0x20; 0x2C; 0xC3; 0x71; 0xC3; 0x2C; 0xE0] = 7 /\ KindOf [0x20; 0x2C; 0xC3; 0x71; 0xC3; 0x2C; 0xE0] KIdentification /\
  bds08.AircraftIdentificationAndCategory_Identification (identification [0x20; 0x2C; 0xC3; 0x71; 0xC3; 0x2C; 0xE0]) = "KLM1023 "%string /\
  exists m, ReadADSBMessage 0 false false [0x20; 0x2C; 0xC3; 0x71; 0xC3; 0x2C; 0xE0] = Ok m /\ Message_CheckCoherency m = Ok tt.
Proof. exact ExamplesAdsb.identification_example. Qed.
Print Assumptions C27_identification_example.

Theorem C28_velocity_ok : forall v a c data, bytes data -> len data = 7 -> KindOf data KVelocity -> 1 <= bits 6 8 data <= 4 ->
  exists x, VelocityOf data x /\ ReadADSBMessage v a c data = Ok (AVelocity
    {| adsb_airborne_velocity.AirborneVelocity_AirborneVelocity := x; adsb_airborne_velocity.AirborneVelocity_adsbVersion := v |}).
Proof. exact AdsbApi.velocity_ok. Qed.
Print Assumptions C28_velocity_ok.

Theorem C28_velocity_bad_subtype : forall v a c data, bytes data -> len data = 7 -> KindOf data KVelocity -> ~ 1 <= bits 6 8 data <= 4 ->
  exists e, ReadADSBMessage v a c data = Err e.
Proof. exact AdsbApi.velocity_bad_subtype. Qed.
Print Assumptions C28_velocity_bad_subtype.

Example C28_velocity_example : bytes [0x99; 0x44; 0x09; 0x94; 0x08; 0x38; 0x17] /\ len [0x99; 0x44; 0x09; 0x94; 0x08; 0x38; 0x17] = 7 /\ KindOf [0x99; 0x44; 0x09; 0x94; 0x08; 0x38; 0x17] KVelocity /\ bits 6 8 [0x99; 0x44; 0x09; 0x94; 0x08; 0x38; 0x17] = 1 /\
  bytes [0x9B; 0x06; 0xB6; 0xAF; 0x18; 0x94; 0x00] /\ len [0x9B; 0x06; 0xB6; 0xAF; 0x18; 0x94; 0x00] = 7 /\ KindOf [0x9B; 0x06; 0xB6; 0xAF; 0x18; 0x94; 0x00] KVelocity /\ bits 6 8 [0x9B; 0x06; 0xB6; 0xAF; 0x18; 0x94; 0x00] = 3 /\
  exists m x, ReadADSBMessage 2 false false [0x9B; 0x06; 0xB6; 0xAF; 0x18; 0x94; 0x00] = Ok (AVelocity m) /\
    adsb_airborne_velocity.AirborneVelocity_AirborneVelocity m = bds09.IAirborneVelocity_AirborneVelocityAirSpeedNormal x /\
    bds09.AirborneVelocityAirSpeedNormal_Airspeed x = 375.
Proof. exact ExamplesAdsb.velocity_example. Qed.
Print Assumptions C28_velocity_example.

Theorem C29_ground_speed : forall v a c data m,
  bytes data -> len data = 7 ->
  ReadADSBMessage v a c data = Ok (AVelocity m) ->
  match adsb_airborne_velocity.AirborneVelocity_AirborneVelocity m with
  | bds09.IAirborneVelocity_AirborneVelocityGroundSpeedNormal x =>
      bits 6 8 data = 1 /\ SpeedOf 1 data (bds09.AirborneVelocityGroundSpeedNormal_GetSpeed x)
  | bds09.IAirborneVelocity_AirborneVelocityGroundSpeedSupersonic x =>
      bits 6 8 data = 2 /\ SpeedOf 4 data (bds09.AirborneVelocityGroundSpeedSupersonic_GetSpeed x)
  | _ => bits 6 8 data = 3 \/ bits 6 8 data = 4
  end.
Proof. exact GroundSpeed.ground_speed. Qed.
Print Assumptions C29_ground_speed.

Example C29_ground_speed_example : exists m x,
  ReadADSBMessage 0 false false [0x99;0x44;0x09;0x94;0x08;0x38;0x17] = Ok (AVelocity m) /\
  adsb_airborne_velocity.AirborneVelocity_AirborneVelocity m = bds09.IAirborneVelocity_AirborneVelocityGroundSpeedNormal x /\
  bds09.AirborneVelocityGroundSpeedNormal_GetSpeed x = Ok 159.
Proof. exact GroundSpeed.ground_speed_example. Qed.
Print Assumptions C29_ground_speed_example.

Theorem C30_status_message_partial : forall v a c data, bytes data -> len data = 7 -> KindOf data KStatus ->
  (bits 6 8 data = 0 -> bits 17 56 data = 0) ->
  (bits 6 8 data = 2 -> bits 29 30 data = 2 -> bits 31 32 data = 0 /\ bits 50 50 data = 0) ->
  forall x, StatusOf data x <-> ReadADSBMessage v a c data = Ok (AStatus
    {| adsb_aircraft_status.AircraftStatus_AircraftStatus := x; adsb_aircraft_status.AircraftStatus_adsbVersion := v |}).
Proof. exact AdsbApi.status_message_partial. Qed.
Print Assumptions C30_status_message_partial.

Theorem C30_aircraft_status_refuted : exists data m,
  bytes data /\ len data = 7 /\ bits 1 5 data = 28 /\ bits 6 8 data = 0 /\ bits 12 56 data <> 0 /\
  bds61.ReadAircraftStatus data = Ok m.
Proof. exact Status61.aircraft_status_refuted. Qed.
Print Assumptions C30_aircraft_status_refuted.

Example C30_status_example : bytes [0xE1; 0x20; 0; 0; 0; 0; 0] /\ len [0xE1; 0x20; 0; 0; 0; 0; 0] = 7 /\ KindOf [0xE1; 0x20; 0; 0; 0; 0; 0] KStatus /\ bits 6 8 [0xE1; 0x20; 0; 0; 0; 0; 0] = 1 /\
  exists m x, ReadADSBMessage 2 false false [0xE1; 0x20; 0; 0; 0; 0; 0] = Ok (AStatus m) /\
    adsb_aircraft_status.AircraftStatus_AircraftStatus m = bds61.IAircraftStatus_AircraftStatusEmergency x /\
    bds61.AircraftStatusEmergency_EmergencyPriorityStatus x = 1 /\ Message_CheckCoherency (AStatus m) = Ok tt.
Proof. exact ExamplesAdsb.status_example. Qed.
Print Assumptions C30_status_example.

Theorem C31_target_message_partial : forall v a c data, bytes data -> len data = 7 -> KindOf data KTarget ->
  (bits 6 7 data = 0 -> bits 17 20 data = bits 33 36 data) ->
  (bits 6 7 data = 1 -> bits 8 8 data = bits 9 9 data /\ bit 31 data = false) ->
  (forall m, ReadADSBMessage v a c data = Ok m -> exists x, TargetOf data x /\ m = ATarget
    {| adsb_target_state_and_status.TargetStateAndStatus_TargetStateAndStatus := x; adsb_target_state_and_status.TargetStateAndStatus_adsbVersion := v |}) /\
  (forall e, ReadADSBMessage v a c data = Err e -> forall x, ~ TargetOf data x).
Proof. exact AdsbApi.target_message_partial. Qed.
Print Assumptions C31_target_message_partial.

Theorem C31_target_fields_partial : forall data, bytes data -> len data = 7 -> bits 1 5 data = 29 ->
  (bits 6 7 data = 0 -> bits 47 51 data = 0 -> exists heading status, bds62.ReadTargetStateAndStatus data =
     Ok (bds62.ITargetStateAndStatus_TargetStateAndStatus0 (target_state_0 data heading status))) /\
  (bits 6 7 data = 1 -> exists altitude_type pressure heading,
     is_close pressure (pressure_hpa (bits 21 29 data)) (1 # 10000) /\
     (bit 31 data = false -> is_value heading (heading_degrees (bit 31 data) (bits 32 39 data))) /\
     bds62.ReadTargetStateAndStatus data =
       Ok (bds62.ITargetStateAndStatus_TargetStateAndStatus1 (target_state_1 data altitude_type pressure heading))).
Proof. exact Status62.target_fields_partial. Qed.
Print Assumptions C31_target_fields_partial.

Theorem C31_target_state_0_heading_refuted : exists data m,
  bytes data /\ len data = 7 /\ bits 1 5 data = 29 /\ bits 6 7 data = 0 /\ bits 28 36 data = 5 /\
  bds62.ReadTargetStateAndStatus data = Ok (bds62.ITargetStateAndStatus_TargetStateAndStatus0 m) /\
  bds62.TargetStateAndStatus0_TargetHeadingTrackAngle m = 0.
Proof. exact Status62.target_state_0_heading_refuted. Qed.
Print Assumptions C31_target_state_0_heading_refuted.

Theorem C31_target_state_1_altitude_type_refuted : exists data m,
  bytes data /\ len data = 7 /\ bits 1 5 data = 29 /\ bits 6 7 data = 1 /\ bits 9 9 data = 1 /\
  bds62.ReadTargetStateAndStatus data = Ok (bds62.ITargetStateAndStatus_TargetStateAndStatus1 m) /\
  bds62.TargetStateAndStatus1_SelectedAltitudeType m = 0.
Proof. exact Status62.target_state_1_altitude_type_refuted. Qed.
Print Assumptions C31_target_state_1_altitude_type_refuted.

Theorem C31_target_state_1_heading_refuted : forall data, bytes data -> len data = 7 -> bits 1 5 data = 29 -> bits 6 7 data = 1 ->
  bit 31 data = true -> bits 32 39 data <> 128 ->
  exists m, bds62.ReadTargetStateAndStatus data = Ok (bds62.ITargetStateAndStatus_TargetStateAndStatus1 m) /\
    ~ is_value (bds62.TargetStateAndStatus1_SelectedHeading m) (heading_degrees true (bits 32 39 data)).
Proof. exact Status62.target_state_1_heading_refuted. Qed.
Print Assumptions C31_target_state_1_heading_refuted.

Example C31_target_example : bytes [0xEA; 0x21; 0x48; 0x5C; 0xBF; 0x3F; 0x8C] /\ len [0xEA; 0x21; 0x48; 0x5C; 0xBF; 0x3F; 0x8C] = 7 /\ KindOf [0xEA; 0x21; 0x48; 0x5C; 0xBF; 0x3F; 0x8C] KTarget /\ bits 6 7 [0xEA; 0x21; 0x48; 0x5C; 0xBF; 0x3F; 0x8C] = 1 /\
  bits 8 8 [0xEA; 0x21; 0x48; 0x5C; 0xBF; 0x3F; 0x8C] = bits 9 9 [0xEA; 0x21; 0x48; 0x5C; 0xBF; 0x3F; 0x8C] /\ bit 31 [0xEA; 0x21; 0x48; 0x5C; 0xBF; 0x3F; 0x8C] = false /\
  exists m x, ReadADSBMessage 2 false false [0xEA; 0x21; 0x48; 0x5C; 0xBF; 0x3F; 0x8C] = Ok (ATarget m) /\
    adsb_target_state_and_status.TargetStateAndStatus_TargetStateAndStatus m = bds62.ITargetStateAndStatus_TargetStateAndStatus1 x /\
    bds62.TargetStateAndStatus1_SelectedAltitude x = 16992.
Proof. exact ExamplesAdsb.target_example. Qed.
Print Assumptions C31_target_example.

Theorem C32_operational_message : forall v a c data, bytes data -> len data = 7 -> KindOf data KOperational ->
  forall x, OperationalOf data x <-> exists l, ReadADSBMessage v a c data = Ok (AOperational
    {| adsb_aircraft_operational_status.AircraftOperationalStatus_AircraftOperationalStatus := x;
       adsb_aircraft_operational_status.AircraftOperationalStatus_adsbVersion := l |}).
Proof. exact AdsbApi.operational_message. Qed.
Print Assumptions C32_operational_message.

Example C32_operational_example : bytes [0xF8; 0x21; 0x00; 0x02; 0x00; 0x49; 0xB8] /\ len [0xF8; 0x21; 0x00; 0x02; 0x00; 0x49; 0xB8] = 7 /\ KindOf [0xF8; 0x21; 0x00; 0x02; 0x00; 0x49; 0xB8] KOperational /\
  bits 6 8 [0xF8; 0x21; 0x00; 0x02; 0x00; 0x49; 0xB8] = 0 /\ bits 41 43 [0xF8; 0x21; 0x00; 0x02; 0x00; 0x49; 0xB8] = 2 /\
  exists m, ReadADSBMessage 0 false false [0xF8; 0x21; 0x00; 0x02; 0x00; 0x49; 0xB8] = Ok m /\ Message_GetADSBVersion m = 2.
Proof. exact ExamplesAdsb.operational_example. Qed.
Print Assumptions C32_operational_example.

Theorem C33_operational_version_partial : forall v a c data m, bytes data -> len data = 7 -> KindOf data KOperational ->
  ~ (bits 6 8 data = 1 /\ bits 41 43 data = 2) ->
  ReadADSBMessage v a c data = Ok m -> Message_GetADSBVersion m = bits 41 43 data.
Proof. exact AdsbApi.operational_version_partial. Qed.
Print Assumptions C33_operational_version_partial.

Theorem C33_operational_version_refuted : exists data m, bytes data /\ len data = 7 /\ KindOf data KOperational /\
  ReadADSBMessage 2 false false data = Ok m /\ bits 41 43 data = 2 /\ Message_GetADSBVersion m = 1.
Proof. exact AdsbApi.operational_version_refuted. Qed.
Print Assumptions C33_operational_version_refuted.

Theorem C33_version_of_the_caller_partial : forall v a c data m, bytes data -> len data = 7 -> ~ KindOf data KOperational ->
  ReadADSBMessage v a c data = Ok m -> Message_GetADSBVersion m = v.
Proof. exact AdsbApi.version_of_the_caller. Qed.
Print Assumptions C33_version_of_the_caller_partial.

Example C33_operational_example : bytes [0xF8; 0x21; 0x00; 0x02; 0x00; 0x49; 0xB8] /\ len [0xF8; 0x21; 0x00; 0x02; 0x00; 0x49; 0xB8] = 7 /\ KindOf [0xF8; 0x21; 0x00; 0x02; 0x00; 0x49; 0xB8] KOperational /\
  bits 6 8 [0xF8; 0x21; 0x00; 0x02; 0x00; 0x49; 0xB8] = 0 /\ bits 41 43 [0xF8; 0x21; 0x00; 0x02; 0x00; 0x49; 0xB8] = 2 /\
  exists m, ReadADSBMessage 0 false false [0xF8; 0x21; 0x00; 0x02; 0x00; 0x49; 0xB8] = Ok m /\ Message_GetADSBVersion m = 2.
Proof. exact ExamplesAdsb.operational_example. Qed.
Print Assumptions C33_operational_example.

Theorem C34_type0_partial : forall v a c data, bytes data -> len data = 7 -> KindOf data KType0 ->
  (forall alt, Altitude12 data alt -> exists m, ReadADSBMessage v a c data = Ok (AAirborneType0 (type0_message m v)) /\
     bds05.AirbornePosition_FormatTypeCode m = bds05.AirbornePosition_FormatTypeCode (type0_position data alt) /\
     bds05.AirbornePosition_AltitudeReportMethod m = bds05.AirbornePosition_AltitudeReportMethod (type0_position data alt) /\
     bds05.AirbornePosition_AltitudeInFeet m = bds05.AirbornePosition_AltitudeInFeet (type0_position data alt) /\
     bds05.AirbornePosition_Time m = bds05.AirbornePosition_Time (type0_position data alt) /\
     bds05.AirbornePosition_CPRFormat m = bds05.AirbornePosition_CPRFormat (type0_position data alt) /\
     bds05.AirbornePosition_EncodedLatitude m = bds05.AirbornePosition_EncodedLatitude (type0_position data alt) /\
     bds05.AirbornePosition_EncodedLongitude m = bds05.AirbornePosition_EncodedLongitude (type0_position data alt)) /\
  ((forall alt, ~ Altitude12 data alt) -> exists e, ReadADSBMessage v a c data = Err e).
Proof. exact AdsbApi.type0_partial. Qed.
Print Assumptions C34_type0_partial.

Theorem C34_type0_refuted : forall v a c data alt, bytes data -> len data = 7 -> KindOf data KType0 -> Altitude12 data alt ->
  exists m, ReadADSBMessage v a c data = Ok (AAirborneType0 (type0_message m v)) /\
    bds05.AirbornePosition_AltitudeSource m = 1 /\
    bds05.AirbornePosition_SurveillanceStatus m = 0 /\
    bds05.AirbornePosition_SingleAntennaFlag m = 0 /\ m <> type0_position data alt.
Proof. exact AdsbApi.type0_refuted. Qed.
Print Assumptions C34_type0_refuted.

Theorem C34_no_position_ok : forall v a c data, bytes data -> len data = 7 -> KindOf data KNoPosition ->
  (forall alt, Altitude12 data alt -> ReadADSBMessage v a c data = Ok (ANoPosition (no_position alt v))) /\
  ((forall alt, ~ Altitude12 data alt) -> exists e, ReadADSBMessage v a c data = Err e).
Proof. exact AdsbApi.no_position_ok. Qed.
Print Assumptions C34_no_position_ok.

Example C34_type0_example : bytes [0x00; 0xA3; 0xC2; 0x2B; 0x77; 0x76; 0xD7] /\ len [0x00; 0xA3; 0xC2; 0x2B; 0x77; 0x76; 0xD7] = 7 /\ KindOf [0x00; 0xA3; 0xC2; 0x2B; 0x77; 0x76; 0xD7] KType0 /\
  Altitude12 [0x00; 0xA3; 0xC2; 0x2B; 0x77; 0x76; 0xD7] 31700 /\
  exists m, ReadADSBMessage 0 false false [0x00; 0xA3; 0xC2; 0x2B; 0x77; 0x76; 0xD7] = Ok m.
Proof. exact ExamplesAdsb.type0_example. Qed.
Print Assumptions C34_type0_example.

Example C34_no_position_example : bytes [0x00; 0x67; 0x60; 0; 0; 0; 0] /\ len [0x00; 0x67; 0x60; 0; 0; 0; 0] = 7 /\ KindOf [0x00; 0x67; 0x60; 0; 0; 0; 0] KNoPosition /\
  Altitude12 [0x00; 0x67; 0x60; 0; 0; 0; 0] 19550 /\ exists m, ReadADSBMessage 0 false false [0x00; 0x67; 0x60; 0; 0; 0; 0] = Ok m.
Proof. exact ExamplesAdsb.no_position_example. Qed.
Print Assumptions C34_no_position_example.
