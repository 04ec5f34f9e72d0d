(* Concrete cases meeting the hypotheses of the property theorems: ADS-B messages. *)
From Verif Require Import GoBase Bits.
From Verif.Spec Require Import Altitude Floats Adsb Identification Velocity Acas Status AdsbMessages.
From Verif.Gen Require bds05 bds05_fields bds06 bds06_fields adsb adsb_airborne_position
  adsb_airborne_position_fields adsb_surface_position adsb_surface_position_fields
  adsb_no_position_information adsb_aircraft_identification_and_category adsb_airborne_velocity
  adsb_aircraft_status adsb_target_state_and_status adsb_aircraft_operational_status bds08 bds08_fields bds09 bds61 bds62 bds65 acas_ra acas_ra_fields.
From Verif.Model Require Import AdsbReader.
From Verif.Proofs Require Import Examples.
Require Import Lia.
Local Open Scope Z_scope.

Definition me_airborne : list Z := [0x58; 0xC3; 0x82; 0xD6; 0x90; 0xC8; 0xAC].
Definition me_gillham : list Z := [0x58; 0x28; 0x80; 0xD6; 0x90; 0xC8; 0xAC].
Definition me_bad_altitude : list Z := [0x58; 0x00; 0x00; 0xD6; 0x90; 0xC8; 0xAC].
Definition me_surface : list Z := [0x3A; 0x9A; 0x15; 0x32; 0x37; 0xAE; 0xF0].
Definition me_identification : list Z := [0x20; 0x2C; 0xC3; 0x71; 0xC3; 0x2C; 0xE0].
Definition me_velocity : list Z := [0x99; 0x44; 0x09; 0x94; 0x08; 0x38; 0x17].
Definition me_airspeed : list Z := [0x9B; 0x06; 0xB6; 0xAF; 0x18; 0x94; 0x00].
Definition me_emergency : list Z := [0xE1; 0x20; 0; 0; 0; 0; 0].
Definition me_target : list Z := [0xEA; 0x21; 0x48; 0x5C; 0xBF; 0x3F; 0x8C].
Definition me_operational : list Z := [0xF8; 0x21; 0x00; 0x02; 0x00; 0x49; 0xB8].
Definition me_type0 : list Z := [0x00; 0xA3; 0xC2; 0x2B; 0x77; 0x76; 0xD7].
Definition me_no_position : list Z := [0x00; 0x67; 0x60; 0; 0; 0; 0].

Ltac kind := match goal with
  | |- KindOf _ KAirborne => apply k_airborne; left; split; vm_compute; discriminate
  | |- KindOf _ KSurface => apply k_surface; split; vm_compute; discriminate
  | |- KindOf _ KIdentification => apply k_ident; split; vm_compute; discriminate
  | |- KindOf _ KVelocity => apply k_velocity; reflexivity
  | |- KindOf _ KStatus => apply k_status; reflexivity
  | |- KindOf _ KTarget => apply k_target; reflexivity
  | |- KindOf _ KOperational => apply k_operational; reflexivity
  | |- KindOf _ KType0 => apply k_type0; [reflexivity|vm_compute; discriminate]
  | |- KindOf _ KNoPosition => apply k_nopos; reflexivity
  | |- Altitude12 _ _ => vm_compute; reflexivity
  end.
Ltac ex := concrete; try kind.

Example any_bytes_example : (exists e, ReadADSBMessage 7 true true [1; 2] = Err e) /\
  (exists e, ReadADSBMessage 0 false false [0xFF; 0xFF; 0xFF; 0xFF; 0xFF; 0xFF; 0xFF] = Err e) /\
  exists m, ReadADSBMessage 2 true false me_airborne = Ok m.
Proof. ex. Qed.

Example kinds_example : exists m1 m2 m3,
  bytes me_surface /\ ReadADSBMessage 1 true false me_surface = Ok (ASurface m1) /\ KindOf me_surface KSurface /\
  bytes me_airborne /\ ReadADSBMessage 1 true false me_airborne = Ok (AAirborne m2) /\ KindOf me_airborne KAirborne /\
  bytes me_velocity /\ ReadADSBMessage 1 true false me_velocity = Ok (AVelocity m3) /\ KindOf me_velocity KVelocity.
Proof. ex. Qed.

Example airborne_example : bytes me_airborne /\ len me_airborne = 7 /\ KindOf me_airborne KAirborne /\ Altitude12 me_airborne 38000.
Proof. ex. Qed.

Example airborne_gillham_example : bytes me_gillham /\ len me_gillham = 7 /\ KindOf me_gillham KAirborne /\
  Altitude12 me_gillham 600 /\ exists m, ReadADSBMessage 0 false false me_gillham = Ok m.
Proof.
  ex. exists 18. vm_compute. repeat split; discriminate.
Qed.

Example bad_altitude_example : bytes me_bad_altitude /\ len me_bad_altitude = 7 /\ KindOf me_bad_altitude KAirborne /\
  (forall alt, ~ Altitude12 me_bad_altitude alt).
Proof.
  ex. intros alt (k & Hk & _ & H).
  assert (E : snd (gillham_pulses k) = 0).
  { rewrite <- H. reflexivity. }
  unfold gillham_pulses in E. cbn [snd] in E.
  assert (0 <= k mod 5 < 5) as Hr by (apply Z.mod_pos_bound; lia).
  set (r := k mod 5) in *.
  assert (F : forall s, 0 <= s < 5 -> c_pulses s <> 0).
  { intros s Hs. assert (s = 0 \/ s = 1 \/ s = 2 \/ s = 3 \/ s = 4) as [->|[->|[->|[->| ->]]]] by lia; vm_compute; discriminate. }
  destruct (Z.even (k / 5)); apply F in E; try lia; exact E.
Qed.

Example surface_example : bytes me_surface /\ len me_surface = 7 /\ KindOf me_surface KSurface /\
  bits 6 12 me_surface = 41 /\ bit 13 me_surface = true /\ ~ (bits 1 5 me_surface = 7 /\ true = false).
Proof. ex. intros [_ H]. discriminate. Qed.

Example identification_example : bytes me_identification /\ len me_identification = 7 /\ KindOf me_identification KIdentification /\
  bds08.AircraftIdentificationAndCategory_Identification (identification me_identification) = "KLM1023 "%string /\
  exists m, ReadADSBMessage 0 false false me_identification = Ok m /\ Message_CheckCoherency m = Ok tt.
Proof. ex. Qed.

Example velocity_example : bytes me_velocity /\ len me_velocity = 7 /\ KindOf me_velocity KVelocity /\ bits 6 8 me_velocity = 1 /\
  bytes me_airspeed /\ len me_airspeed = 7 /\ KindOf me_airspeed KVelocity /\ bits 6 8 me_airspeed = 3 /\
  exists m x, ReadADSBMessage 2 false false me_airspeed = Ok (AVelocity m) /\
    adsb_airborne_velocity.AirborneVelocity_AirborneVelocity m = bds09.IAirborneVelocity_AirborneVelocityAirSpeedNormal x /\
    bds09.AirborneVelocityAirSpeedNormal_Airspeed x = 375.
Proof. ex. Qed.

Example status_example : bytes me_emergency /\ len me_emergency = 7 /\ KindOf me_emergency KStatus /\ bits 6 8 me_emergency = 1 /\
  exists m x, ReadADSBMessage 2 false false me_emergency = Ok (AStatus m) /\
    adsb_aircraft_status.AircraftStatus_AircraftStatus m = bds61.IAircraftStatus_AircraftStatusEmergency x /\
    bds61.AircraftStatusEmergency_EmergencyPriorityStatus x = 1 /\ Message_CheckCoherency (AStatus m) = Ok tt.
Proof. ex. Qed.

Example target_example : bytes me_target /\ len me_target = 7 /\ KindOf me_target KTarget /\ bits 6 7 me_target = 1 /\
  bits 8 8 me_target = bits 9 9 me_target /\ bit 31 me_target = false /\
  exists m x, ReadADSBMessage 2 false false me_target = Ok (ATarget m) /\
    adsb_target_state_and_status.TargetStateAndStatus_TargetStateAndStatus m = bds62.ITargetStateAndStatus_TargetStateAndStatus1 x /\
    bds62.TargetStateAndStatus1_SelectedAltitude x = 16992.
Proof. ex. Qed.

Example operational_example : bytes me_operational /\ len me_operational = 7 /\ KindOf me_operational KOperational /\
  bits 6 8 me_operational = 0 /\ bits 41 43 me_operational = 2 /\
  exists m, ReadADSBMessage 0 false false me_operational = Ok m /\ Message_GetADSBVersion m = 2.
Proof. ex. Qed.

Example type0_example : bytes me_type0 /\ len me_type0 = 7 /\ KindOf me_type0 KType0 /\
  Altitude12 me_type0 31700 /\
  exists m, ReadADSBMessage 0 false false me_type0 = Ok m.
Proof. ex. Qed.

Example no_position_example : bytes me_no_position /\ len me_no_position = 7 /\ KindOf me_no_position KNoPosition /\
  Altitude12 me_no_position 19550 /\ exists m, ReadADSBMessage 0 false false me_no_position = Ok m.
Proof. ex. Qed.

Example bounds_example : exists m, bytes me_surface /\ len me_surface = 7 /\ KindOf me_surface KSurface /\
  ReadADSBMessage 0 false false me_surface = Ok (ASurface (adsb_surface_position.IMessage_SurfacePositionV0 m)) /\
  bits 1 5 me_surface = 7.
Proof. ex. Qed.

Example coherent_example : exists m m',
  bytes me_identification /\ ReadADSBMessage 0 false false me_identification = Ok m /\ Message_CheckCoherency m = Ok tt /\
  bytes [0x11; 0x50; 0x86; 0x73; 0xE1; 0x98; 0x2F] /\
  ReadADSBMessage 0 false false [0x11; 0x50; 0x86; 0x73; 0xE1; 0x98; 0x2F] = Ok m' /\
  exists e, Message_CheckCoherency m' = Err e.
Proof. ex. Qed.
