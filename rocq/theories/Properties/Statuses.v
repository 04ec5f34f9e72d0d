(* Property theorems: Statuses. Generated by tools/mkprops.py; proofs are in theories/Proofs. *)
From Verif Require Import GoBase Bits.
From Verif.Spec Require Import Altitude ModeS Crc Identification Floats Adsb Squitter Reply Payloads Statuses.
From Verif.Gen Require bds62 bds65 adsb_target_state_and_status adsb_aircraft_operational_status.
From Verif.Model Require Import Crc ModesReader AdsbReader.
From Verif.Proofs Require Statuses.
Local Open Scope Z_scope.

Theorem C99_operational_0_received_partial : forall v nicA nicC ca icao en_route terminal approach surface en_route_status terminal_status approach_status surface_status frame,
  Squitter ca icao (status_0 en_route terminal approach surface en_route_status terminal_status approach_status surface_status) frame ->
  exists m, received v nicA nicC frame icao (AOperational m) /\
    adsb_aircraft_operational_status.AircraftOperationalStatus_AircraftOperationalStatus m =
      bds65.IAircraftOperationalStatus_AircraftOperationalStatusADSB0 (told_0 en_route terminal approach surface en_route_status terminal_status approach_status surface_status) /\
    Message_GetADSBVersion (AOperational m) = 0.
Proof. exact Statuses.operational_0_received. Qed.
Print Assumptions C99_operational_0_received_partial.

Theorem C99_airborne_operational_1_received_partial : forall v nicA nicC ca icao not_acas cdti arv ts tc ra ident atc nic nacp sil baro hrd frame,
  Squitter ca icao (airborne_status_1 not_acas cdti arv ts tc ra ident atc nic nacp sil baro hrd) frame ->
  exists m, received v nicA nicC frame icao (AOperational m) /\
    adsb_aircraft_operational_status.AircraftOperationalStatus_AircraftOperationalStatus m =
      bds65.IAircraftOperationalStatus_AircraftOperationalStatusAirborneADSB1 (airborne_told_1 not_acas cdti arv ts tc ra ident atc nic nacp sil baro hrd) /\
    Message_GetADSBVersion (AOperational m) = 1.
Proof. exact Statuses.airborne_operational_1_received. Qed.
Print Assumptions C99_airborne_operational_1_received_partial.

Theorem C99_surface_operational_1_received_partial : forall v nicA nicC ca icao offset cdti b2low size ra ident atc nic nacp sil track hrd frame,
  Squitter ca icao (surface_status_1 offset cdti b2low size ra ident atc nic nacp sil track hrd) frame ->
  exists m, received v nicA nicC frame icao (AOperational m) /\
    adsb_aircraft_operational_status.AircraftOperationalStatus_AircraftOperationalStatus m =
      bds65.IAircraftOperationalStatus_AircraftOperationalStatusSurfaceADSB1 (surface_told_1 offset cdti b2low size ra ident atc nic nacp sil track hrd) /\
    Message_GetADSBVersion (AOperational m) = 1.
Proof. exact Statuses.surface_operational_1_received. Qed.
Print Assumptions C99_surface_operational_1_received_partial.

Theorem C99_airborne_operational_2_received_partial : forall v nicA nicC ca icao acas es_in arv ts tc uat ra ident antenna sda nic nacp gva sil baro hrd sils frame,
  Squitter ca icao (airborne_status_2 acas es_in arv ts tc uat ra ident antenna sda nic nacp gva sil baro hrd sils) frame ->
  exists m, received v nicA nicC frame icao (AOperational m) /\
    adsb_aircraft_operational_status.AircraftOperationalStatus_AircraftOperationalStatus m =
      bds65.IAircraftOperationalStatus_AircraftOperationalStatusAirborneADSB2 (airborne_told_2 acas es_in arv ts tc uat ra ident antenna sda nic nacp gva sil baro hrd sils) /\
    Message_GetADSBVersion (AOperational m) = 2.
Proof. exact Statuses.airborne_operational_2_received. Qed.
Print Assumptions C99_airborne_operational_2_received_partial.

Theorem C99_surface_operational_2_received_partial : forall v nicA nicC ca icao es_in b2low uat nacv nic_c size ra ident antenna sda lateral longitudinal nic nacp sil track hrd sils frame,
  Squitter ca icao (surface_status_2 es_in b2low uat nacv nic_c size ra ident antenna sda lateral longitudinal nic nacp sil track hrd sils) frame ->
  exists m, received v nicA nicC frame icao (AOperational m) /\
    adsb_aircraft_operational_status.AircraftOperationalStatus_AircraftOperationalStatus m =
      bds65.IAircraftOperationalStatus_AircraftOperationalStatusSurfaceADSB2 (surface_told_2 es_in b2low uat nacv nic_c size ra ident antenna sda lateral longitudinal nic nacp sil track hrd sils).
Proof. exact Statuses.surface_operational_2_received. Qed.
Print Assumptions C99_surface_operational_2_received_partial.

Theorem C99_surface_level_refuted : forall v nicA nicC ca icao es_in b2low uat nacv nic_c size ra ident antenna sda lateral longitudinal nic nacp sil track hrd sils frame,
  Squitter ca icao (surface_status_2 es_in b2low uat nacv nic_c size ra ident antenna sda lateral longitudinal nic nacp sil track hrd sils) frame ->
  exists m, received v nicA nicC frame icao (AOperational m) /\ Message_GetADSBVersion (AOperational m) = 1.
Proof. exact Statuses.surface_level_refuted. Qed.
Print Assumptions C99_surface_level_refuted.

Example C99_operational_2_example : exists frame, Squitter 5 0x400940 (airborne_status_2 1 1 1 1 0 0 0 0 0 2 1 9 2 3 1 0 0) frame.
Proof. exact Statuses.operational_2_example. Qed.
Print Assumptions C99_operational_2_example.

Theorem C100_target_1_received_partial : forall v nicA nicC ca icao vsource type capability vmode altitude hsource heading indicator hmode nacp baro sil codes emergency frame,
  -10 <= altitude <= 1000 -> 0 <= heading <= 359 ->
  Squitter ca icao (target_1 vsource type capability vmode altitude hsource heading indicator hmode nacp baro sil codes emergency) frame ->
  exists m h s, received v nicA nicC frame icao (ATarget m) /\
    adsb_target_state_and_status.TargetStateAndStatus_TargetStateAndStatus m =
      bds62.ITargetStateAndStatus_TargetStateAndStatus0
        (target_told_1 vsource type capability vmode altitude hsource h s indicator hmode nacp baro sil codes emergency) /\
    (heading mod 16 = ((altitude + 10) / 32) mod 16 -> h = heading /\ s = 1).
Proof. exact Statuses.target_1_received_partial. Qed.
Print Assumptions C100_target_1_received_partial.

Theorem C100_target_2_received_partial : forall v nicA nicC ca icao sils fms altitude pressure heading nacp baro sil modes autopilot vnav hold adapted approach tcas lnav frame,
  between 0 2046 altitude -> between 0 510 pressure -> between (-256) 255 heading ->
  Squitter ca icao (target_2 sils fms altitude pressure heading nacp baro sil modes autopilot vnav hold adapted approach tcas lnav) frame ->
  exists m f p h, received v nicA nicC frame icao (ATarget m) /\
    adsb_target_state_and_status.TargetStateAndStatus_TargetStateAndStatus m =
      bds62.ITargetStateAndStatus_TargetStateAndStatus1
        (target_told_2 sils f altitude (known pressure) p (known heading) h nacp baro sil modes autopilot vnav hold approach tcas lnav) /\
    (sils = fms -> f = fms) /\
    (pressure <> None -> is_close p ((800 # 1) + (4 # 5) * inject_Z (value pressure)) (1 # 10000)) /\
    (0 <= value heading -> is_value h (inject_Z (value heading) * (180 # 256))).
Proof. exact Statuses.target_2_received_partial. Qed.
Print Assumptions C100_target_2_received_partial.

Theorem C100_target_heading_refuted : exists a b m,
  Squitter 5 0x400940 (target_1 2 0 1 1 350 2 96 0 1 8 1 2 0 0) a /\
  Squitter 5 0x400940 (target_1 2 0 1 1 350 2 97 0 1 8 1 2 0 0) b /\
  received 1 false false a 0x400940 m /\ received 1 false false b 0x400940 m.
Proof. exact Statuses.target_heading_refuted. Qed.
Print Assumptions C100_target_heading_refuted.

Theorem C100_target_kind_refuted : exists a b m,
  Squitter 5 0x400940 (target_2 false false (Some 1000) None None 8 1 2 true true false true false false true false) a /\
  Squitter 5 0x400940 (target_2 false true (Some 1000) None None 8 1 2 true true false true false false true false) b /\
  received 2 false false a 0x400940 m /\ received 2 false false b 0x400940 m.
Proof. exact Statuses.target_kind_refuted. Qed.
Print Assumptions C100_target_kind_refuted.

Theorem C100_target_west_refuted : forall v nicA nicC ca icao sils fms altitude pressure heading nacp baro sil modes autopilot vnav hold adapted approach tcas lnav frame,
  -256 <= heading < 0 -> heading <> -128 ->
  Squitter ca icao (target_2 sils fms altitude pressure (Some heading) nacp baro sil modes autopilot vnav hold adapted approach tcas lnav) frame ->
  exists m x, received v nicA nicC frame icao (ATarget m) /\
    adsb_target_state_and_status.TargetStateAndStatus_TargetStateAndStatus m = bds62.ITargetStateAndStatus_TargetStateAndStatus1 x /\
    ~ is_value (bds62.TargetStateAndStatus1_SelectedHeading x) (inject_Z heading * (180 # 256)).
Proof. exact Statuses.target_west_refuted. Qed.
Print Assumptions C100_target_west_refuted.

Example C100_target_1_example : exists frame, Squitter 5 0x400940 (target_1 2 0 1 1 350 2 91 0 1 8 1 2 0 0) frame /\ 91 mod 16 = ((350 + 10) / 32) mod 16.
Proof. exact Statuses.target_1_example. Qed.
Print Assumptions C100_target_1_example.

Example C100_target_2_example : exists frame, Squitter 5 0x400940 (target_2 false false (Some 1187) (Some 267) (Some 128) 9 1 3 true true true false false false true true) frame.
Proof. exact Statuses.target_2_example. Qed.
Print Assumptions C100_target_2_example.
