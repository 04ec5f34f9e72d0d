(* C99, C100: the status of an aircraft, told as it was sent. *)
From Verif.Proofs Require Import Tac.
From Verif.Spec Require Import Floats Adsb AdsbMessages Identification Status Squitter Reply Payloads Statuses.
From Verif.Gen Require bds62 bds65 bds65_fields adsb_target_state_and_status adsb_aircraft_operational_status.
From Verif.Model Require Import Crc ModesReader AdsbReader.
From Verif.Proofs Require Import AdsbApi Squitter Registers Status62 Registers2.
Local Open Scope Z_scope.

Theorem operational_0_received : forall v nicA nicC ca icao en_route terminal approach surface en_route_status terminal_status approach_status surface_status frame,
  Squitter ca icao (status_0 en_route terminal approach surface en_route_status terminal_status approach_status surface_status) frame ->
  exists m, received v nicA nicC frame icao (AOperational m) /\
    adsb_aircraft_operational_status.AircraftOperationalStatus_AircraftOperationalStatus m =
      bds65.IAircraftOperationalStatus_AircraftOperationalStatusADSB0 (told_0 en_route terminal approach surface en_route_status terminal_status approach_status surface_status) /\
    Message_GetADSBVersion (AOperational m) = 0.
Proof.
  intros v nicA nicC ca icao en_route terminal approach surface en_route_status terminal_status approach_status surface_status frame S. pose proof S as (_ & F & _).
  set (fs := status_0 en_route terminal approach surface en_route_status terminal_status approach_status surface_status) in *. assert (W : width fs = 8 * 7) by reflexivity.
  assert (B1_5 : bits 1 5 (message fs) = 31) by (look 0%nat 1%nat; reflexivity).
  assert (B6_8 : bits 6 8 (message fs) = 0) by (look 1%nat 1%nat; reflexivity).
  assert (B9_12 : bits 9 12 (message fs) = en_route) by (look 2%nat 1%nat; reflexivity).
  assert (B13_16 : bits 13 16 (message fs) = terminal) by (look 3%nat 1%nat; reflexivity).
  assert (B17_20 : bits 17 20 (message fs) = approach) by (look 4%nat 1%nat; reflexivity).
  assert (B21_24 : bits 21 24 (message fs) = surface) by (look 5%nat 1%nat; reflexivity).
  assert (B25_28 : bits 25 28 (message fs) = en_route_status) by (look 6%nat 1%nat; reflexivity).
  assert (B29_32 : bits 29 32 (message fs) = terminal_status) by (look 7%nat 1%nat; reflexivity).
  assert (B33_36 : bits 33 36 (message fs) = approach_status) by (look 8%nat 1%nat; reflexivity).
  assert (B37_40 : bits 37 40 (message fs) = surface_status) by (look 9%nat 1%nat; reflexivity).
  assert (B41_56 : bits 41 56 (message fs) = 0) by (look 10%nat 1%nat; reflexivity).
  destruct (squitter_received _ _ _ _ S) as (Hb & Hl & d & R & C & E).
  assert (T : forall x, status_v0 (message fs) = x -> x = told_0 en_route terminal approach surface en_route_status terminal_status approach_status surface_status) by (intros x <-; unfold status_v0, operational_mode_v1; rewrite ?B1_5, ?B6_8, ?B9_12, ?B25_28, ?B13_16, ?B29_32, ?B17_20, ?B33_36, ?B21_24, ?B37_40; reflexivity).
  clear S F W. clearbody fs. generalize dependent (message fs). intros me; intros.
  assert (K : KindOf me KOperational) by (apply k_operational; exact B1_5).
  assert (M : OperationalOf me (bds65.IAircraftOperationalStatus_AircraftOperationalStatusADSB0 (status_v0 me))) by (apply op_v0; assumption).
  rewrite (T _ eq_refl) in M. apply (operational_message v nicA nicC me Hb Hl K) in M. destruct M as (l & M).
  eexists. split; [exists d; rewrite E; split; [exact R|]; split; [exact C|exact M]|].
  assert (B41_43 : bits 41 43 me = 0) by (apply (bits_of_zero 41 56); auto; lia). split; [reflexivity|].
  rewrite (operational_version_partial v nicA nicC me _ Hb Hl K) with (2 := M); [exact B41_43|]. rewrite B6_8, B41_43. lia.
Qed.

Theorem airborne_operational_1_received : forall v nicA nicC ca icao not_acas cdti arv ts tc ra ident atc nic nacp sil baro hrd frame,
  Squitter ca icao (airborne_status_1 not_acas cdti arv ts tc ra ident atc nic nacp sil baro hrd) frame ->
  exists m, received v nicA nicC frame icao (AOperational m) /\
    adsb_aircraft_operational_status.AircraftOperationalStatus_AircraftOperationalStatus m =
      bds65.IAircraftOperationalStatus_AircraftOperationalStatusAirborneADSB1 (airborne_told_1 not_acas cdti arv ts tc ra ident atc nic nacp sil baro hrd) /\
    Message_GetADSBVersion (AOperational m) = 1.
Proof.
  intros v nicA nicC ca icao not_acas cdti arv ts tc ra ident atc nic nacp sil baro hrd frame S. pose proof S as (_ & F & _).
  set (fs := airborne_status_1 not_acas cdti arv ts tc ra ident atc nic nacp sil baro hrd) in *. assert (W : width fs = 8 * 7) by reflexivity.
  assert (B1_5 : bits 1 5 (message fs) = 31) by (look 0%nat 1%nat; reflexivity).
  assert (B6_8 : bits 6 8 (message fs) = 0) by (look 1%nat 1%nat; reflexivity).
  assert (B9_10 : bits 9 10 (message fs) = 0) by (look 2%nat 1%nat; reflexivity).
  assert (B11_11 : bits 11 11 (message fs) = not_acas) by (look 3%nat 1%nat; reflexivity).
  assert (B12_12 : bits 12 12 (message fs) = cdti) by (look 4%nat 1%nat; reflexivity).
  assert (B13_14 : bits 13 14 (message fs) = 0) by (look 5%nat 1%nat; reflexivity).
  assert (B15_15 : bits 15 15 (message fs) = arv) by (look 6%nat 1%nat; reflexivity).
  assert (B16_16 : bits 16 16 (message fs) = ts) by (look 7%nat 1%nat; reflexivity).
  assert (B17_18 : bits 17 18 (message fs) = tc) by (look 8%nat 1%nat; reflexivity).
  assert (B25_26 : bits 25 26 (message fs) = 0) by (look 10%nat 1%nat; reflexivity).
  assert (B27_27 : bits 27 27 (message fs) = ra) by (look 11%nat 1%nat; reflexivity).
  assert (B28_28 : bits 28 28 (message fs) = ident) by (look 12%nat 1%nat; reflexivity).
  assert (B29_29 : bits 29 29 (message fs) = atc) by (look 13%nat 1%nat; reflexivity).
  assert (B41_43 : bits 41 43 (message fs) = 1) by (look 15%nat 1%nat; reflexivity).
  assert (B44_44 : bits 44 44 (message fs) = nic) by (look 16%nat 1%nat; reflexivity).
  assert (B45_48 : bits 45 48 (message fs) = nacp) by (look 17%nat 1%nat; reflexivity).
  assert (B49_50 : bits 49 50 (message fs) = 0) by (look 18%nat 1%nat; reflexivity).
  assert (B51_52 : bits 51 52 (message fs) = sil) by (look 19%nat 1%nat; reflexivity).
  assert (B53_53 : bits 53 53 (message fs) = baro) by (look 20%nat 1%nat; reflexivity).
  assert (B54_54 : bits 54 54 (message fs) = hrd) by (look 21%nat 1%nat; reflexivity).
  assert (B55_56 : bits 55 56 (message fs) = 0) by (look 22%nat 1%nat; reflexivity).
  destruct (squitter_received _ _ _ _ S) as (Hb & Hl & d & R & C & E).
  assert (T : forall x, airborne_v1 (message fs) = x -> x = airborne_told_1 not_acas cdti arv ts tc ra ident atc nic nacp sil baro hrd) by (intros x <-; unfold airborne_v1, operational_mode_v1; rewrite ?B1_5, ?B6_8, ?B11_11, ?B12_12, ?B15_15, ?B16_16, ?B17_18, ?B27_27, ?B28_28, ?B29_29, ?B41_43, ?B44_44, ?B45_48, ?B51_52, ?B53_53, ?B54_54; reflexivity).
  clear S F W. clearbody fs. generalize dependent (message fs). intros me; intros.
  assert (K : KindOf me KOperational) by (apply k_operational; exact B1_5).
  assert (M : OperationalOf me (bds65.IAircraftOperationalStatus_AircraftOperationalStatusAirborneADSB1 (airborne_v1 me))) by (apply op_airborne_v1; assumption).
  rewrite (T _ eq_refl) in M. apply (operational_message v nicA nicC me Hb Hl K) in M. destruct M as (l & M).
  eexists. split; [exists d; rewrite E; split; [exact R|]; split; [exact C|exact M]|]. split; [reflexivity|].
  rewrite (operational_version_partial v nicA nicC me _ Hb Hl K) with (2 := M); [exact B41_43|]. rewrite B6_8, B41_43. lia.
Qed.

Theorem surface_operational_1_received : forall v nicA nicC ca icao offset cdti b2low size ra ident atc nic nacp sil track hrd frame,
  Squitter ca icao (surface_status_1 offset cdti b2low size ra ident atc nic nacp sil track hrd) frame ->
  exists m, received v nicA nicC frame icao (AOperational m) /\
    adsb_aircraft_operational_status.AircraftOperationalStatus_AircraftOperationalStatus m =
      bds65.IAircraftOperationalStatus_AircraftOperationalStatusSurfaceADSB1 (surface_told_1 offset cdti b2low size ra ident atc nic nacp sil track hrd) /\
    Message_GetADSBVersion (AOperational m) = 1.
Proof.
  intros v nicA nicC ca icao offset cdti b2low size ra ident atc nic nacp sil track hrd frame S. pose proof S as (_ & F & _).
  set (fs := surface_status_1 offset cdti b2low size ra ident atc nic nacp sil track hrd) in *. assert (W : width fs = 8 * 7) by reflexivity.
  assert (B1_5 : bits 1 5 (message fs) = 31) by (look 0%nat 1%nat; reflexivity).
  assert (B6_8 : bits 6 8 (message fs) = 1) by (look 1%nat 1%nat; reflexivity).
  assert (B9_10 : bits 9 10 (message fs) = 0) by (look 2%nat 1%nat; reflexivity).
  assert (B11_11 : bits 11 11 (message fs) = offset) by (look 3%nat 1%nat; reflexivity).
  assert (B12_12 : bits 12 12 (message fs) = cdti) by (look 4%nat 1%nat; reflexivity).
  assert (B13_14 : bits 13 14 (message fs) = 0) by (look 5%nat 1%nat; reflexivity).
  assert (B15_15 : bits 15 15 (message fs) = b2low) by (look 6%nat 1%nat; reflexivity).
  assert (B21_24 : bits 21 24 (message fs) = size) by (look 8%nat 1%nat; reflexivity).
  assert (B25_26 : bits 25 26 (message fs) = 0) by (look 9%nat 1%nat; reflexivity).
  assert (B27_27 : bits 27 27 (message fs) = ra) by (look 10%nat 1%nat; reflexivity).
  assert (B28_28 : bits 28 28 (message fs) = ident) by (look 11%nat 1%nat; reflexivity).
  assert (B29_29 : bits 29 29 (message fs) = atc) by (look 12%nat 1%nat; reflexivity).
  assert (B41_43 : bits 41 43 (message fs) = 1) by (look 14%nat 1%nat; reflexivity).
  assert (B44_44 : bits 44 44 (message fs) = nic) by (look 15%nat 1%nat; reflexivity).
  assert (B45_48 : bits 45 48 (message fs) = nacp) by (look 16%nat 1%nat; reflexivity).
  assert (B49_50 : bits 49 50 (message fs) = 0) by (look 17%nat 1%nat; reflexivity).
  assert (B51_52 : bits 51 52 (message fs) = sil) by (look 18%nat 1%nat; reflexivity).
  assert (B53_53 : bits 53 53 (message fs) = track) by (look 19%nat 1%nat; reflexivity).
  assert (B54_54 : bits 54 54 (message fs) = hrd) by (look 20%nat 1%nat; reflexivity).
  assert (B55_56 : bits 55 56 (message fs) = 0) by (look 21%nat 1%nat; reflexivity).
  destruct (squitter_received _ _ _ _ S) as (Hb & Hl & d & R & C & E).
  assert (T : forall x, surface_v1 (message fs) = x -> x = surface_told_1 offset cdti b2low size ra ident atc nic nacp sil track hrd) by (intros x <-; unfold surface_v1, operational_mode_v1; rewrite ?B1_5, ?B6_8, ?B11_11, ?B12_12, ?B15_15, ?B21_24, ?B27_27, ?B28_28, ?B29_29, ?B41_43, ?B44_44, ?B45_48, ?B51_52, ?B53_53, ?B54_54; reflexivity).
  clear S F W. clearbody fs. generalize dependent (message fs). intros me; intros.
  assert (K : KindOf me KOperational) by (apply k_operational; exact B1_5).
  assert (M : OperationalOf me (bds65.IAircraftOperationalStatus_AircraftOperationalStatusSurfaceADSB1 (surface_v1 me))) by (apply op_surface_v1; assumption).
  rewrite (T _ eq_refl) in M. apply (operational_message v nicA nicC me Hb Hl K) in M. destruct M as (l & M).
  eexists. split; [exists d; rewrite E; split; [exact R|]; split; [exact C|exact M]|]. split; [reflexivity|].
  rewrite (operational_version_partial v nicA nicC me _ Hb Hl K) with (2 := M); [exact B41_43|]. rewrite B6_8, B41_43. lia.
Qed.

Theorem airborne_operational_2_received : forall v nicA nicC ca icao acas es_in arv ts tc uat ra ident antenna sda nic nacp gva sil baro hrd sils frame,
  Squitter ca icao (airborne_status_2 acas es_in arv ts tc uat ra ident antenna sda nic nacp gva sil baro hrd sils) frame ->
  exists m, received v nicA nicC frame icao (AOperational m) /\
    adsb_aircraft_operational_status.AircraftOperationalStatus_AircraftOperationalStatus m =
      bds65.IAircraftOperationalStatus_AircraftOperationalStatusAirborneADSB2 (airborne_told_2 acas es_in arv ts tc uat ra ident antenna sda nic nacp gva sil baro hrd sils) /\
    Message_GetADSBVersion (AOperational m) = 2.
Proof.
  intros v nicA nicC ca icao acas es_in arv ts tc uat ra ident antenna sda nic nacp gva sil baro hrd sils frame S. pose proof S as (_ & F & _).
  set (fs := airborne_status_2 acas es_in arv ts tc uat ra ident antenna sda nic nacp gva sil baro hrd sils) in *. assert (W : width fs = 8 * 7) by reflexivity.
  assert (B1_5 : bits 1 5 (message fs) = 31) by (look 0%nat 1%nat; reflexivity).
  assert (B6_8 : bits 6 8 (message fs) = 0) by (look 1%nat 1%nat; reflexivity).
  assert (B9_10 : bits 9 10 (message fs) = 0) by (look 2%nat 1%nat; reflexivity).
  assert (B11_11 : bits 11 11 (message fs) = acas) by (look 3%nat 1%nat; reflexivity).
  assert (B12_12 : bits 12 12 (message fs) = es_in) by (look 4%nat 1%nat; reflexivity).
  assert (B15_15 : bits 15 15 (message fs) = arv) by (look 6%nat 1%nat; reflexivity).
  assert (B16_16 : bits 16 16 (message fs) = ts) by (look 7%nat 1%nat; reflexivity).
  assert (B17_18 : bits 17 18 (message fs) = tc) by (look 8%nat 1%nat; reflexivity).
  assert (B19_19 : bits 19 19 (message fs) = uat) by (look 9%nat 1%nat; reflexivity).
  assert (B25_26 : bits 25 26 (message fs) = 0) by (look 11%nat 1%nat; reflexivity).
  assert (B27_27 : bits 27 27 (message fs) = ra) by (look 12%nat 1%nat; reflexivity).
  assert (B28_28 : bits 28 28 (message fs) = ident) by (look 13%nat 1%nat; reflexivity).
  assert (B30_30 : bits 30 30 (message fs) = antenna) by (look 15%nat 1%nat; reflexivity).
  assert (B31_32 : bits 31 32 (message fs) = sda) by (look 16%nat 1%nat; reflexivity).
  assert (B41_43 : bits 41 43 (message fs) = 2) by (look 18%nat 1%nat; reflexivity).
  assert (B44_44 : bits 44 44 (message fs) = nic) by (look 19%nat 1%nat; reflexivity).
  assert (B45_48 : bits 45 48 (message fs) = nacp) by (look 20%nat 1%nat; reflexivity).
  assert (B49_50 : bits 49 50 (message fs) = gva) by (look 21%nat 1%nat; reflexivity).
  assert (B51_52 : bits 51 52 (message fs) = sil) by (look 22%nat 1%nat; reflexivity).
  assert (B53_53 : bits 53 53 (message fs) = baro) by (look 23%nat 1%nat; reflexivity).
  assert (B54_54 : bits 54 54 (message fs) = hrd) by (look 24%nat 1%nat; reflexivity).
  assert (B55_55 : bits 55 55 (message fs) = sils) by (look 25%nat 1%nat; reflexivity).
  assert (B56_56 : bits 56 56 (message fs) = 0) by (look 26%nat 1%nat; reflexivity).
  destruct (squitter_received _ _ _ _ S) as (Hb & Hl & d & R & C & E).
  assert (T : forall x, airborne_v2 (message fs) = x -> x = airborne_told_2 acas es_in arv ts tc uat ra ident antenna sda nic nacp gva sil baro hrd sils) by (intros x <-; unfold airborne_v2, operational_mode_v1; rewrite ?B1_5, ?B6_8, ?B11_11, ?B12_12, ?B15_15, ?B16_16, ?B17_18, ?B19_19, ?B27_27, ?B28_28, ?B30_30, ?B31_32, ?B41_43, ?B44_44, ?B45_48, ?B49_50, ?B51_52, ?B53_53, ?B54_54, ?B55_55; reflexivity).
  clear S F W. clearbody fs. generalize dependent (message fs). intros me; intros.
  assert (K : KindOf me KOperational) by (apply k_operational; exact B1_5).
  assert (M : OperationalOf me (bds65.IAircraftOperationalStatus_AircraftOperationalStatusAirborneADSB2 (airborne_v2 me))) by (apply op_airborne_v2; assumption).
  rewrite (T _ eq_refl) in M. apply (operational_message v nicA nicC me Hb Hl K) in M. destruct M as (l & M).
  eexists. split; [exists d; rewrite E; split; [exact R|]; split; [exact C|exact M]|]. split; [reflexivity|].
  rewrite (operational_version_partial v nicA nicC me _ Hb Hl K) with (2 := M); [exact B41_43|]. rewrite B6_8, B41_43. lia.
Qed.

Theorem surface_operational_2_received : forall v nicA nicC ca icao es_in b2low uat nacv nic_c size ra ident antenna sda lateral longitudinal nic nacp sil track hrd sils frame,
  Squitter ca icao (surface_status_2 es_in b2low uat nacv nic_c size ra ident antenna sda lateral longitudinal nic nacp sil track hrd sils) frame ->
  exists m, received v nicA nicC frame icao (AOperational m) /\
    adsb_aircraft_operational_status.AircraftOperationalStatus_AircraftOperationalStatus m =
      bds65.IAircraftOperationalStatus_AircraftOperationalStatusSurfaceADSB2 (surface_told_2 es_in b2low uat nacv nic_c size ra ident antenna sda lateral longitudinal nic nacp sil track hrd sils).
Proof.
  intros v nicA nicC ca icao es_in b2low uat nacv nic_c size ra ident antenna sda lateral longitudinal nic nacp sil track hrd sils frame S. pose proof S as (_ & F & _).
  set (fs := surface_status_2 es_in b2low uat nacv nic_c size ra ident antenna sda lateral longitudinal nic nacp sil track hrd sils) in *. assert (W : width fs = 8 * 7) by reflexivity.
  assert (B1_5 : bits 1 5 (message fs) = 31) by (look 0%nat 1%nat; reflexivity).
  assert (B6_8 : bits 6 8 (message fs) = 1) by (look 1%nat 1%nat; reflexivity).
  assert (B9_10 : bits 9 10 (message fs) = 0) by (look 2%nat 1%nat; reflexivity).
  assert (B12_12 : bits 12 12 (message fs) = es_in) by (look 4%nat 1%nat; reflexivity).
  assert (B15_15 : bits 15 15 (message fs) = b2low) by (look 6%nat 1%nat; reflexivity).
  assert (B16_16 : bits 16 16 (message fs) = uat) by (look 7%nat 1%nat; reflexivity).
  assert (B17_19 : bits 17 19 (message fs) = nacv) by (look 8%nat 1%nat; reflexivity).
  assert (B20_20 : bits 20 20 (message fs) = nic_c) by (look 9%nat 1%nat; reflexivity).
  assert (B21_24 : bits 21 24 (message fs) = size) by (look 10%nat 1%nat; reflexivity).
  assert (B25_26 : bits 25 26 (message fs) = 0) by (look 11%nat 1%nat; reflexivity).
  assert (B27_27 : bits 27 27 (message fs) = ra) by (look 12%nat 1%nat; reflexivity).
  assert (B28_28 : bits 28 28 (message fs) = ident) by (look 13%nat 1%nat; reflexivity).
  assert (B30_30 : bits 30 30 (message fs) = antenna) by (look 15%nat 1%nat; reflexivity).
  assert (B31_32 : bits 31 32 (message fs) = sda) by (look 16%nat 1%nat; reflexivity).
  assert (B33_35 : bits 33 35 (message fs) = lateral) by (look 17%nat 1%nat; reflexivity).
  assert (B36_40 : bits 36 40 (message fs) = longitudinal) by (look 18%nat 1%nat; reflexivity).
  assert (B41_43 : bits 41 43 (message fs) = 2) by (look 19%nat 1%nat; reflexivity).
  assert (B44_44 : bits 44 44 (message fs) = nic) by (look 20%nat 1%nat; reflexivity).
  assert (B45_48 : bits 45 48 (message fs) = nacp) by (look 21%nat 1%nat; reflexivity).
  assert (B51_52 : bits 51 52 (message fs) = sil) by (look 23%nat 1%nat; reflexivity).
  assert (B53_53 : bits 53 53 (message fs) = track) by (look 24%nat 1%nat; reflexivity).
  assert (B54_54 : bits 54 54 (message fs) = hrd) by (look 25%nat 1%nat; reflexivity).
  assert (B55_55 : bits 55 55 (message fs) = sils) by (look 26%nat 1%nat; reflexivity).
  assert (B56_56 : bits 56 56 (message fs) = 0) by (look 27%nat 1%nat; reflexivity).
  destruct (squitter_received _ _ _ _ S) as (Hb & Hl & d & R & C & E).
  assert (T : forall x, surface_v2 (message fs) = x -> x = surface_told_2 es_in b2low uat nacv nic_c size ra ident antenna sda lateral longitudinal nic nacp sil track hrd sils) by (intros x <-; unfold surface_v2, operational_mode_v1; rewrite ?B1_5, ?B6_8, ?B12_12, ?B15_15, ?B16_16, ?B17_19, ?B20_20, ?B21_24, ?B27_27, ?B28_28, ?B30_30, ?B31_32, ?B33_35, ?B36_40, ?B41_43, ?B44_44, ?B45_48, ?B51_52, ?B53_53, ?B54_54, ?B55_55; reflexivity).
  clear S F W. clearbody fs. generalize dependent (message fs). intros me; intros.
  assert (K : KindOf me KOperational) by (apply k_operational; exact B1_5).
  assert (M : OperationalOf me (bds65.IAircraftOperationalStatus_AircraftOperationalStatusSurfaceADSB2 (surface_v2 me))) by (apply op_surface_v2; assumption).
  rewrite (T _ eq_refl) in M. apply (operational_message v nicA nicC me Hb Hl K) in M. destruct M as (l & M).
  eexists. split; [exists d; rewrite E; split; [exact R|]; split; [exact C|exact M]|]. reflexivity.
Qed.

(* ---- target state ---- *)
Theorem target_1_received_partial : forall v nicA nicC ca icao vsource type capability vmode altitude hsource heading indicator hmode nacp baro sil codes emergency frame,
  -10 <= altitude <= 1000 -> 0 <= heading <= 359 ->
  Squitter ca icao (target_1 vsource type capability vmode altitude hsource heading indicator hmode nacp baro sil codes emergency) frame ->
  exists m h s, received v nicA nicC frame icao (ATarget m) /\
    adsb_target_state_and_status.TargetStateAndStatus_TargetStateAndStatus m =
      bds62.ITargetStateAndStatus_TargetStateAndStatus0
        (target_told_1 vsource type capability vmode altitude hsource h s indicator hmode nacp baro sil codes emergency) /\
    (heading mod 16 = ((altitude + 10) / 32) mod 16 -> h = heading /\ s = 1).
Proof.
  intros v nicA nicC ca icao vsource type capability vmode altitude hsource heading indicator hmode nacp baro sil codes emergency frame Ha Hh S.
  pose proof S as (_ & F & _).
  set (fs := target_1 vsource type capability vmode altitude hsource heading indicator hmode nacp baro sil codes emergency) in *.
  assert (W : width fs = 8 * 7) by reflexivity.
  assert (B1 : bits 1 5 (message fs) = 29) by (look 0%nat 1%nat; reflexivity).
  assert (B6 : bits 6 7 (message fs) = 0) by (look 1%nat 1%nat; reflexivity).
  assert (B8 : bits 8 9 (message fs) = vsource) by (look 2%nat 1%nat; reflexivity).
  assert (B10 : bits 10 10 (message fs) = type) by (look 3%nat 1%nat; reflexivity).
  assert (B12 : bits 12 13 (message fs) = capability) by (look 5%nat 1%nat; reflexivity).
  assert (B14 : bits 14 15 (message fs) = vmode) by (look 6%nat 1%nat; reflexivity).
  assert (B16 : bits 16 25 (message fs) = altitude + 10) by (look 7%nat 1%nat; reflexivity).
  assert (B26 : bits 26 27 (message fs) = hsource) by (look 8%nat 1%nat; reflexivity).
  assert (B28 : bits 28 36 (message fs) = heading) by (look 9%nat 1%nat; reflexivity).
  assert (B37 : bits 37 37 (message fs) = indicator) by (look 10%nat 1%nat; reflexivity).
  assert (B38 : bits 38 39 (message fs) = hmode) by (look 11%nat 1%nat; reflexivity).
  assert (B40 : bits 40 43 (message fs) = nacp) by (look 12%nat 1%nat; reflexivity).
  assert (B44 : bits 44 44 (message fs) = baro) by (look 13%nat 1%nat; reflexivity).
  assert (B45 : bits 45 46 (message fs) = sil) by (look 14%nat 1%nat; reflexivity).
  assert (B47 : bits 47 51 (message fs) = 0) by (look 15%nat 1%nat; reflexivity).
  assert (B52 : bits 52 53 (message fs) = codes) by (look 16%nat 1%nat; reflexivity).
  assert (B54 : bits 54 56 (message fs) = emergency) by (look 17%nat 1%nat; reflexivity).
  destruct (squitter_received _ _ _ _ S) as (Hb & Hl & d & R & C & E).
  clear S F W. clearbody fs. generalize dependent (message fs). intros me; intros.
  assert (K : KindOf me KTarget) by (apply k_target; exact B1).
  assert (E1 : bits 28 36 me = bits 28 32 me * 16 + bits 33 36 me)
    by (clear - Hb Hl; split_list me Hl; match type of Hb with bytes ?l => bveq l Hb end).
  assert (E2 : bits 16 25 me = bits 16 16 me * 512 + bits 17 20 me * 32 + bits 21 25 me)
    by (clear - Hb Hl; split_list me Hl; match type of Hb with bytes ?l => bveq l Hb end).
  assert (E3 : bits 47 48 me = 0) by (apply (bits_of_zero 47 51); auto; lia).
  assert (E4 : bits 49 51 me = 0) by (apply (bits_of_zero 47 51); auto; lia).
  pose proof (read_bds62_0 me Hb Hl B1 B6) as M. cbv zeta in M. rewrite E3, E4 in M. cbn [Z.eqb] in M.
  eexists. eexists. eexists. split; [exists d; rewrite E; split; [exact R|]; split; [exact C|]|].
  { rewrite (read_target v nicA nicC me Hb Hl K), M. reflexivity. }
  split.
  { cbn [adsb_target_state_and_status.TargetStateAndStatus_TargetStateAndStatus]. f_equal. unfold target_state_0, target_told_1.
    rewrite B1, B6, B8, B10, B12, B14, B16, B26, B37, B38, B40, B44, B45, B52, B54. rewrite (proj2 (Z.leb_le _ _)) by lia.
    replace (100 * (altitude + 10) - 1000) with (100 * altitude) by lia. reflexivity. }
  intros X. bits_bound 33 36 me. bits_bound 17 20 me. bits_bound 21 25 me. bits_bound 16 16 me.
  assert (E5 : bits 17 20 me = bits 33 36 me).
  { replace (bits 33 36 me) with (heading mod 16). 2: { rewrite <- B28, E1, Z.add_comm, Z.mod_add by lia. apply Z.mod_small. lia. }
    rewrite X. rewrite <- B16, E2. replace (bits 16 16 me * 512 + bits 17 20 me * 32 + bits 21 25 me) with (bits 21 25 me + (bits 17 20 me + bits 16 16 me * 16) * 32) by lia.
    rewrite Z.div_add, (Z.div_small (bits 21 25 me)), Z.add_0_l, Z.mod_add by lia. symmetry. apply Z.mod_small. lia. }
  replace (16 * bits 28 32 me + bits 17 20 me) with heading by lia. unfold target_heading. rewrite (proj2 (Z.leb_le _ _)) by lia. split; reflexivity.
Qed.

Theorem target_2_received_partial : forall v nicA nicC ca icao sils fms altitude pressure heading nacp baro sil modes autopilot vnav hold adapted approach tcas lnav frame,
  between 0 2046 altitude -> between 0 510 pressure -> between (-256) 255 heading ->
  Squitter ca icao (target_2 sils fms altitude pressure heading nacp baro sil modes autopilot vnav hold adapted approach tcas lnav) frame ->
  exists m f p h, received v nicA nicC frame icao (ATarget m) /\
    adsb_target_state_and_status.TargetStateAndStatus_TargetStateAndStatus m =
      bds62.ITargetStateAndStatus_TargetStateAndStatus1
        (target_told_2 sils f altitude (known pressure) p (known heading) h nacp baro sil modes autopilot vnav hold approach tcas lnav) /\
    (sils = fms -> f = fms) /\
    (pressure <> None -> is_close p ((800 # 1) + (4 # 5) * inject_Z (value pressure)) (1 # 10000)) /\
    (0 <= value heading -> is_value h (inject_Z (value heading) * (180 # 256))).
Proof.
  intros v nicA nicC ca icao sils fms altitude pressure heading nacp baro sil modes autopilot vnav hold adapted approach tcas lnav frame Ha Hp Hh S.
  pose proof S as (_ & F & _).
  set (fs := target_2 sils fms altitude pressure heading nacp baro sil modes autopilot vnav hold adapted approach tcas lnav) in *.
  assert (W : width fs = 8 * 7) by reflexivity.
  assert (B1 : bits 1 5 (message fs) = 29) by (look 0%nat 1%nat; reflexivity).
  assert (B6 : bits 6 7 (message fs) = 1) by (look 1%nat 1%nat; reflexivity).
  assert (B8 : bits 8 8 (message fs) = flag sils) by (look 2%nat 1%nat; reflexivity).
  assert (B9 : bits 9 9 (message fs) = flag fms) by (look 3%nat 1%nat; reflexivity).
  assert (B10 : bits 10 20 (message fs) = match altitude with Some z => z + 1 | None => 0 end) by (look 4%nat 1%nat; reflexivity).
  assert (B21 : bits 21 29 (message fs) = match pressure with Some z => z + 1 | None => 0 end) by (look 5%nat 1%nat; reflexivity).
  assert (B30 : bits 30 30 (message fs) = flag (known heading)) by (look 6%nat 1%nat; reflexivity).
  assert (B31 : bits 31 31 (message fs) = flag (value heading <? 0)) by (look 7%nat 1%nat; reflexivity).
  assert (B32 : bits 32 39 (message fs) = value heading mod 2 ^ 8) by (look 8%nat 1%nat; reflexivity).
  assert (B40 : bits 40 43 (message fs) = nacp) by (look 9%nat 1%nat; reflexivity).
  assert (B44 : bits 44 44 (message fs) = baro) by (look 10%nat 1%nat; reflexivity).
  assert (B45 : bits 45 46 (message fs) = sil) by (look 11%nat 1%nat; reflexivity).
  assert (B47 : bits 47 47 (message fs) = flag modes) by (look 12%nat 1%nat; reflexivity).
  assert (B48 : bits 48 48 (message fs) = flag autopilot) by (look 13%nat 1%nat; reflexivity).
  assert (B49 : bits 49 49 (message fs) = flag vnav) by (look 14%nat 1%nat; reflexivity).
  assert (B50 : bits 50 50 (message fs) = flag hold) by (look 15%nat 1%nat; reflexivity).
  assert (B52 : bits 52 52 (message fs) = flag approach) by (look 17%nat 1%nat; reflexivity).
  assert (B53 : bits 53 53 (message fs) = flag tcas) by (look 18%nat 1%nat; reflexivity).
  assert (B54 : bits 54 54 (message fs) = flag lnav) by (look 19%nat 1%nat; reflexivity).
  destruct (squitter_received _ _ _ _ S) as (Hb & Hl & d & R & C & E).
  clear S F W. clearbody fs. generalize dependent (message fs). intros me; intros.
  assert (K : KindOf me KTarget) by (apply k_target; exact B1).
  pose proof (read_bds62_1 me Hb Hl B1 B6) as M.
  bits_bound 10 20 me. bits_bound 21 29 me. bits_bound 32 39 me.
  apply between_value in Hh; [|lia].
  eexists. exists sils, (code_pressure (bits 21 29 me)), ((if bit 31 me then code_neg_heading else code_heading) (bits 32 39 me)). split; [exists d; rewrite E; split; [exact R|]; split; [exact C|]|].
  { rewrite (read_target v nicA nicC me Hb Hl K), M. reflexivity. }
  split.
  { cbn [adsb_target_state_and_status.TargetStateAndStatus_TargetStateAndStatus]. f_equal. unfold target_state_1, target_told_2.
    set (P := code_pressure _). set (H := _ (bits 32 39 me)). unfold bit. rewrite B1, B6, B8, B10, B21, B30, B40, B44, B45, B47, B48, B49, B50, B52, B53, B54, !flag_test.
    assert (A1 : (match altitude with Some z => z + 1 | None => 0 end =? 0) = negb (known altitude)) by (destruct altitude; cbn in *; [apply Z.eqb_neq; lia|reflexivity]).
    assert (A2 : (match pressure with Some z => z + 1 | None => 0 end =? 0) = negb (known pressure)) by (destruct pressure; cbn in *; [apply Z.eqb_neq; lia|reflexivity]).
    rewrite A1, A2. destruct altitude as [z|], pressure as [y|]; cbn [known negb value]; rewrite ?Z.add_simpl_r; reflexivity. }
  split; [auto|]. split.
  - intros N. destruct pressure as [y|]; [|congruence]. rewrite B21. cbn [between value] in *. pose proof (pressure_ok (y + 1) ltac:(lia)) as Q.
    unfold pressure_hpa in Q. rewrite (proj2 (Z.eqb_neq _ _)), Z.add_simpl_r in Q by lia. exact Q.
  - intros N. unfold bit. rewrite B31, B32, flag_test. rewrite (proj2 (Z.ltb_ge _ _)) by lia. rewrite Z.mod_small by (cbn; lia).
    apply heading_ok. lia.
Qed.

(* two squitters with different headings are told alike, and so are two with different kinds of selected altitude; a heading
   to the west is told wrong *)
Theorem target_heading_refuted : exists a b m,
  Squitter 5 0x400940 (target_1 2 0 1 1 350 2 96 0 1 8 1 2 0 0) a /\
  Squitter 5 0x400940 (target_1 2 0 1 1 350 2 97 0 1 8 1 2 0 0) b /\
  received 1 false false a 0x400940 m /\ received 1 false false b 0x400940 m.
Proof.
  assert (Fh : fits (header 5 0x400940)) by (unfold fits; repeat (constructor; [cbn; lia|]); constructor).
  assert (Fa : fits (target_1 2 0 1 1 350 2 96 0 1 8 1 2 0 0)) by (unfold fits; repeat (constructor; [cbn; lia|]); constructor).
  assert (Fb : fits (target_1 2 0 1 1 350 2 97 0 1 8 1 2 0 0)) by (unfold fits; repeat (constructor; [cbn; lia|]); constructor).
  destruct (squitter_exists 5 0x400940 _ Fh Fa eq_refl) as (a & Sa).
  destruct (squitter_exists 5 0x400940 _ Fh Fb eq_refl) as (b & Sb).
  destruct (squitter_received _ _ _ _ Sa) as (_ & _ & d & R & C & E).
  destruct (squitter_received _ _ _ _ Sb) as (_ & _ & d' & R' & C' & E').
  destruct (ReadADSBMessage 1 false false (message (target_1 2 0 1 1 350 2 96 0 1 8 1 2 0 0))) as [m| |] eqn:M; try (vm_compute in M; discriminate M).
  exists a, b, m. split; [exact Sa|]. split; [exact Sb|]. split.
  - exists d. split; [exact R|]. split; [exact C|]. rewrite E. exact M.
  - exists d'. split; [exact R'|]. split; [exact C'|]. rewrite E', <- M. vm_compute. reflexivity.
Qed.

Theorem target_kind_refuted : exists a b m,
  Squitter 5 0x400940 (target_2 false false (Some 1000) None None 8 1 2 true true false true false false true false) a /\
  Squitter 5 0x400940 (target_2 false true (Some 1000) None None 8 1 2 true true false true false false true false) b /\
  received 2 false false a 0x400940 m /\ received 2 false false b 0x400940 m.
Proof.
  assert (Fh : fits (header 5 0x400940)) by (unfold fits; repeat (constructor; [cbn; lia|]); constructor).
  assert (Fa : fits (target_2 false false (Some 1000) None None 8 1 2 true true false true false false true false)) by (unfold fits; repeat (constructor; [cbn; lia|]); constructor).
  assert (Fb : fits (target_2 false true (Some 1000) None None 8 1 2 true true false true false false true false)) by (unfold fits; repeat (constructor; [cbn; lia|]); constructor).
  destruct (squitter_exists 5 0x400940 _ Fh Fa eq_refl) as (a & Sa).
  destruct (squitter_exists 5 0x400940 _ Fh Fb eq_refl) as (b & Sb).
  destruct (squitter_received _ _ _ _ Sa) as (_ & _ & d & R & C & E).
  destruct (squitter_received _ _ _ _ Sb) as (_ & _ & d' & R' & C' & E').
  destruct (ReadADSBMessage 2 false false (message (target_2 false false (Some 1000) None None 8 1 2 true true false true false false true false))) as [m| |] eqn:M; try (vm_compute in M; discriminate M).
  exists a, b, m. split; [exact Sa|]. split; [exact Sb|]. split.
  - exists d. split; [exact R|]. split; [exact C|]. rewrite E. exact M.
  - exists d'. split; [exact R'|]. split; [exact C'|]. rewrite E', <- M. vm_compute. reflexivity.
Qed.

Theorem target_west_refuted : forall v nicA nicC ca icao sils fms altitude pressure heading nacp baro sil modes autopilot vnav hold adapted approach tcas lnav frame,
  -256 <= heading < 0 -> heading <> -128 ->
  Squitter ca icao (target_2 sils fms altitude pressure (Some heading) nacp baro sil modes autopilot vnav hold adapted approach tcas lnav) frame ->
  exists m x, received v nicA nicC frame icao (ATarget m) /\
    adsb_target_state_and_status.TargetStateAndStatus_TargetStateAndStatus m = bds62.ITargetStateAndStatus_TargetStateAndStatus1 x /\
    ~ is_value (bds62.TargetStateAndStatus1_SelectedHeading x) (inject_Z heading * (180 # 256)).
Proof.
  intros v nicA nicC ca icao sils fms altitude pressure heading nacp baro sil modes autopilot vnav hold adapted approach tcas lnav frame Hh N S.
  pose proof S as (_ & F & _).
  set (fs := target_2 sils fms altitude pressure (Some heading) nacp baro sil modes autopilot vnav hold adapted approach tcas lnav) in *.
  assert (W : width fs = 8 * 7) by reflexivity.
  assert (B1 : bits 1 5 (message fs) = 29) by (look 0%nat 1%nat; reflexivity).
  assert (B6 : bits 6 7 (message fs) = 1) by (look 1%nat 1%nat; reflexivity).
  assert (B31 : bits 31 31 (message fs) = flag (heading <? 0)) by (look 7%nat 1%nat; reflexivity).
  assert (B32 : bits 32 39 (message fs) = heading mod 2 ^ 8) by (look 8%nat 1%nat; reflexivity).
  destruct (squitter_received _ _ _ _ S) as (Hb & Hl & d & R & C & E).
  clear S F W. clearbody fs. generalize dependent (message fs). intros me; intros.
  assert (K : KindOf me KTarget) by (apply k_target; exact B1).
  assert (E1 : bits 32 39 me = heading + 256) by (rewrite B32; symmetry; change (2 ^ 8) with 256; apply (Z.mod_unique heading 256 (-1)); lia).
  assert (E2 : bit 31 me = true) by (unfold bit; rewrite B31, flag_test; apply Z.ltb_lt; lia).
  assert (E3 : bits 32 39 me <> 128) by lia.
  destruct (target_state_1_heading_refuted me Hb Hl B1 B6 E2 E3) as (x & M & Q).
  eexists. exists x. split; [exists d; rewrite E; split; [exact R|]; split; [exact C|]|].
  { rewrite (read_target v nicA nicC me Hb Hl K), M. reflexivity. }
  split; [reflexivity|]. intros V. apply Q. unfold heading_degrees. rewrite E1. replace (heading + 256 - 256) with heading by lia. exact V.
Qed.

Example target_1_example : exists frame, Squitter 5 0x400940 (target_1 2 0 1 1 350 2 91 0 1 8 1 2 0 0) frame /\ 91 mod 16 = ((350 + 10) / 32) mod 16.
Proof.
  destruct (squitter_exists 5 0x400940 (target_1 2 0 1 1 350 2 91 0 1 8 1 2 0 0)) as (f & S);
    [unfold fits; repeat (constructor; [cbn; lia|]); constructor|unfold fits; repeat (constructor; [cbn; lia|]); constructor|reflexivity|].
  exists f. split; [exact S|reflexivity].
Qed.

Example target_2_example : exists frame, Squitter 5 0x400940 (target_2 false false (Some 1187) (Some 267) (Some 128) 9 1 3 true true true false false false true true) frame.
Proof. apply squitter_exists; [unfold fits; repeat (constructor; [cbn; lia|]); constructor|unfold fits; repeat (constructor; [cbn; lia|]); constructor|reflexivity]. Qed.

Example operational_2_example : exists frame, Squitter 5 0x400940 (airborne_status_2 1 1 1 1 0 0 0 0 0 2 1 9 2 3 1 0 0) frame.
Proof. apply squitter_exists; [unfold fits; repeat (constructor; [cbn; lia|]); constructor|unfold fits; repeat (constructor; [cbn; lia|]); constructor|reflexivity]. Qed.

(* the level told for the surface status of version 2 *)
Theorem surface_level_refuted : forall v nicA nicC ca icao es_in b2low uat nacv nic_c size ra ident antenna sda lateral longitudinal nic nacp sil track hrd sils frame,
  Squitter ca icao (surface_status_2 es_in b2low uat nacv nic_c size ra ident antenna sda lateral longitudinal nic nacp sil track hrd sils) frame ->
  exists m, received v nicA nicC frame icao (AOperational m) /\ Message_GetADSBVersion (AOperational m) = 1.
Proof.
  intros v nicA nicC ca icao es_in b2low uat nacv nic_c size ra ident antenna sda lateral longitudinal nic nacp sil track hrd sils frame S.
  destruct (surface_operational_2_received v nicA nicC _ _ _ _ _ _ _ _ _ _ _ _ _ _ _ _ _ _ _ _ _ S) as (m & Rm & T). exists m. split; [exact Rm|].
  destruct Rm as (d & Rd & _ & Rm). destruct (squitter_received _ _ _ _ S) as (Hb & Hl & d' & R & _ & E).
  rewrite Rd in R. injection R as <-. rewrite E in Rm. destruct (adsb_kind _ _ _ _ _ Hb Rm) as [_ K].
  rewrite (read_operational v nicA nicC _ Hb Hl K) in Rm. apply rmap_ok in Rm as (x & _ & Ex). injection Ex as ->. cbn in T. subst x. reflexivity.
Qed.
