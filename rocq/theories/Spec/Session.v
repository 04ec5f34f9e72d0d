(* What a receiver must know of an aircraft before it can say how good its positions are: the version of ADS-B and the
   supplements to the navigation integrity code. The aircraft tells them in its operational status; here is the history of
   frames in which it does so, and a receiver which keeps what was told last. *)
From Verif Require Import GoBase Bits.
From Verif.Spec Require Import Squitter Statuses.
From Verif.Gen Require modes_messages bds65 bds65_fields adsb_aircraft_operational_status.
From Verif.Model Require Import Crc ModesReader AdsbReader.
Local Open Scope Z_scope.

(* the version of the aircraft, and its supplements A and C *)
Record standard := { s_version : Z; s_nic_a : bool; s_nic_c : bool }.

(* ---- what is sent ---- *)

(* an operational status, and what is known once it is heard. Version 0 has no supplement, and supplement C is only told
   on the ground, in version 2. *)
Inductive announces (icao : Z) (before : standard) : standard -> list Z -> Prop :=
| announces_0 ca e t a s e' t' a' s' frame :
    Squitter ca icao (status_0 e t a s e' t' a' s') frame ->
    announces icao before {| s_version := 0; s_nic_a := false; s_nic_c := s_nic_c before |} frame
| announces_1_in_flight ca not_acas cdti arv ts tc ra ident atc nic nacp sil baro hrd frame :
    Squitter ca icao (airborne_status_1 not_acas cdti arv ts tc ra ident atc (flag nic) nacp sil baro hrd) frame ->
    announces icao before {| s_version := 1; s_nic_a := nic; s_nic_c := s_nic_c before |} frame
| announces_1_on_ground ca offset cdti b2low size ra ident atc nic nacp sil track hrd frame :
    Squitter ca icao (surface_status_1 offset cdti b2low size ra ident atc (flag nic) nacp sil track hrd) frame ->
    announces icao before {| s_version := 1; s_nic_a := nic; s_nic_c := s_nic_c before |} frame
| announces_2_in_flight ca acas es_in arv ts tc uat ra ident antenna sda nic nacp gva sil baro hrd sils frame :
    Squitter ca icao (airborne_status_2 acas es_in arv ts tc uat ra ident antenna sda (flag nic) nacp gva sil baro hrd sils) frame ->
    announces icao before {| s_version := 2; s_nic_a := nic; s_nic_c := s_nic_c before |} frame
| announces_2_on_ground ca es_in b2low uat nacv nic_c size ra ident antenna sda lateral longitudinal nic nacp sil track hrd sils frame :
    Squitter ca icao (surface_status_2 es_in b2low uat nacv (flag nic_c) size ra ident antenna sda lateral longitudinal (flag nic) nacp sil track hrd sils) frame ->
    announces icao before {| s_version := 2; s_nic_a := nic; s_nic_c := nic_c |} frame.

(* any other frame: bytes which are not the squitter of an operational status (type 31) of this aircraft, or one of a
   version after 2 *)
Definition elsewhere (icao : Z) (frame : list Z) : Prop :=
  bytes frame /\ forall capability payload, Squitter capability icao payload frame ->
    bits 33 37 frame = 31 -> 2 < bits 73 75 frame.

(* the frames heard, and what the aircraft has told by then *)
Inductive session (icao : Z) (start : standard) : list (list Z) -> standard -> Prop :=
| session_start : session icao start [] start
| session_other frames frame s : session icao start frames s -> elsewhere icao frame -> session icao start (frames ++ [frame]) s
| session_status frames frame s s' : session icao start frames s -> announces icao s s' frame -> session icao start (frames ++ [frame]) s'.

(* ---- the receiver ---- *)

(* what an operational status tells: the version and the supplements it carries *)
Definition announced (before : standard) (m : bds65.AircraftOperationalStatus) : standard :=
  match m with
  | bds65.IAircraftOperationalStatus_AircraftOperationalStatusADSB0 _ =>
      {| s_version := 0; s_nic_a := false; s_nic_c := s_nic_c before |}
  | bds65.IAircraftOperationalStatus_AircraftOperationalStatusAirborneADSB1 x =>
      {| s_version := bds65.AircraftOperationalStatusAirborneADSB1_VersionNumber x;
         s_nic_a := bds65.AircraftOperationalStatusAirborneADSB1_NICSupplement x =? 1; s_nic_c := s_nic_c before |}
  | bds65.IAircraftOperationalStatus_AircraftOperationalStatusSurfaceADSB1 x =>
      {| s_version := bds65.AircraftOperationalStatusSurfaceADSB1_VersionNumber x;
         s_nic_a := bds65.AircraftOperationalStatusSurfaceADSB1_NICSupplement x =? 1; s_nic_c := s_nic_c before |}
  | bds65.IAircraftOperationalStatus_AircraftOperationalStatusAirborneADSB2 x =>
      {| s_version := bds65.AircraftOperationalStatusAirborneADSB2_VersionNumber x;
         s_nic_a := bds65.AircraftOperationalStatusAirborneADSB2_NICSupplementA x =? 1; s_nic_c := s_nic_c before |}
  | bds65.IAircraftOperationalStatus_AircraftOperationalStatusSurfaceADSB2 x =>
      {| s_version := bds65.AircraftOperationalStatusSurfaceADSB2_VersionNumber x;
         s_nic_a := bds65.AircraftOperationalStatusSurfaceADSB2_NICSupplementA x =? 1;
         s_nic_c := bds65_fields.SurfaceCapabilityClassV2_NICSupplementC (bds65.AircraftOperationalStatusSurfaceADSB2_SurfaceCapabilityClass x) =? 1 |}
  end.

(* on each frame: the message is read, with what is known so far; if it is an operational status of the aircraft, what it
   tells is kept *)
Definition learn (icao : Z) (s : standard) (frame : list Z) : standard :=
  match ReadMessage frame with
  | Ok (MDF17 d) =>
      match CheckCRC (MDF17 d) frame [] [] with
      | Ok address =>
          if address =? icao then
            match ReadADSBMessage (s_version s) (s_nic_a s) (s_nic_c s) (modes_messages.MessageDF17_MessageExtendedSquitter d) with
            | Ok (AOperational m) => announced s (adsb_aircraft_operational_status.AircraftOperationalStatus_AircraftOperationalStatus m)
            | _ => s
            end
          else s
      | _ => s
      end
  | _ => s
  end.

Definition learned (icao : Z) (start : standard) (frames : list (list Z)) : standard := fold_left (learn icao) frames start.

(* an aircraft of which nothing was heard is supposed to be of the first version *)
Definition newcomer : standard := {| s_version := 0; s_nic_a := false; s_nic_c := false |}.
