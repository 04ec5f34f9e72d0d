(* Property theorems: Said. Generated by tools/mkprops.py; proofs are in theories/Proofs. *)
From Verif Require Import GoBase Bits.
From Verif.Spec Require Import Altitude Floats Adsb Identification Velocity Status AdsbMessages Crc Squitter Said.
From Verif.Gen Require modes_messages bds08 bds09 bds61 adsb_aircraft_identification_and_category adsb_aircraft_status adsb_airborne_velocity.
From Verif.Model Require Import Crc ModesReader AdsbReader.
From Coq Require Import List.
From Verif.Proofs Require Said.
Local Open Scope Z_scope.

Theorem C114_callsign_said : forall v nicA nicC frames icao last, last_sent about_callsign icao frames last ->
  noted callsign_of v nicA nicC frames icao =
    match last with Some data => Some (text (List.map shown (char_codes data))) | None => None end.
Proof. exact Said.callsign_said. Qed.
Print Assumptions C114_callsign_said.

Theorem C114_emergency_said : forall v nicA nicC frames icao last, last_sent about_emergency icao frames last ->
  noted emergency_of v nicA nicC frames icao =
    match last with Some data => Some (bits 9 11 data, bits 12 24 data) | None => None end.
Proof. exact Said.emergency_said. Qed.
Print Assumptions C114_emergency_said.

Theorem C114_velocity_said : forall v nicA nicC frames icao last, last_sent about_velocity icao frames last ->
  match last with
  | Some data => exists x, noted velocity_of_message v nicA nicC frames icao = Some x /\ VelocityOf data x
  | None => noted velocity_of_message v nicA nicC frames icao = None
  end.
Proof. exact Said.velocity_said. Qed.
Print Assumptions C114_velocity_said.

Theorem C114_every_history : forall (about : list Z -> Prop) icao frames, (forall data, about data \/ ~ about data) -> Forall bytes frames ->
  exists last, last_sent about icao frames last.
Proof. exact Said.every_history. Qed.
Print Assumptions C114_every_history.

Example C114_said_example : exists data,
  last_sent about_callsign 0x4840D6 [[0x8D; 0x48; 0x40; 0xD6; 0x20; 0x2C; 0xC3; 0x71; 0xC3; 0x2C; 0xE0; 0x57; 0x60; 0x98]; [1; 2; 3]] (Some data) /\
  text (List.map shown (char_codes data)) = "KLM1023 "%string /\
  noted callsign_of 0 false false [[0x8D; 0x48; 0x40; 0xD6; 0x20; 0x2C; 0xC3; 0x71; 0xC3; 0x2C; 0xE0; 0x57; 0x60; 0x98]; [1; 2; 3]] 0x4840D6 = Some "KLM1023 "%string.
Proof. exact Said.said_example. Qed.
Print Assumptions C114_said_example.

Example C114_emergency_example :
  last_sent about_emergency 0xA2C1B6 [[0x8D; 0xA2; 0xC1; 0xB6; 0xE1; 0x12; 0xB6; 0x00; 0x00; 0x00; 0x00; 0x76; 0x07; 0x59]] (Some [0xE1; 0x12; 0xB6; 0; 0; 0; 0]) /\
  noted emergency_of 2 false false [[0x8D; 0xA2; 0xC1; 0xB6; 0xE1; 0x12; 0xB6; 0x00; 0x00; 0x00; 0x00; 0x76; 0x07; 0x59]] 0xA2C1B6 = Some (0, 0x12B6).
Proof. exact Said.emergency_example. Qed.
Print Assumptions C114_emergency_example.

Example C114_velocity_example :
  last_sent about_velocity 0x485020 [[0x8D; 0x48; 0x50; 0x20; 0x99; 0x44; 0x09; 0x94; 0x08; 0x38; 0x17; 0x5B; 0x28; 0x4F]] (Some [0x99; 0x44; 0x09; 0x94; 0x08; 0x38; 0x17]).
Proof. exact Said.velocity_example. Qed.
Print Assumptions C114_velocity_example.

Theorem C114_subjects_decided : forall data,
  (about_callsign data \/ ~ about_callsign data) /\ (about_emergency data \/ ~ about_emergency data) /\ (about_velocity data \/ ~ about_velocity data).
Proof. exact Said.subjects_decided. Qed.
Print Assumptions C114_subjects_decided.
