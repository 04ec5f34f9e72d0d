(* Property theorems: Answers. Generated by tools/mkprops.py; proofs are in theories/Proofs. *)
From Verif Require Import GoBase Bits.
From Verif.Spec Require Import Altitude ModeS Crc Squitter Reply Adsb Identification CommB Radar Answers.
From Verif.Gen Require modes_messages bds20 bds50 bds60.
From Verif.Model Require Import Crc ModesReader CommbReader.
From Coq Require Import List.
From Verif.Proofs Require Answers.
Local Open Scope Z_scope.

Theorem C115_identity_answered : forall addresses frames icao known last, addresses <> [] ->
  last_answer about_identity icao (has icao addresses) frames known last ->
  snd (listened identity_of addresses frames) icao =
    match last with Some data => Some (text (List.map shown (char_codes data))) | None => None end.
Proof. exact Answers.identity_answered. Qed.
Print Assumptions C115_identity_answered.

Theorem C115_track_answered : forall addresses frames icao known last, addresses <> [] ->
  last_answer about_track icao (has icao addresses) frames known last ->
  match last with
  | Some data => exists x, snd (listened track_of_register addresses frames) icao = Some x /\ TrackOf data x
  | None => snd (listened track_of_register addresses frames) icao = None
  end.
Proof. exact Answers.track_answered. Qed.
Print Assumptions C115_track_answered.

Theorem C115_heading_answered : forall addresses frames icao known last, addresses <> [] ->
  last_answer about_heading icao (has icao addresses) frames known last ->
  match last with
  | Some data => exists x, snd (listened heading_of_register addresses frames) icao = Some x /\ HeadingOf data x
  | None => snd (listened heading_of_register addresses frames) icao = None
  end.
Proof. exact Answers.heading_answered. Qed.
Print Assumptions C115_heading_answered.

Theorem C115_every_history : forall (about : list Z -> Prop) icao start frames, (forall data, about data \/ ~ about data) -> Forall bytes frames ->
  exists known last, last_answer about icao start frames known last.
Proof. exact Answers.every_history. Qed.
Print Assumptions C115_every_history.

Example C115_identity_example :
  let f := [0xA0; 0x00; 0x08; 0x3E; 0x20; 0x2C; 0xC3; 0x71; 0xC3; 0x1D; 0xE0; 0xAA; 0x1C; 0xCF] in
  last_answer about_identity 0x484163 true [f] true (Some [0x20; 0x2C; 0xC3; 0x71; 0xC3; 0x1D; 0xE0]) /\
  snd (listened identity_of [(0x484163, true)] [f]) 0x484163 = Some "KLM1017 "%string /\
  snd (listened identity_of [(0x484164, true)] [f]) 0x484163 = None.
Proof. exact Answers.identity_example. Qed.
Print Assumptions C115_identity_example.

Example C115_track_example :
  let f := [0xA0; 0x00; 0x13; 0x9B; 0x81; 0x95; 0x15; 0x36; 0xE0; 0x24; 0xD4; 0x91; 0x9F; 0x3C] in
  last_answer about_track 6823257 true [f] true (Some [0x81; 0x95; 0x15; 0x36; 0xE0; 0x24; 0xD4]).
Proof. exact Answers.track_example. Qed.
Print Assumptions C115_track_example.

Theorem C115_subjects_decided : forall data,
  (about_identity data \/ ~ about_identity data) /\ (about_track data \/ ~ about_track data) /\ (about_heading data \/ ~ about_heading data).
Proof. exact Answers.subjects_decided. Qed.
Print Assumptions C115_subjects_decided.
