(* Property theorems: Radar. Generated by tools/mkprops.py; proofs are in theories/Proofs. *)
From Verif Require Import GoBase Bits.
From Verif.Spec Require Import Altitude ModeS Crc Squitter Reply Noise Radar.
From Verif.Gen Require modes_messages modes_fields.
From Verif.Model Require Import Crc ModesReader.
From Coq Require Import List.
From Verif.Proofs Require Radar.
Local Open Scope Z_scope.

Theorem C113_replies_kept : forall addresses frames icao known' altitude squawk,
  addresses <> [] -> told icao (has icao addresses) frames known' altitude squawk ->
  let r := scanned addresses frames in
  has icao (known r) = known' /\
  altitudes r icao = match altitude with Some (coding, feet) => Some (coding_code coding, feet) | None => None end /\
  squawks r icao = squawk.
Proof. exact Radar.replies_kept. Qed.
Print Assumptions C113_replies_kept.

Theorem C113_histories : forall icao start frames, Forall bytes frames -> exists known altitude squawk, told icao start frames known altitude squawk.
Proof. exact Radar.histories. Qed.
Print Assumptions C113_histories.

Theorem C113_foreign_sender : forall fields icao icao' frame, Reply fields icao' frame -> ~ extended frame -> icao' <> icao -> foreign icao frame.
Proof. exact Radar.foreign_sender. Qed.
Print Assumptions C113_foreign_sender.

Theorem C113_foreign_squitter : forall capability payload icao icao' frame, Squitter capability icao' payload frame -> icao' <> icao -> foreign icao frame.
Proof. exact Radar.foreign_squitter. Qed.
Print Assumptions C113_foreign_squitter.

Theorem C113_foreign_damaged : forall fields icao sent heard, Reply fields icao sent -> damaged sent heard -> ~ extended heard -> foreign icao heard.
Proof. exact Radar.foreign_damaged. Qed.
Print Assumptions C113_foreign_damaged.

Theorem C113_empty_list : forall frame coding feet, bytes frame -> altitude_reply frame -> Altitude13 frame coding feet ->
  exists icao, altitudes (scanned [] [frame]) icao = Some (coding_code coding, feet).
Proof. exact Radar.empty_list. Qed.
Print Assumptions C113_empty_list.

Example C113_radar_example :
  let reply := [0x20; 0x0; 0x17; 0xb0; 0x4; 0xf9; 0xa1] in
  let squitter := [0x8D; 0x48; 0x40; 0xD6; 0x20; 0x2C; 0xC3; 0x71; 0xC3; 0x2C; 0xE0; 0x57; 0x60; 0x98] in
  (exists fields, Reply fields 0x4840D6 reply) /\ altitude_reply reply /\ Altitude13 reply Feet25 37000 /\
  (exists capability payload, Squitter capability 0x4840D6 payload squitter) /\
  told 0x4840D6 false [reply; squitter; reply] true (Some (Feet25, 37000)) None /\
  altitudes (scanned [(0, true)] [reply]) 0x4840D6 = None /\
  altitudes (scanned [(0, true)] [reply; squitter; reply]) 0x4840D6 = Some (coding_code Feet25, 37000) /\
  altitudes (scanned [] [reply]) 0x4840D6 = Some (coding_code Feet25, 37000).
Proof. exact Radar.radar_example. Qed.
Print Assumptions C113_radar_example.
