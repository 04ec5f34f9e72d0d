(* Property theorems: Lossless. Generated by tools/mkprops.py; proofs are in theories/Proofs. *)
From Verif Require Import GoBase Bits.
From Verif.Gen Require modes_messages.
From Verif.Model Require Import Crc ModesReader.
From Verif.Spec Require Import Crc Squitter Reply Lossless.
Require Import List.
From Verif.Proofs Require Lossless.
Local Open Scope Z_scope.

Theorem C105_frame_kept : forall frame m, bytes frame -> ReadMessage frame = Ok m -> rebuilt m = frame.
Proof. exact Lossless.frame_kept. Qed.
Print Assumptions C105_frame_kept.

Theorem C105_frame_unique : forall frame frame' m, bytes frame -> bytes frame' ->
  ReadMessage frame = Ok m -> ReadMessage frame' = Ok m -> frame = frame'.
Proof. exact Lossless.frame_unique. Qed.
Print Assumptions C105_frame_unique.

Theorem C105_accepted_sent : forall frame m addresses interrogators a, bytes frame -> ReadMessage frame = Ok m ->
  CheckCRC m frame addresses interrogators = Ok a ->
  exists fields, written m fields /\
    match announced m with
    | Some address => a = address /\ Reply fields 0 frame
    | None => Reply fields a frame
    end.
Proof. exact Lossless.accepted_sent. Qed.
Print Assumptions C105_accepted_sent.

Theorem C105_squitter_iff : forall frame icao, bytes frame ->
  (exists d, ReadMessage frame = Ok (MDF17 d) /\ CheckCRC (MDF17 d) frame [] [] = Ok icao) <->
  exists capability payload, Squitter capability icao payload frame.
Proof. exact Lossless.squitter_iff. Qed.
Print Assumptions C105_squitter_iff.

Example C105_kept_example : exists d, ReadMessage [0x8D; 0x48; 0x40; 0xD6; 0x20; 0x2C; 0xC3; 0x71; 0xC3; 0x2C; 0xE0; 0x57; 0x60; 0x98] = Ok (MDF17 d) /\
  CheckCRC (MDF17 d) [0x8D; 0x48; 0x40; 0xD6; 0x20; 0x2C; 0xC3; 0x71; 0xC3; 0x2C; 0xE0; 0x57; 0x60; 0x98] [] [] = Ok 0x4840D6 /\
  rebuilt (MDF17 d) = [0x8D; 0x48; 0x40; 0xD6; 0x20; 0x2C; 0xC3; 0x71; 0xC3; 0x2C; 0xE0; 0x57; 0x60; 0x98].
Proof. exact Lossless.kept_example. Qed.
Print Assumptions C105_kept_example.
