(* Property theorems: Alike. Generated by tools/mkprops.py; proofs are in theories/Proofs. *)
From Verif Require Import GoBase Bits.
From Verif.Spec Require Import Alike.
From Verif.Gen Require modes_common modes_messages modes_fields.
From Verif.Model Require Import Crc ModesReader.
From Verif.Spec Require Lossless.
From Verif.Proofs Require SameText Lossless.
From Verif.Proofs Require SameText.
Local Open Scope Z_scope.

Theorem C117_same_text : forall frame frame' m m', bytes frame -> bytes frame' ->
  ReadMessage frame = Ok m -> ReadMessage frame' = Ok m' ->
  ModeSMessage_ToString m = ModeSMessage_ToString m' -> alike m m'.
Proof. exact SameText.same_text. Qed.
Print Assumptions C117_same_text.

Theorem C117_same_squitter : forall frame frame' m m' addresses interrogators addresses' interrogators' a a', bytes frame -> bytes frame' ->
  ReadMessage frame = Ok m -> ReadMessage frame' = Ok m' ->
  (exists d, m = MDF17 d) \/ (exists d, m = MDF18 d) ->
  CheckCRC m frame addresses interrogators = Ok a -> CheckCRC m' frame' addresses' interrogators' = Ok a' ->
  ModeSMessage_ToString m = ModeSMessage_ToString m' -> frame = frame'.
Proof. exact SameText.same_squitter. Qed.
Print Assumptions C117_same_squitter.

Example C117_same_text_example : exists m m',
  bytes [0x20; 0x00; 0x17; 0x18; 0x32; 0x93; 0x55] /\ bytes [0x20; 0x00; 0x17; 0x18; 0x00; 0x00; 0x00] /\
  ReadMessage [0x20; 0x00; 0x17; 0x18; 0x32; 0x93; 0x55] = Ok m /\ ReadMessage [0x20; 0x00; 0x17; 0x18; 0x00; 0x00; 0x00] = Ok m' /\
  m <> m' /\ ModeSMessage_ToString m = ModeSMessage_ToString m'.
Proof. exact SameText.same_text_example. Qed.
Print Assumptions C117_same_text_example.
