(* Property theorems: Order. Generated by tools/mkprops.py; proofs are in theories/Proofs. *)
From Verif Require Import GoBase Bits.
From Verif.Spec Require Import Altitude ModeS Crc Squitter Reply Order Radar Said Answers.
From Verif.Gen Require modes_messages.
From Verif.Model Require Import Crc ModesReader AdsbReader CommbReader.
From Coq Require Import List.
From Verif.Proofs Require Order.
Local Open Scope Z_scope.

Theorem C116_replies_order : forall addresses frames frames' own icao, addresses <> [] -> Forall bytes own ->
  heard icao frames own -> heard icao frames' own ->
  has icao (known (scanned addresses frames)) = has icao (known (scanned addresses frames')) /\
  altitudes (scanned addresses frames) icao = altitudes (scanned addresses frames') icao /\
  squawks (scanned addresses frames) icao = squawks (scanned addresses frames') icao.
Proof. exact Order.replies_order. Qed.
Print Assumptions C116_replies_order.

Theorem C116_squitters_order : forall A (pick : AdsbReader.Message -> option A) version nicA nicC frames frames' own icao,
  heard icao frames own -> heard icao frames' own ->
  noted pick version nicA nicC frames icao = noted pick version nicA nicC frames' icao.
Proof. exact Order.squitters_order. Qed.
Print Assumptions C116_squitters_order.

Theorem C116_registers_order : forall A (pick : CommbReader.Message -> option A) addresses frames frames' own icao,
  addresses <> [] -> Forall bytes own -> heard icao frames own -> heard icao frames' own ->
  has icao (fst (listened pick addresses frames)) = has icao (fst (listened pick addresses frames')) /\
  snd (listened pick addresses frames) icao = snd (listened pick addresses frames') icao.
Proof. exact Order.registers_order. Qed.
Print Assumptions C116_registers_order.

Theorem C116_other_squitter : forall capability payload icao icao' frame, Squitter capability icao' payload frame -> icao' <> icao -> by_other icao frame.
Proof. exact Order.other_squitter. Qed.
Print Assumptions C116_other_squitter.

Theorem C116_other_reply : forall fields icao icao' frame, Reply fields icao' frame -> bits 1 5 frame <> 17 -> icao' <> icao -> by_other icao frame.
Proof. exact Order.other_reply. Qed.
Print Assumptions C116_other_reply.

Example C116_order_example :
  let squitter := [0x8D; 0x48; 0x40; 0xD6; 0x20; 0x2C; 0xC3; 0x71; 0xC3; 0x2C; 0xE0; 0x57; 0x60; 0x98] in
  let other := [0x8D; 0x48; 0x50; 0x20; 0x99; 0x44; 0x09; 0x94; 0x08; 0x38; 0x17; 0x5B; 0x28; 0x4F] in
  let reply := [0x20; 0x0; 0x17; 0xb0; 0x4; 0xf9; 0xa1] in
  heard 0x4840D6 [squitter; other; reply] [squitter; reply] /\ heard 0x4840D6 [squitter; reply; other] [squitter; reply] /\
  altitudes (scanned [(0, true)] [squitter; other; reply]) 0x4840D6 = Some (coding_code Feet25, 37000).
Proof. exact Order.order_example. Qed.
Print Assumptions C116_order_example.
