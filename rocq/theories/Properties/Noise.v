(* Property theorems: Noise. Generated by tools/mkprops.py; proofs are in theories/Proofs. *)
From Verif Require Import GoBase Bits.
From Verif.Spec Require Import Crc Identification Squitter Reply Noise Text Report Command.
From Verif.Gen Require modes_fields modes_messages.
From Verif.Model Require Import Crc ModesReader Cmd.
Require Import String List.
From Verif.Proofs Require Noise.
Local Open Scope Z_scope.

Theorem C93_squitter_damaged : forall ca icao payload sent heard, Squitter ca icao payload sent -> damaged sent heard -> extended heard ->
  exists m, ReadMessage heard = Ok m /\ forall addresses interrogators, exists e, CheckCRC m heard addresses interrogators = Err e.
Proof. exact Noise.squitter_damaged. Qed.
Print Assumptions C93_squitter_damaged.

Theorem C93_device_damaged : forall cf icao payload sent heard, Reply ([(5, 18); (3, cf); (24, icao)] ++ payload) 0 sent -> width payload = 56 ->
  damaged sent heard -> extended heard ->
  exists m, ReadMessage heard = Ok m /\ forall addresses interrogators, exists e, CheckCRC m heard addresses interrogators = Err e.
Proof. exact Noise.device_damaged. Qed.
Print Assumptions C93_device_damaged.

Theorem C93_squitter_damaged_printed : forall ffmt matan2 level line ca icao payload sent heard,
  Squitter ca icao payload sent -> damaged sent heard -> extended heard -> hex_text line heard ->
  exists e, processSingleLine ffmt matan2 line level = Ok (endl ("Reading: " ++ line) ++ endl e)%string.
Proof. exact Noise.squitter_damaged_printed. Qed.
Print Assumptions C93_squitter_damaged_printed.

Theorem C93_squitter_misread : forall ca icao payload sent heard m addresses interrogators a,
  Squitter ca icao payload sent -> damaged sent heard -> ~ extended heard ->
  ReadMessage heard = Ok m -> CheckCRC m heard addresses interrogators = Ok a ->
  a <> 0 /\ codeword (Z.lxor (Z.lxor (be sent) (be heard)) a).
Proof. exact Noise.squitter_misread. Qed.
Print Assumptions C93_squitter_misread.

Theorem C93_reply_damaged : forall fields overlay sent heard m addresses interrogators,
  Reply fields overlay sent -> damaged sent heard -> ~ extended heard -> ReadMessage heard = Ok m ->
  CheckCRC m heard addresses interrogators <> Ok overlay /\
  (only overlay addresses -> only overlay interrogators -> exists e, CheckCRC m heard addresses interrogators = Err e).
Proof. exact Noise.reply_damaged. Qed.
Print Assumptions C93_reply_damaged.

Theorem C93_all_call_damaged : forall capability icao interrogator sent heard m addresses interrogators x,
  Reply (all_call capability icao) interrogator sent -> interrogator < 128 ->
  bytes heard -> len heard = 7 -> 1 <= distance 49 sent heard <= 3 ->
  ReadMessage heard = Ok m -> CheckCRC m heard addresses interrogators = Ok x -> 128 <= x.
Proof. exact Noise.all_call_damaged. Qed.
Print Assumptions C93_all_call_damaged.

Theorem C93_squitter_one_bit_refuted : forall ca icao payload sent, Squitter ca icao payload sent ->
  exists heard d, errors sent heard = 1 /\ answered heard 0xF1B77E (MDF21 d) /\
    modes_messages.MessageDF21_MessageCommB d = message payload.
Proof. exact Noise.squitter_one_bit_refuted. Qed.
Print Assumptions C93_squitter_one_bit_refuted.

Theorem C93_all_call_one_bit_refuted : forall capability icao interrogator sent k,
  Reply (all_call capability icao) interrogator sent -> 9 <= k <= 32 ->
  exists heard d x, errors sent heard = 1 /\ ReadMessage heard = Ok (MDF11 d) /\ CheckCRC (MDF11 d) heard [] [] = Ok x /\
    modes_fields.AddressAnnounced_Address (modes_messages.MessageDF11_AddressAnnounced d) = Z.lxor icao (2 ^ (32 - k)).
Proof. exact Noise.all_call_one_bit_refuted. Qed.
Print Assumptions C93_all_call_one_bit_refuted.

Theorem C93_squitter_six_bits_refuted : exists ca icao payload sent heard m,
  Squitter ca icao payload sent /\ errors sent heard = 6 /\ extended heard /\ ReadMessage heard = Ok m /\
  CheckCRC m heard [] [] = Ok 0x48C8D6 /\ icao = 0x4840D6.
Proof. exact Noise.squitter_six_bits_refuted. Qed.
Print Assumptions C93_squitter_six_bits_refuted.

Example C93_damaged_example : exists ca icao payload sent heard,
  Squitter ca icao payload sent /\ damaged sent heard /\ extended heard /\ hex_text "8D4840D6202CC371C32CE057609B" heard.
Proof. exact Noise.damaged_example. Qed.
Print Assumptions C93_damaged_example.

Example C93_damaged_reply_example : exists fields sent heard m,
  Reply fields 0x4840D6 sent /\ damaged sent heard /\ ~ extended heard /\ ReadMessage heard = Ok m /\
  only 0x4840D6 [(0x4840D6, true)].
Proof. exact Noise.damaged_reply_example. Qed.
Print Assumptions C93_damaged_reply_example.

Example C93_all_call_damaged_example : exists sent heard m, Reply (all_call 5 0x4840D6) 7 sent /\ bytes heard /\ len heard = 7 /\
  1 <= distance 49 sent heard <= 3 /\ ReadMessage heard = Ok m.
Proof. exact Noise.all_call_damaged_example. Qed.
Print Assumptions C93_all_call_damaged_example.
