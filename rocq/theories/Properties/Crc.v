(* Property theorems: Crc. Generated by tools/mkprops.py; proofs are in theories/Proofs. *)
From Verif Require Import GoBase Bits.
From Verif.Spec Require Import Altitude ModeS Crc.
From Verif.Gen Require bitutils modes_common modes_fields modes_messages.
From Verif.Model Require Import Crc ModesReader.
From Verif.Proofs Require CrcReader Examples.
Local Open Scope Z_scope.

Theorem C11_parity_is_remainder : forall data, bytes data -> 3 <= len data ->
  forall r, computeParity data = Ok r <-> Parity data r.
Proof. exact CrcReader.parity_is_remainder. Qed.
Print Assumptions C11_parity_is_remainder.

Example C11_parity_example : bytes (octets 1 11 [0x8D; 0x48; 0x40; 0xD6; 0x20; 0x2C; 0xC3; 0x71; 0xC3; 0x2C; 0xE0; 0x57; 0x60; 0x98]) /\ 3 <= len (octets 1 11 [0x8D; 0x48; 0x40; 0xD6; 0x20; 0x2C; 0xC3; 0x71; 0xC3; 0x2C; 0xE0; 0x57; 0x60; 0x98]) /\
  Parity (octets 1 11 [0x8D; 0x48; 0x40; 0xD6; 0x20; 0x2C; 0xC3; 0x71; 0xC3; 0x2C; 0xE0; 0x57; 0x60; 0x98]) 0x576098.
Proof. exact Examples.parity_example. Qed.
Print Assumptions C11_parity_example.

Theorem C12_parity_linear : forall l m r s, bytes l -> bytes m -> len l = len m -> 3 <= len l ->
  computeParity l = Ok r -> computeParity m = Ok s ->
  computeParity (xor_bytes l m) = Ok (Z.lxor r s).
Proof. exact CrcReader.parity_linear. Qed.
Print Assumptions C12_parity_linear.

Example C12_linear_example : exists r s, computeParity [0x20; 0x00; 0x17; 0xB0] = Ok r /\ computeParity [0x20; 0x00; 0x17; 0xB8] = Ok s /\
  r <> s /\ r <> 0 /\ computeParity (xor_bytes [0x20; 0x00; 0x17; 0xB0] [0x20; 0x00; 0x17; 0xB8]) = Ok (Z.lxor r s).
Proof. exact Examples.linear_example. Qed.
Print Assumptions C12_linear_example.

Theorem C13_extended_squitter_check : forall frame m addresses interrogators,
  bytes frame -> ReadMessage frame = Ok m ->
  (GetDownLinkFormat m = 17 \/ GetDownLinkFormat m = 18) ->
  (forall a, CheckCRC m frame addresses interrogators = Ok a <->
     Parity (octets 1 11 frame) (bits 89 112 frame) /\ a = bits 9 32 frame) /\
  ((exists a, CheckCRC m frame addresses interrogators = Ok a) <-> codeword (be frame)) /\
  CheckCRC m frame addresses interrogators <> Panic.
Proof. exact CrcReader.extended_squitter_check. Qed.
Print Assumptions C13_extended_squitter_check.

Example C13_frame17_crc : exists m, ReadMessage [0x8D; 0x48; 0x40; 0xD6; 0x20; 0x2C; 0xC3; 0x71; 0xC3; 0x2C; 0xE0; 0x57; 0x60; 0x98] = Ok m /\ CheckCRC m [0x8D; 0x48; 0x40; 0xD6; 0x20; 0x2C; 0xC3; 0x71; 0xC3; 0x2C; 0xE0; 0x57; 0x60; 0x98] [] [] = Ok 0x4840D6.
Proof. exact CrcReader.frame17_crc. Qed.
Print Assumptions C13_frame17_crc.

Example C13_frame17_codeword : codeword (be [0x8D; 0x48; 0x40; 0xD6; 0x20; 0x2C; 0xC3; 0x71; 0xC3; 0x2C; 0xE0; 0x57; 0x60; 0x98]).
Proof. exact CrcReader.frame17_codeword. Qed.
Print Assumptions C13_frame17_codeword.

Theorem C14_overlay_roundtrip : forall frame m r A,
  bytes frame -> ReadMessage frame = Ok m ->
  GetDownLinkFormat m <> 17 -> GetDownLinkFormat m <> 18 ->
  0 <= A < 2 ^ 24 -> Parity (body frame) r -> parity_field frame = Z.lxor r A ->
  CheckCRC m frame [] [] = Ok A.
Proof. exact CrcReader.overlay_roundtrip. Qed.
Print Assumptions C14_overlay_roundtrip.

Theorem C14_overlay_check : forall frame m addresses interrogators,
  bytes frame -> ReadMessage frame = Ok m ->
  GetDownLinkFormat m <> 17 -> GetDownLinkFormat m <> 18 ->
  let allowed := if GetDownLinkFormat m =? 11 then interrogators else addresses in
  (forall a, CheckCRC m frame addresses interrogators = Ok a <->
     (0 <= a < 2 ^ 24 /\ codeword (Z.lxor (be frame) a)) /\ admits allowed a) /\
  (exists a, 0 <= a < 2 ^ 24 /\ codeword (Z.lxor (be frame) a)) /\
  CheckCRC m frame addresses interrogators <> Panic.
Proof. exact CrcReader.overlay_check. Qed.
Print Assumptions C14_overlay_check.

Example C14_frame4_address : exists m, ReadMessage [0x20; 0x00; 0x17; 0xB0; 0x11; 0x22; 0x33] = Ok m /\ CheckCRC m [0x20; 0x00; 0x17; 0xB0; 0x11; 0x22; 0x33] [] [] = Ok 6134596.
Proof. exact CrcReader.frame4_address. Qed.
Print Assumptions C14_frame4_address.

Theorem C15_error_detection : forall f g m n a b al ai al' ai',
  bytes f -> bytes g -> ReadMessage f = Ok m -> ReadMessage g = Ok n ->
  (GetDownLinkFormat m = 17 \/ GetDownLinkFormat m = 18) ->
  (GetDownLinkFormat n = 17 \/ GetDownLinkFormat n = 18) ->
  CheckCRC m f al ai = Ok a -> CheckCRC n g al' ai' = Ok b -> f <> g ->
  6 <= distance 112 f g /\ Z.even (distance 112 f g) = true /\ ~ burst 24 f g.
Proof. exact CrcReader.error_detection. Qed.
Print Assumptions C15_error_detection.

Theorem C15_error_detection_overlay : forall f g m n a,
  bytes f -> bytes g -> len f = len g -> ReadMessage f = Ok m -> ReadMessage g = Ok n ->
  GetDownLinkFormat m <> 17 -> GetDownLinkFormat m <> 18 ->
  GetDownLinkFormat n <> 17 -> GetDownLinkFormat n <> 18 ->
  CheckCRC m f [] [] = Ok a -> CheckCRC n g [] [] = Ok a -> f <> g ->
  6 <= distance (Z.to_nat (8 * len f)) f g /\ ~ burst 24 f g.
Proof. exact CrcReader.error_detection_overlay. Qed.
Print Assumptions C15_error_detection_overlay.

Example C15_detection_example : exists m n, bytes [0x8D; 0x48; 0x40; 0xD6; 0x20; 0x2C; 0xC3; 0x71; 0xC3; 0x2C; 0xE0; 0x57; 0x60; 0x98] /\ bytes [0x8D; 0x40; 0x6B; 0x90; 0x20; 0x15; 0xA6; 0x78; 0xD4; 0xD2; 0x20; 0xAA; 0x4B; 0xDA] /\
  ReadMessage [0x8D; 0x48; 0x40; 0xD6; 0x20; 0x2C; 0xC3; 0x71; 0xC3; 0x2C; 0xE0; 0x57; 0x60; 0x98] = Ok m /\ ReadMessage [0x8D; 0x40; 0x6B; 0x90; 0x20; 0x15; 0xA6; 0x78; 0xD4; 0xD2; 0x20; 0xAA; 0x4B; 0xDA] = Ok n /\
  GetDownLinkFormat m = 17 /\ GetDownLinkFormat n = 17 /\
  CheckCRC m [0x8D; 0x48; 0x40; 0xD6; 0x20; 0x2C; 0xC3; 0x71; 0xC3; 0x2C; 0xE0; 0x57; 0x60; 0x98] [] [] = Ok 0x4840D6 /\ CheckCRC n [0x8D; 0x40; 0x6B; 0x90; 0x20; 0x15; 0xA6; 0x78; 0xD4; 0xD2; 0x20; 0xAA; 0x4B; 0xDA] [] [] = Ok 0x406B90 /\ [0x8D; 0x48; 0x40; 0xD6; 0x20; 0x2C; 0xC3; 0x71; 0xC3; 0x2C; 0xE0; 0x57; 0x60; 0x98] <> [0x8D; 0x40; 0x6B; 0x90; 0x20; 0x15; 0xA6; 0x78; 0xD4; 0xD2; 0x20; 0xAA; 0x4B; 0xDA].
Proof. exact Examples.detection_example. Qed.
Print Assumptions C15_detection_example.

Example C15_detection_overlay_example : exists m n, bytes [0x20; 0x0; 0x17; 0xb0; 0x4; 0xf9; 0xa1] /\ bytes [0x20; 0x0; 0x17; 0xb8; 0x4; 0x89; 0xcd] /\ len [0x20; 0x0; 0x17; 0xb0; 0x4; 0xf9; 0xa1] = len [0x20; 0x0; 0x17; 0xb8; 0x4; 0x89; 0xcd] /\
  ReadMessage [0x20; 0x0; 0x17; 0xb0; 0x4; 0xf9; 0xa1] = Ok m /\ ReadMessage [0x20; 0x0; 0x17; 0xb8; 0x4; 0x89; 0xcd] = Ok n /\ GetDownLinkFormat m = 4 /\ GetDownLinkFormat n = 4 /\
  CheckCRC m [0x20; 0x0; 0x17; 0xb0; 0x4; 0xf9; 0xa1] [] [] = Ok 0x4840D6 /\ CheckCRC n [0x20; 0x0; 0x17; 0xb8; 0x4; 0x89; 0xcd] [] [] = Ok 0x4840D6 /\ [0x20; 0x0; 0x17; 0xb0; 0x4; 0xf9; 0xa1] <> [0x20; 0x0; 0x17; 0xb8; 0x4; 0x89; 0xcd].
Proof. exact Examples.detection_overlay_example. Qed.
Print Assumptions C15_detection_overlay_example.

Theorem C16_overlay_roundtrip : forall frame m r A,
  bytes frame -> ReadMessage frame = Ok m ->
  GetDownLinkFormat m <> 17 -> GetDownLinkFormat m <> 18 ->
  0 <= A < 2 ^ 24 -> Parity (body frame) r -> parity_field frame = Z.lxor r A ->
  CheckCRC m frame [] [] = Ok A.
Proof. exact CrcReader.overlay_roundtrip. Qed.
Print Assumptions C16_overlay_roundtrip.

Example C16_roundtrip_example : exists m r, bytes [0x20; 0x0; 0x17; 0xb0; 0x4; 0xf9; 0xa1] /\ ReadMessage [0x20; 0x0; 0x17; 0xb0; 0x4; 0xf9; 0xa1] = Ok m /\ GetDownLinkFormat m = 4 /\
  Parity (body [0x20; 0x0; 0x17; 0xb0; 0x4; 0xf9; 0xa1]) r /\ parity_field [0x20; 0x0; 0x17; 0xb0; 0x4; 0xf9; 0xa1] = Z.lxor r 0x4840D6.
Proof. exact Examples.roundtrip_example. Qed.
Print Assumptions C16_roundtrip_example.

Theorem C17_overlay_check : forall frame m addresses interrogators,
  bytes frame -> ReadMessage frame = Ok m ->
  GetDownLinkFormat m <> 17 -> GetDownLinkFormat m <> 18 ->
  let allowed := if GetDownLinkFormat m =? 11 then interrogators else addresses in
  (forall a, CheckCRC m frame addresses interrogators = Ok a <->
     (0 <= a < 2 ^ 24 /\ codeword (Z.lxor (be frame) a)) /\ admits allowed a) /\
  (exists a, 0 <= a < 2 ^ 24 /\ codeword (Z.lxor (be frame) a)) /\
  CheckCRC m frame addresses interrogators <> Panic.
Proof. exact CrcReader.overlay_check. Qed.
Print Assumptions C17_overlay_check.

Example C17_allowed_example : exists m, ReadMessage [0x20; 0x0; 0x17; 0xb0; 0x4; 0xf9; 0xa1] = Ok m /\
  CheckCRC m [0x20; 0x0; 0x17; 0xb0; 0x4; 0xf9; 0xa1] [(0x4840D6, true)] [] = Ok 0x4840D6 /\ (exists e, CheckCRC m [0x20; 0x0; 0x17; 0xb0; 0x4; 0xf9; 0xa1] [(0x406B90, true)] [] = Err e).
Proof. exact Examples.allowed_example. Qed.
Print Assumptions C17_allowed_example.

Theorem C18_check_crc_total : forall frame m addresses interrogators,
  bytes frame -> ReadMessage frame = Ok m -> CheckCRC m frame addresses interrogators <> Panic.
Proof. exact CrcReader.check_crc_total. Qed.
Print Assumptions C18_check_crc_total.

Example C18_allowed_example : exists m, ReadMessage [0x20; 0x0; 0x17; 0xb0; 0x4; 0xf9; 0xa1] = Ok m /\
  CheckCRC m [0x20; 0x0; 0x17; 0xb0; 0x4; 0xf9; 0xa1] [(0x4840D6, true)] [] = Ok 0x4840D6 /\ (exists e, CheckCRC m [0x20; 0x0; 0x17; 0xb0; 0x4; 0xf9; 0xa1] [(0x406B90, true)] [] = Err e).
Proof. exact Examples.allowed_example. Qed.
Print Assumptions C18_allowed_example.
