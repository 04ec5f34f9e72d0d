(* Concrete cases meeting the hypotheses of the property theorems: Mode S replies and parity. *)
From Verif Require Import GoBase Bits.
From Verif.Spec Require Import Altitude ModeS Crc.
From Verif.Gen Require bitutils modes_common modes_fields modes_messages.
From Verif.Model Require Import Crc ModesReader.
From Verif.Proofs Require Import ModeSReader.
From Verif.Proofs Require CrcReader.
Local Open Scope Z_scope.

Ltac concrete := repeat first
  [ match goal with |- exists _, _ => eexists end
  | match goal with |- _ /\ _ => split end
  | match goal with |- bytes _ => apply bytes_check; reflexivity end
  | match goal with |- _ <> _ => intro; discriminate end
  | match goal with |- _ = _ => vm_compute; reflexivity end
  | match goal with |- _ <= _ => vm_compute; discriminate end
  | match goal with |- _ < _ => vm_compute; reflexivity end ].

Definition reply5 : list Z := [0x2D; 0x00; 0x0A; 0xAA; 0x11; 0x22; 0x33].
Definition reply16 : list Z := [0x80; 0xE1; 0x94; 0x31; 0x58; 0xC3; 0x82; 0xD6; 0x90; 0xC8; 0xAC; 1; 2; 3].
Definition reply21 : list Z := [0xA8; 0x00; 0x0D; 0x9F; 0xA5; 0x5A; 0x10; 0x32; 0x60; 0x00; 0x00; 9; 8; 7].
Definition reply24 : list Z := [0xDB; 1; 2; 3; 4; 5; 6; 7; 8; 9; 10; 11; 12; 13].
Definition squitterA : list Z := [0x8D; 0x48; 0x40; 0xD6; 0x20; 0x2C; 0xC3; 0x71; 0xC3; 0x2C; 0xE0; 0x57; 0x60; 0x98].
Definition squitterB : list Z := [0x8D; 0x40; 0x6B; 0x90; 0x20; 0x15; 0xA6; 0x78; 0xD4; 0xD2; 0x20; 0xAA; 0x4B; 0xDA].

(* two altitude replies of the aircraft 4840D6 *)
Definition replyA : list Z := [0x20; 0x0; 0x17; 0xb0; 0x4; 0xf9; 0xa1].
Definition replyB : list Z := [0x20; 0x0; 0x17; 0xb8; 0x4; 0x89; 0xcd].

Example frames_example : (exists e, ReadMessage [1; 2; 3] = Err e) /\ (exists e, ReadMessage [] = Err e) /\
  (exists m, ReadMessage reply5 = Ok (MDF5 m)) /\ (exists m, ReadMessage reply16 = Ok (MDF16 m)).
Proof. concrete. Qed.

(* a downlink format of 27 is one of those read as format 24 *)
Example kind_example : exists m, bytes reply24 /\ ReadMessage reply24 = Ok (MDF24 m) /\ bits 1 5 reply24 = 27.
Proof. concrete. Qed.

Example layout_example : bytes reply5 /\ len reply5 = 7 /\ bits 1 5 reply5 = 5 /\ identity13 reply5 = squawk 7 7 0 0 /\
  exists m, ReadMessage reply5 = Ok (MDF5 m) /\ modes_fields.Identity_IsSpecialEmergency (modes_messages.MessageDF5_Identity m) = true.
Proof. concrete. Qed.

Example long_layout_example : bytes reply16 /\ len reply16 = 14 /\ bits 1 5 reply16 = 16 /\ (exists c a, Altitude13 reply16 c a) /\
  bytes reply21 /\ len reply21 = 14 /\ bits 1 5 reply21 = 21 /\
  exists m, ReadMessage reply16 = Ok (MDF16 m) /\ modes_messages.MessageDF16_MessageACAS m = [0x58; 0xC3; 0x82; 0xD6; 0x90; 0xC8; 0xAC].
Proof.
  concrete.
  - apply alt_25; reflexivity.
Qed.

Example altitude_example : bytes frame4 /\ len frame4 = 7 /\ Altitude13 frame4 Feet25 37000 /\
  exists m, ReadMessage frame4 = Ok (MDF4 m) /\ modes_messages.MessageDF4_Altitude m = 37000.
Proof.
  assert (H : Altitude13 frame4 Feet25 37000).
  { replace 37000 with (25 * (32 * bits 20 25 frame4 + 16 * bits 27 27 frame4 + bits 29 32 frame4) - 1000) by reflexivity.
    apply alt_25; reflexivity. }
  concrete. exact H.
Qed.

(* pkg/bitutils/gillham_test.go:7-34: the reference altitudes of the repository *)
Definition pulses (s : string) : list bool :=
  List.map (fun c => Ascii.eqb c "1"%char) (list_ascii_of_string s).
Definition altitude_of (s : string) : res Z :=
  match pulses s with
  | [d2; d4; a1; a2; a4; b1; b2; b4; c1; c2; c4] => bitutils.GillhamToAltitude false d2 d4 a1 a2 a4 b1 b2 b4 c1 c2 c4
  | _ => Panic
  end.
Example gillham_tests :
  List.map altitude_of ["00000000010"; "00000001010"; "00000011010"; "00000011110"; "00000010011"; "00000110010";
    "00001001001"; "00011100100"; "01100011010"; "01110000100"; "10000000011"; "10000000001"]%string
  = [Ok (-1000); Ok (-500); Ok 0; Ok 100; Ok 600; Ok 1000; Ok 5800; Ok 10300; Ok 32000; Ok 46300; Ok 126600; Ok 126700].
Proof. vm_compute. reflexivity. Qed.

Example gillham_example :
  bitutils.GillhamToAltitude false false true true false false false true true false true false = Ok 32000 /\
  bitutils.GillhamToAltitude false false true true false false false true true true true false = Ok 32100 /\
  (exists e, bitutils.GillhamToAltitude false false true true false false false true true false false false = Err e).
Proof. concrete. Qed.

Example pack_example : bitutils.Pack3Bytes 0x48 0x40 0xD6 = 0x4840D6 /\
  bitutils.Pack8Bits true false true false false false false true = 0xA1.
Proof. concrete. Qed.

Example parity_example : bytes (octets 1 11 squitterA) /\ 3 <= len (octets 1 11 squitterA) /\
  Parity (octets 1 11 squitterA) 0x576098.
Proof. concrete. apply CrcReader.parity_is_remainder; concrete. Qed.

Example linear_example : exists r s, computeParity [0x20; 0x00; 0x17; 0xB0] = Ok r /\ computeParity [0x20; 0x00; 0x17; 0xB8] = Ok s /\
  r <> s /\ r <> 0 /\ computeParity (xor_bytes [0x20; 0x00; 0x17; 0xB0] [0x20; 0x00; 0x17; 0xB8]) = Ok (Z.lxor r s).
Proof. concrete. Qed.

Example detection_example : exists m n, bytes squitterA /\ bytes squitterB /\
  ReadMessage squitterA = Ok m /\ ReadMessage squitterB = Ok n /\
  GetDownLinkFormat m = 17 /\ GetDownLinkFormat n = 17 /\
  CheckCRC m squitterA [] [] = Ok 0x4840D6 /\ CheckCRC n squitterB [] [] = Ok 0x406B90 /\ squitterA <> squitterB.
Proof. concrete. Qed.

Example detection_overlay_example : exists m n, bytes replyA /\ bytes replyB /\ len replyA = len replyB /\
  ReadMessage replyA = Ok m /\ ReadMessage replyB = Ok n /\ GetDownLinkFormat m = 4 /\ GetDownLinkFormat n = 4 /\
  CheckCRC m replyA [] [] = Ok 0x4840D6 /\ CheckCRC n replyB [] [] = Ok 0x4840D6 /\ replyA <> replyB.
Proof. concrete. Qed.

Example roundtrip_example : exists m r, bytes replyA /\ ReadMessage replyA = Ok m /\ GetDownLinkFormat m = 4 /\
  Parity (body replyA) r /\ parity_field replyA = Z.lxor r 0x4840D6.
Proof.
  exists (match ReadMessage replyA with Ok m => m | _ => MDF19 (modes_messages.mkMessageDF19 (frame_data []) 0) end), 5028215.
  concrete. apply CrcReader.parity_is_remainder; concrete.
Qed.

(* the addresses let through *)
Example allowed_example : exists m, ReadMessage replyA = Ok m /\
  CheckCRC m replyA [(0x4840D6, true)] [] = Ok 0x4840D6 /\ (exists e, CheckCRC m replyA [(0x406B90, true)] [] = Err e).
Proof. concrete. Qed.
