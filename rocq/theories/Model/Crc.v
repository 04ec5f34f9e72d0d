(* Model of pkg/modes/reader/crc.go: the CRC of Mode S frames. *)
From Verif Require Import GoBase.
From Verif.Gen Require bitutils modes_common modes_fields modes_messages.
Local Open Scope Z_scope.

(* pkg/modes/messages/messages.go:6-13 ModeSMessage: the interface is the sum of the
   eleven types that implement it. *)
Inductive ModeSMessage : Type :=
| MDF0 (m : modes_messages.MessageDF0)
| MDF4 (m : modes_messages.MessageDF4)
| MDF5 (m : modes_messages.MessageDF5)
| MDF11 (m : modes_messages.MessageDF11)
| MDF16 (m : modes_messages.MessageDF16)
| MDF17 (m : modes_messages.MessageDF17)
| MDF18 (m : modes_messages.MessageDF18)
| MDF19 (m : modes_messages.MessageDF19)
| MDF20 (m : modes_messages.MessageDF20)
| MDF21 (m : modes_messages.MessageDF21)
| MDF24 (m : modes_messages.MessageDF24).

(* dynamic dispatch of GetDownLinkFormat: pkg/modes/messages/df*.go *)
Definition GetDownLinkFormat (message : ModeSMessage) : Z :=
  match message with
  | MDF0 m => modes_messages.MessageDF0_GetDownLinkFormat m
  | MDF4 m => modes_messages.MessageDF4_GetDownLinkFormat m
  | MDF5 m => modes_messages.MessageDF5_GetDownLinkFormat m
  | MDF11 m => modes_messages.MessageDF11_GetDownLinkFormat m
  | MDF16 m => modes_messages.MessageDF16_GetDownLinkFormat m
  | MDF17 m => modes_messages.MessageDF17_GetDownLinkFormat m
  | MDF18 m => modes_messages.MessageDF18_GetDownLinkFormat m
  | MDF19 m => modes_messages.MessageDF19_GetDownLinkFormat m
  | MDF20 m => modes_messages.MessageDF20_GetDownLinkFormat m
  | MDF21 m => modes_messages.MessageDF21_GetDownLinkFormat m
  | MDF24 m => modes_messages.MessageDF24_GetDownLinkFormat m
  end.

(* pkg/modes/reader/crc.go:106 crcPolynomial *)
Definition crcPolynomial : list Z := [0xFF; 0xF4; 0x09].

(* pkg/modes/reader/crc.go:126-151: the body of the loop of computeParity on bit i.
   The 3-byte array crc is the triple (c0, c1, c2); the two inner loops over
   its indices are unrolled. *)
Definition parityStep (data : list Z) (i : Z) (crc : Z * Z * Z) : res (Z * Z * Z) :=
  let '(c0, c1, c2) := crc in
  (* Keep msb *)
  let invert := negb (Z.land c0 0x80 =? 0) in
  (* Shift left *)
  let c0 := u8 (Z.shiftl c0 1) in
  let c0 := Z.lor c0 (Z.land (Z.shiftr c1 7) 0x1) in
  let c1 := u8 (Z.shiftl c1 1) in
  let c1 := Z.lor c1 (Z.land (Z.shiftr c2 7) 0x1) in
  let c2 := u8 (Z.shiftl c2 1) in
  (* Get next bit from message *)
  let byteIdx := Z.quot (3 * 8 + i) 8 in
  let bitShift := 7 - Z.rem i 8 in
  let* c2 := (if byteIdx <? len data then
                let* d := idx data byteIdx in
                Ok (Z.lor c2 (Z.land (Z.shiftr d bitShift) 0x1))
              else Ok c2) in
  (* xor *)
  if invert then
    let* p0 := idx crcPolynomial 0 in
    let* p1 := idx crcPolynomial 1 in
    let* p2 := idx crcPolynomial 2 in
    Ok (Z.lxor c0 p0, Z.lxor c1 p1, Z.lxor c2 p2)
  else Ok (c0, c1, c2).

(* the loop "for i := 0; i < len(data)*8; i++": n iterations from i *)
Fixpoint parityLoop (data : list Z) (n : nat) (i : Z) (crc : Z * Z * Z) : res (Z * Z * Z) :=
  match n with
  | O => Ok crc
  | S n' => let* crc := parityStep data i crc in parityLoop data n' (i + 1) crc
  end.

(* pkg/modes/reader/crc.go:115-154 computeParity *)
Definition computeParity (data : list Z) : res Z :=
  let* c0 := idx data 0 in
  let* c1 := idx data 1 in
  let* c2 := idx data 2 in
  let* '(c0, c1, c2) := parityLoop data (Z.to_nat (len data * 8)) 0 (c0, c1, c2) in
  Ok (bitutils.Pack3Bytes c0 c1 c2).

(* A map[common.ICAOAddress]bool is an association list; only its length and
   the presence of a key are observed. *)
Definition AddressMap := list (Z * bool).
Definition hasKey (m : AddressMap) (k : Z) : bool := List.existsb (fun e => fst e =? k) m.

(* pkg/modes/reader/crc.go:43-62 checkCRCDF11 *)
Definition checkCRCDF11 (data : list Z) (allowedInterrogatorIdentifiers : AddressMap) : res Z :=
  let* body := slice data 0 4 in
  let* contentParity := computeParity body in
  let* d4 := idx data 4 in
  let* d5 := idx data 5 in
  let* d6 := idx data 6 in
  let messageParity := bitutils.Pack3Bytes d4 d5 d6 in
  let interrogatorIdentifier := Z.lxor contentParity messageParity in
  if (len allowedInterrogatorIdentifiers >? 0) then
    if negb (hasKey allowedInterrogatorIdentifiers interrogatorIdentifier) then
      Err "the message parity resolves to an unknown Interrogator Identifier"%string
    else Ok interrogatorIdentifier
  else Ok interrogatorIdentifier.

(* pkg/modes/reader/crc.go:64-78 checkCRCDF17And18 *)
Definition checkCRCDF17And18 (data : list Z) : res Z :=
  let* d1 := idx data 1 in
  let* d2 := idx data 2 in
  let* d3 := idx data 3 in
  let messageICAO := bitutils.Pack3Bytes d1 d2 d3 in
  let* body := slice data 0 11 in
  let* contentParity := computeParity body in
  let* d11 := idx data 11 in
  let* d12 := idx data 12 in
  let* d13 := idx data 13 in
  let messageParity := bitutils.Pack3Bytes d11 d12 d13 in
  if negb (contentParity =? messageParity) then
    Err "the message does not have a valid CRC"%string
  else Ok messageICAO.

(* pkg/modes/reader/crc.go:80-100 checkCRCOther *)
Definition checkCRCOther (data : list Z) (allowedAddresses : AddressMap) : res Z :=
  let messageLength := len data in
  let* body := slice data 0 (messageLength - 3) in
  let* contentParity := computeParity body in
  let* p0 := idx data (messageLength - 3) in
  let* p1 := idx data (messageLength - 2) in
  let* p2 := idx data (messageLength - 1) in
  let messageParity := bitutils.Pack3Bytes p0 p1 p2 in
  let address := Z.lxor contentParity messageParity in
  if (len allowedAddresses >? 0) then
    if negb (hasKey allowedAddresses address) then
      Err "the message parity resolves to an unknown Address"%string
    else Ok address
  else Ok address.

(* pkg/modes/reader/crc.go:27-41 CheckCRC *)
Definition CheckCRC (message : ModeSMessage) (data : list Z)
    (allowedAddresses allowedInterrogatorIdentifiers : AddressMap) : res Z :=
  let df := GetDownLinkFormat message in
  if df =? 11 then checkCRCDF11 data allowedInterrogatorIdentifiers
  else if (df =? 17) || (df =? 18) then checkCRCDF17And18 data
  else checkCRCOther data allowedAddresses.
