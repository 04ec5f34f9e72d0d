(* GENERATED by tools/go2coq.py from /repo/pkg/bds/bds20 -- do not edit by hand.
   One Gallina definition per Go declaration; each is preceded by the file and lines it models.
   Error values are represented by their text, see DESIGN.md.
*)
From Verif Require Import GoBase.
From Verif.Gen Require bds_encoding bds_register.
Local Open Scope Z_scope.

(* pkg/bds/bds20/aircraft_identification.go:15-17 *)
Record AircraftIdentification := mkAircraftIdentification {
  AircraftIdentification_Identification : string }.

(* pkg/bds/bds20/aircraft_identification.go:20-22 *)
Definition AircraftIdentification_GetRegister (message : AircraftIdentification) : bds_register.Register :=
  bds_register.BDS20.

(* pkg/bds/bds20/aircraft_identification.go:25-31 *)
Definition AircraftIdentification_ToString (message : AircraftIdentification) : string :=
  ("Message:                                 "%string ++ (bds_register.Register_ToString (AircraftIdentification_GetRegister message)) ++
      (nl ++ "Identification:                          ")%string ++ message.(AircraftIdentification_Identification) ++ nl%string)%string.

(* pkg/bds/bds20/aircraft_identification.go:34-40 *)
Definition AircraftIdentification_CheckCoherency (message : AircraftIdentification) : res unit :=
  if (contains_any message.(AircraftIdentification_Identification) "#"%string) then
    Err ("field Identification contains a non valid character"%string)
  else 
    Ok tt.

(* pkg/bds/bds20/aircraft_identification.go:43-74 *)
Definition ReadAircraftIdentification (data : list Z) : res AircraftIdentification :=
  if (negb ((len data) =? 7)) then
    Err ("the data for Comm-B AircraftIdentification message must be 7 bytes long"%string)
  else 
    let* data0 := idx data 0 in
    if (negb (data0 =? 32)) then
      Err ("the first byte of data is not 0x20"%string)
    else 
      let* data1 := idx data 1 in
      let codes0 := (Z.shiftr (Z.land data1 0xfc) 2) in
      let* data2 := idx data 2 in
      let codes1 := (u8 ((u8 (Z.shiftl (Z.land data1 3) 4)) + (Z.shiftr (Z.land data2 0xf0) 4))) in
      let* data3 := idx data 3 in
      let codes2 := (u8 ((u8 (Z.shiftl (Z.land data2 0xf) 2)) + (Z.shiftr (Z.land data3 0xc0) 6))) in
      let codes3 := (Z.land data3 0x3f) in
      let* data4 := idx data 4 in
      let codes4 := (Z.shiftr (Z.land data4 0xfc) 2) in
      let* data5 := idx data 5 in
      let codes5 := (u8 ((u8 (Z.shiftl (Z.land data4 3) 4)) + (Z.shiftr (Z.land data5 0xf0) 4))) in
      let* data6 := idx data 6 in
      let codes6 := (u8 ((u8 (Z.shiftl (Z.land data5 0xf) 2)) + (Z.shiftr (Z.land data6 0xc0) 6))) in
      let codes7 := (Z.land data6 0x3f) in
      let* elt := idx bds_encoding.IdentificationCharacterCoding codes0 in
      let chars0 := elt in
      let* elt_1 := idx bds_encoding.IdentificationCharacterCoding codes1 in
      let chars1 := elt_1 in
      let* elt_2 := idx bds_encoding.IdentificationCharacterCoding codes2 in
      let chars2 := elt_2 in
      let* elt_3 := idx bds_encoding.IdentificationCharacterCoding codes3 in
      let chars3 := elt_3 in
      let* elt_4 := idx bds_encoding.IdentificationCharacterCoding codes4 in
      let chars4 := elt_4 in
      let* elt_5 := idx bds_encoding.IdentificationCharacterCoding codes5 in
      let chars5 := elt_5 in
      let* elt_6 := idx bds_encoding.IdentificationCharacterCoding codes6 in
      let chars6 := elt_6 in
      let* elt_7 := idx bds_encoding.IdentificationCharacterCoding codes7 in
      let chars7 := elt_7 in
      Ok ({| AircraftIdentification_Identification := (string_of_bytes ([chars0; chars1; chars2; chars3; chars4; chars5; chars6; chars7])) |}).
