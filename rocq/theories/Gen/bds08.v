(* GENERATED by tools/go2coq.py from /repo/pkg/bds/bds08 -- do not edit by hand.
   One Gallina definition per Go declaration; each is preceded by the file and lines it models.
   Error values are represented by their text, see DESIGN.md.
*)
From Verif Require Import GoBase.
From Verif.Gen Require bds08_fields bds_encoding bds_register.
Local Open Scope Z_scope.

(* pkg/bds/bds08/aircraft_identification_and_category.go:14-18 *)
Record AircraftIdentificationAndCategory := mkAircraftIdentificationAndCategory {
  AircraftIdentificationAndCategory_FormatTypeCode : Z;
  AircraftIdentificationAndCategory_Category : bds08_fields.AircraftCategory;
  AircraftIdentificationAndCategory_Identification : string }.

(* pkg/bds/bds08/aircraft_identification_and_category.go:21-23 *)
Definition AircraftIdentificationAndCategory_GetRegister (message : AircraftIdentificationAndCategory) : bds_register.Register :=
  bds_register.BDS08.

(* pkg/bds/bds08/aircraft_identification_and_category.go:26-38 *)
Definition AircraftIdentificationAndCategory_CheckCoherency (message : AircraftIdentificationAndCategory) : res unit :=
  if (contains_any message.(AircraftIdentificationAndCategory_Identification) "#"%string) then
    Err ("field Identification contains a non valid character"%string)
  else 
    match bds08_fields.IAircraftCategory_CheckCoherency message.(AircraftIdentificationAndCategory_Category) with
    | Ok tt =>
      Ok tt
    | Err e =>
      Err e
    | Panic => Panic
    end.

(* pkg/bds/bds08/aircraft_identification_and_category.go:40-50 *)
Definition AircraftIdentificationAndCategory_ToString (message : AircraftIdentificationAndCategory) : string :=
  ("Message:                           "%string ++ (bds_register.Register_ToString (AircraftIdentificationAndCategory_GetRegister message)) ++
      (nl ++ "Format Type Code:                  ")%string ++ dec message.(AircraftIdentificationAndCategory_FormatTypeCode) ++
      (nl ++ "Category:                          ")%string ++ (bds08_fields.IAircraftCategory_ToString message.(AircraftIdentificationAndCategory_Category)) ++
      (nl ++ "Identification:                    ")%string ++ message.(AircraftIdentificationAndCategory_Identification))%string.

(* pkg/bds/bds08/aircraft_identification_and_category.go:53-102 *)
Definition ReadAircraftIdentificationAndCategory (data : list Z) : res AircraftIdentificationAndCategory :=
  if (negb ((len data) =? 7)) then
    Err ("the data must be 7 bytes long ("%string ++ dec (len data) ++ " given)"%string)%string
  else 
    let* data0 := idx data 0 in
    let formatTypeCode := (Z.shiftr (Z.land data0 0xf8) 3) in
    if ((formatTypeCode <? 1) || (formatTypeCode >? 4)) then
      Err ("the field FormatTypeCode must be comprised between 1 and 4 included, got "%string ++ dec formatTypeCode)%string
    else 
      let category := if (formatTypeCode =? 1) then
        let category := (bds08_fields.IAircraftCategory_AircraftCategorySetD (Z.land data0 7)) in
        category
      else if (formatTypeCode =? 2) then
        let category := (bds08_fields.IAircraftCategory_AircraftCategorySetC (Z.land data0 7)) in
        category
      else if (formatTypeCode =? 3) then
        let category := (bds08_fields.IAircraftCategory_AircraftCategorySetB (Z.land data0 7)) in
        category
      else 
        let category := (bds08_fields.IAircraftCategory_AircraftCategorySetA (Z.land data0 7)) in
        category in
      let* data1 := idx data 1 in
      let codes0 := (Z.shiftr (Z.land data1 0xfc) 2) in
      let* data2 := idx data 2 in
      let codes1 := (u8 ((u8 (Z.shiftl (Z.land data1 3) 4)) + (Z.shiftr (Z.land data2 0xf0) 4))) in
      let* data3 := idx data 3 in
      let codes2 := (u8 ((u8 (Z.shiftl (Z.land data2 0xf) 2)) + (Z.shiftr (Z.land data3 0xc0) 6))) in
      let codes3 := (Z.land data3 0x3f) in
      let* data4 := idx data 4 in
      let codes4 := (Z.shiftr (Z.land data4 0xfc) 2) in
      let* data5 := idx data 5 in
      let codes5 := (u8 ((u8 (Z.shiftl (Z.land data4 3) 4)) + (Z.shiftr (Z.land data5 0xf0) 4))) in
      let* data6 := idx data 6 in
      let codes6 := (u8 ((u8 (Z.shiftl (Z.land data5 0xf) 2)) + (Z.shiftr (Z.land data6 0xc0) 6))) in
      let codes7 := (Z.land data6 0x3f) in
      let* elt := idx bds_encoding.IdentificationCharacterCoding codes0 in
      let chars0 := elt in
      let* elt_1 := idx bds_encoding.IdentificationCharacterCoding codes1 in
      let chars1 := elt_1 in
      let* elt_2 := idx bds_encoding.IdentificationCharacterCoding codes2 in
      let chars2 := elt_2 in
      let* elt_3 := idx bds_encoding.IdentificationCharacterCoding codes3 in
      let chars3 := elt_3 in
      let* elt_4 := idx bds_encoding.IdentificationCharacterCoding codes4 in
      let chars4 := elt_4 in
      let* elt_5 := idx bds_encoding.IdentificationCharacterCoding codes5 in
      let chars5 := elt_5 in
      let* elt_6 := idx bds_encoding.IdentificationCharacterCoding codes6 in
      let chars6 := elt_6 in
      let* elt_7 := idx bds_encoding.IdentificationCharacterCoding codes7 in
      let chars7 := elt_7 in
      Ok ({| AircraftIdentificationAndCategory_FormatTypeCode := formatTypeCode;
      AircraftIdentificationAndCategory_Category := category;
      AircraftIdentificationAndCategory_Identification := (string_of_bytes ([chars0; chars1; chars2; chars3; chars4; chars5; chars6; chars7])) |}).
