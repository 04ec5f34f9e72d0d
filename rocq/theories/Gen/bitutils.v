(* GENERATED by tools/go2coq.py from /repo/pkg/bitutils -- do not edit by hand.
   One Gallina definition per Go declaration; each is preceded by the file and lines it models.
   Error values are represented by their text, see DESIGN.md.
*)
From Verif Require Import GoBase.
Local Open Scope Z_scope.

(* pkg/bitutils/bitutils.go:12-14 *)
Definition Pack2Bytes (b1 : Z) (b0 : Z) : Z :=
  (u16 ((u16 (Z.shiftl b1 8)) + b0)).

(* pkg/bitutils/bitutils.go:26-28 *)
Definition Pack3Bytes (b2 : Z) (b1 : Z) (b0 : Z) : Z :=
  (u32 ((u32 ((u32 (Z.shiftl b2 16)) + (u32 (Z.shiftl b1 8)))) + b0)).

(* pkg/bitutils/bitutils.go:41-43 *)
Definition Pack4Bytes (b3 : Z) (b2 : Z) (b1 : Z) (b0 : Z) : Z :=
  (u32 ((u32 ((u32 ((u32 (Z.shiftl b3 24)) + (u32 (Z.shiftl b2 16)))) + (u32 (Z.shiftl b1 8)))) + b0)).

(* pkg/bitutils/bitutils.go:55-83 *)
Definition Pack8Bits (b7 : bool) (b6 : bool) (b5 : bool) (b4 : bool) (b3 : bool) (b2 : bool) (b1 : bool) (b0 : bool) : Z :=
  let result := 0 in
  let result := if b7 then
    let result := (Z.lor result 0x80) in
    result
  else 
    result in
  let result := if b6 then
    let result := (Z.lor result 0x40) in
    result
  else 
    result in
  let result := if b5 then
    let result := (Z.lor result 0x20) in
    result
  else 
    result in
  let result := if b4 then
    let result := (Z.lor result 0x10) in
    result
  else 
    result in
  let result := if b3 then
    let result := (Z.lor result 8) in
    result
  else 
    result in
  let result := if b2 then
    let result := (Z.lor result 4) in
    result
  else 
    result in
  let result := if b1 then
    let result := (Z.lor result 2) in
    result
  else 
    result in
  let result := if b0 then
    let result := (Z.lor result 1) in
    result
  else 
    result in
  result.

(* pkg/bitutils/bitutils.go:95-147 *)
Definition Pack16Bits (b15 : bool) (b14 : bool) (b13 : bool) (b12 : bool) (b11 : bool) (b10 : bool) (b9 : bool) (b8 : bool) (b7 : bool) (b6 : bool) (b5 : bool) (b4 : bool) (b3 : bool) (b2 : bool) (b1 : bool) (b0 : bool) : Z :=
  let result := 0 in
  let result := if b15 then
    let result := (Z.lor result 0x8000) in
    result
  else 
    result in
  let result := if b14 then
    let result := (Z.lor result 0x4000) in
    result
  else 
    result in
  let result := if b13 then
    let result := (Z.lor result 0x2000) in
    result
  else 
    result in
  let result := if b12 then
    let result := (Z.lor result 0x1000) in
    result
  else 
    result in
  let result := if b11 then
    let result := (Z.lor result 0x800) in
    result
  else 
    result in
  let result := if b10 then
    let result := (Z.lor result 0x400) in
    result
  else 
    result in
  let result := if b9 then
    let result := (Z.lor result 0x200) in
    result
  else 
    result in
  let result := if b8 then
    let result := (Z.lor result 0x100) in
    result
  else 
    result in
  let result := if b7 then
    let result := (Z.lor result 0x80) in
    result
  else 
    result in
  let result := if b6 then
    let result := (Z.lor result 0x40) in
    result
  else 
    result in
  let result := if b5 then
    let result := (Z.lor result 0x20) in
    result
  else 
    result in
  let result := if b4 then
    let result := (Z.lor result 0x10) in
    result
  else 
    result in
  let result := if b3 then
    let result := (Z.lor result 8) in
    result
  else 
    result in
  let result := if b2 then
    let result := (Z.lor result 4) in
    result
  else 
    result in
  let result := if b1 then
    let result := (Z.lor result 2) in
    result
  else 
    result in
  let result := if b0 then
    let result := (Z.lor result 1) in
    result
  else 
    result in
  result.

(* pkg/bitutils/gillham.go:70-79 *)
Definition grayToBinary (num : Z) : Z :=
  let temp := 0 in
  let temp := (Z.lxor num (Z.shiftr num 8)) in
  let temp := (Z.lxor temp (Z.shiftr temp 4)) in
  let temp := (Z.lxor temp (Z.shiftr temp 2)) in
  let temp := (Z.lxor temp (Z.shiftr temp 1)) in
  temp.

(* pkg/bitutils/gillham.go:6-68 *)
Definition GillhamToAltitude (d1 : bool) (d2 : bool) (d4 : bool) (a1 : bool) (a2 : bool) (a4 : bool) (b1 : bool) (b2 : bool) (b4 : bool) (c1 : bool) (c2 : bool) (c4 : bool) : res Z :=
  let fiveHundredBits := 0 in
  let fiveHundredBits := if d1 then
    let fiveHundredBits := (Z.lor fiveHundredBits 0x100) in
    fiveHundredBits
  else 
    fiveHundredBits in
  let fiveHundredBits := if d2 then
    let fiveHundredBits := (Z.lor fiveHundredBits 0x80) in
    fiveHundredBits
  else 
    fiveHundredBits in
  let fiveHundredBits := if d4 then
    let fiveHundredBits := (Z.lor fiveHundredBits 0x40) in
    fiveHundredBits
  else 
    fiveHundredBits in
  let fiveHundredBits := if a1 then
    let fiveHundredBits := (Z.lor fiveHundredBits 0x20) in
    fiveHundredBits
  else 
    fiveHundredBits in
  let fiveHundredBits := if a2 then
    let fiveHundredBits := (Z.lor fiveHundredBits 0x10) in
    fiveHundredBits
  else 
    fiveHundredBits in
  let fiveHundredBits := if a4 then
    let fiveHundredBits := (Z.lor fiveHundredBits 8) in
    fiveHundredBits
  else 
    fiveHundredBits in
  let fiveHundredBits := if b1 then
    let fiveHundredBits := (Z.lor fiveHundredBits 4) in
    fiveHundredBits
  else 
    fiveHundredBits in
  let fiveHundredBits := if b2 then
    let fiveHundredBits := (Z.lor fiveHundredBits 2) in
    fiveHundredBits
  else 
    fiveHundredBits in
  let fiveHundredBits := if b4 then
    let fiveHundredBits := (Z.lor fiveHundredBits 1) in
    fiveHundredBits
  else 
    fiveHundredBits in
  let oneHundredBits := 0 in
  let oneHundredBits := if c1 then
    let oneHundredBits := (Z.lor oneHundredBits 4) in
    oneHundredBits
  else 
    oneHundredBits in
  let oneHundredBits := if c2 then
    let oneHundredBits := (Z.lor oneHundredBits 2) in
    oneHundredBits
  else 
    oneHundredBits in
  let oneHundredBits := if c4 then
    let oneHundredBits := (Z.lor oneHundredBits 1) in
    oneHundredBits
  else 
    oneHundredBits in
  let oneHundred := (grayToBinary oneHundredBits) in
  let fiveHundred := (grayToBinary fiveHundredBits) in
  if (((oneHundred =? 5) || (oneHundred =? 6)) || (oneHundred =? 0)) then
    Err ("the bits C1 to to C4 are incorrect"%string)
  else 
    let oneHundred := if (oneHundred =? 7) then
      let oneHundred := 5 in
      oneHundred
    else 
      oneHundred in
    let oneHundred := if (negb ((Z.rem fiveHundred 2) =? 0)) then
      let oneHundred := (i32 (6 - oneHundred)) in
      oneHundred
    else 
      oneHundred in
    Ok (i32 ((i32 ((i32 (fiveHundred * 500)) + (i32 (oneHundred * 100)))) - 1300)).
