(* GENERATED by tools/go2coq.py from /repo/pkg/bds/bds50/fields -- do not edit by hand.
   One Gallina definition per Go declaration; each is preceded by the file and lines it models.
   Error values are represented by their text, see DESIGN.md.
*)
From Verif Require Import GoBase.
From Verif.Gen Require bitutils.
Local Open Scope Z_scope.

(* pkg/bds/bds50/fields/ground_speed.go:5-14 *)
Definition ReadGroundSpeed (data : list Z) : res (bool * Z) :=
  let* data2 := idx data 2 in
  let status := (negb ((Z.land data2 1) =? 0)) in
  let* data3 := idx data 3 in
  let byte1 := (Z.land data3 0xff) in
  let* data4 := idx data 4 in
  let byte2 := (Z.land data4 0xc0) in
  let allBits := (Z.shiftr (bitutils.Pack2Bytes byte1 byte2) 6) in
  let speed := (u32 (allBits * 2)) in
  Ok (status, speed).

(* pkg/bds/bds50/fields/roll_angle.go:7-20 *)
Definition ReadRollAngle (data : list Z) : res (bool * f32) :=
  let* data0 := idx data 0 in
  let status := (negb ((Z.land data0 0x80) =? 0)) in
  let byte1 := (Z.land data0 0x3f) in
  let* data1 := idx data 1 in
  let byte2 := (Z.land data1 0xe0) in
  let allBits := (Z.shiftr (bitutils.Pack2Bytes byte1 byte2) 5) in
  let rollAngle := (f32_div (f32_mul (f32_of_Z allBits) (f32_lit 45 1)) (f32_lit 256 1)) in
  let rollAngle := if (negb ((Z.shiftr (Z.land data0 0x40) 6) =? 0)) then
    let rollAngle := (f32_sub rollAngle (f32_lit 90 1)) in
    rollAngle
  else 
    rollAngle in
  Ok (status, rollAngle).

(* pkg/bds/bds50/fields/track_angle_rate.go:5-18 *)
Definition ReadTrackAngleRate (data : list Z) : res (bool * f32) :=
  let* data4 := idx data 4 in
  let status := (negb ((Z.land data4 0x20) =? 0)) in
  let byte1 := (Z.land data4 0xf) in
  let* data5 := idx data 5 in
  let byte2 := (Z.land data5 0xf8) in
  let allBits := (Z.shiftr (bitutils.Pack2Bytes byte1 byte2) 3) in
  let angleRate := (f32_div (f32_mul (f32_of_Z allBits) (f32_lit 8 1)) (f32_lit 256 1)) in
  let angleRate := if (negb ((Z.land data4 0x10) =? 0)) then
    let angleRate := (f32_sub angleRate (f32_lit 16 1)) in
    angleRate
  else 
    angleRate in
  Ok (status, angleRate).

(* pkg/bds/bds50/fields/true_air_speed.go:5-14 *)
Definition ReadTrueAirSpeed (data : list Z) : res (bool * Z) :=
  let* data5 := idx data 5 in
  let status := (negb ((Z.land data5 4) =? 0)) in
  let byte1 := (Z.land data5 3) in
  let* data6 := idx data 6 in
  let byte2 := (Z.land data6 0xff) in
  let allBits := (bitutils.Pack2Bytes byte1 byte2) in
  let speed := (u32 (allBits * 2)) in
  Ok (status, speed).

(* pkg/bds/bds50/fields/true_track_angle.go:7-20 *)
Definition ReadTrueTrackAngle (data : list Z) : res (bool * f32) :=
  let* data1 := idx data 1 in
  let status := (negb ((Z.land data1 0x10) =? 0)) in
  let byte1 := (Z.land data1 7) in
  let* data2 := idx data 2 in
  let byte2 := (Z.land data2 0xfe) in
  let allBits := (Z.shiftr (bitutils.Pack2Bytes byte1 byte2) 1) in
  let angle := (f32_div (f32_mul (f32_of_Z allBits) (f32_lit 90 1)) (f32_lit 512 1)) in
  let angle := if (negb ((Z.land data1 8) =? 0)) then
    let angle := (f32_sub angle (f32_lit 180 1)) in
    angle
  else 
    angle in
  Ok (status, angle).
