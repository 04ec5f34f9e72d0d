(* GENERATED by tools/go2coq.py from /repo/pkg/bds/bds60/fields -- do not edit by hand.
   One Gallina definition per Go declaration; each is preceded by the file and lines it models.
   Error values are represented by their text, see DESIGN.md.
*)
From Verif Require Import GoBase.
From Verif.Gen Require bitutils.
Local Open Scope Z_scope.

(* pkg/bds/bds60/fields/barometric_altitude_rate.go:5-18 *)
Definition ReadBarometricAltitudeRate (data : list Z) : res (bool * Z) :=
  let* data4 := idx data 4 in
  let status := (negb ((Z.land data4 0x20) =? 0)) in
  let byte1 := (Z.land data4 0xf) in
  let* data5 := idx data 5 in
  let byte2 := (Z.land data5 0xf8) in
  let allBits := (Z.shiftr (bitutils.Pack2Bytes byte1 byte2) 3) in
  let rate := (i32 (allBits * 32)) in
  let rate := if (negb ((Z.land data4 0x10) =? 0)) then
    let rate := (i32 (rate - 16384)) in
    rate
  else 
    rate in
  Ok (status, rate).

(* pkg/bds/bds60/fields/indicated_airspeed.go:5-14 *)
Definition ReadIndicatedAirSpeed (data : list Z) : res (bool * Z) :=
  let* data1 := idx data 1 in
  let status := (negb ((Z.land data1 8) =? 0)) in
  let byte1 := (Z.land data1 7) in
  let* data2 := idx data 2 in
  let byte2 := (Z.land data2 0xfe) in
  let allBits := (Z.shiftr (bitutils.Pack2Bytes byte1 byte2) 1) in
  let speed := allBits in
  Ok (status, speed).

(* pkg/bds/bds60/fields/inertial_vertical_velocity.go:5-18 *)
Definition ReadInertialVerticalVelocity (data : list Z) : res (bool * Z) :=
  let* data5 := idx data 5 in
  let status := (negb ((Z.land data5 4) =? 0)) in
  let byte1 := (Z.land data5 1) in
  let* data6 := idx data 6 in
  let byte2 := (Z.land data6 0xff) in
  let allBits := (bitutils.Pack2Bytes byte1 byte2) in
  let rate := (Z.quot (i32 (allBits * 8192)) 256) in
  let rate := if (negb ((Z.land data5 2) =? 0)) then
    let rate := (i32 (rate - 16384)) in
    rate
  else 
    rate in
  Ok (status, rate).

(* pkg/bds/bds60/fields/mach.go:5-14 *)
Definition ReadMach (data : list Z) : res (bool * f32) :=
  let* data2 := idx data 2 in
  let status := (negb ((Z.land data2 1) =? 0)) in
  let* data3 := idx data 3 in
  let byte1 := (Z.land data3 0xff) in
  let* data4 := idx data 4 in
  let byte2 := (Z.land data4 0xc0) in
  let allBits := (Z.shiftr (bitutils.Pack2Bytes byte1 byte2) 6) in
  let speed := (f32_div (f32_mul (f32_of_Z allBits) (f32_lit 256 125)) (f32_lit 512 1)) in
  Ok (status, speed).

(* pkg/bds/bds60/fields/magnetic_heading.go:7-20 *)
Definition ReadMagneticHeading (data : list Z) : res (bool * f32) :=
  let* data0 := idx data 0 in
  let status := (negb ((Z.land data0 0x80) =? 0)) in
  let byte1 := (Z.land data0 0x3f) in
  let* data1 := idx data 1 in
  let byte2 := (Z.land data1 0xf0) in
  let allBits := (Z.shiftr (bitutils.Pack2Bytes byte1 byte2) 4) in
  let magneticHeading := (f32_div (f32_mul (f32_of_Z allBits) (f32_lit 90 1)) (f32_lit 512 1)) in
  let magneticHeading := if (negb ((Z.land data0 0x40) =? 0)) then
    let magneticHeading := (f32_sub magneticHeading (f32_lit 180 1)) in
    magneticHeading
  else 
    magneticHeading in
  Ok (status, magneticHeading).
