(* GENERATED by tools/go2coq.py from /repo/pkg/bds/bds45/fields -- do not edit by hand.
   One Gallina definition per Go declaration; each is preceded by the file and lines it models.
   Error values are represented by their text, see DESIGN.md.
*)
From Verif Require Import GoBase.
From Verif.Gen Require bitutils.
Local Open Scope Z_scope.

(* pkg/bds/bds45/fields/hazard_level.go:10 *)
Definition HazardLevel := Z.

Definition HLNil : HazardLevel := 0. (* pkg/bds/bds45/fields/hazard_level.go:14 *)

Definition HLLight : HazardLevel := 1. (* pkg/bds/bds45/fields/hazard_level.go:16 *)

Definition HLModerate : HazardLevel := 2. (* pkg/bds/bds45/fields/hazard_level.go:18 *)

Definition HLSevere : HazardLevel := 3. (* pkg/bds/bds45/fields/hazard_level.go:20 *)

(* pkg/bds/bds45/fields/averge_static_pressure.go:5-14 *)
Definition ReadAverageStaticPressure (data : list Z) : res (bool * Z) :=
  let* data3 := idx data 3 in
  let status := (negb ((Z.land data3 0x20) =? 0)) in
  let byte1 := (Z.land data3 0x1f) in
  let* data4 := idx data 4 in
  let byte2 := (Z.land data4 0xfc) in
  let allBits := (Z.shiftr (bitutils.Pack2Bytes byte1 byte2) 2) in
  let pressure := allBits in
  Ok (status, pressure).

(* pkg/bds/bds45/fields/hazard_level.go:24-38 *)
Definition HazardLevel_ToString (hl : HazardLevel) : string :=
  if (hl =? HLNil) then
    "0 - Nil"%string
  else if (hl =? HLLight) then
    "1 - Light"%string
  else if (hl =? HLModerate) then
    "2 - Moderate"%string
  else if (hl =? HLSevere) then
    "3 - Severe"%string
  else 
    (dec hl ++ " - Unknown code"%string)%string.

(* pkg/bds/bds45/fields/icing.go:5-9 *)
Definition ReadIcingV0 (data : list Z) : res (bool * HazardLevel) :=
  let* data1 := idx data 1 in
  let status := (negb ((Z.land data1 0x40) =? 0)) in
  let level := (Z.shiftr (Z.land data1 0x30) 4) in
  Ok (status, level).

(* pkg/bds/bds45/fields/icing.go:11-20 *)
Definition ReadIcingV1 (data : list Z) : res (bool * HazardLevel) :=
  let* data0 := idx data 0 in
  let status := (negb ((Z.land data0 2) =? 0)) in
  let byte1 := (Z.land data0 1) in
  let* data1 := idx data 1 in
  let byte2 := (Z.land data1 0x80) in
  let allBits := (Z.shiftr (bitutils.Pack2Bytes byte1 byte2) 7) in
  let level := (u8 allBits) in
  Ok (status, level).

(* pkg/bds/bds45/fields/micro_burst.go:5-14 *)
Definition ReadMicroBurstV0 (data : list Z) : res (bool * HazardLevel) :=
  let* data0 := idx data 0 in
  let status := (negb ((Z.land data0 2) =? 0)) in
  let byte1 := (Z.land data0 1) in
  let* data1 := idx data 1 in
  let byte2 := (Z.land data1 0x80) in
  let allBits := (Z.shiftr (bitutils.Pack2Bytes byte1 byte2) 7) in
  let level := (u8 allBits) in
  Ok (status, level).

(* pkg/bds/bds45/fields/micro_burst.go:16-20 *)
Definition ReadMicroBurstV1 (data : list Z) : res (bool * HazardLevel) :=
  let* data0 := idx data 0 in
  let status := (negb ((Z.land data0 0x10) =? 0)) in
  let level := (Z.shiftr (Z.land data0 0xc) 2) in
  Ok (status, level).

(* pkg/bds/bds45/fields/radio_height.go:5-15 *)
Definition ReadRadioHeightV0 (data : list Z) : res (bool * Z) :=
  let* data4 := idx data 4 in
  let status := (negb ((Z.land data4 2) =? 0)) in
  let byte1 := (Z.land data4 1) in
  let* data5 := idx data 5 in
  let byte2 := (Z.land data5 0xff) in
  let* data6 := idx data 6 in
  let byte3 := (Z.land data6 0xe0) in
  let allBits := (Z.shiftr (bitutils.Pack3Bytes byte1 byte2 byte3) 5) in
  let height := (u32 (allBits * 16)) in
  Ok (status, height).

(* pkg/bds/bds45/fields/radio_height.go:17-26 *)
Definition ReadRadioHeightV1 (data : list Z) : res (bool * Z) :=
  let* data3 := idx data 3 in
  let status := (negb ((Z.land data3 0x80) =? 0)) in
  let byte1 := (Z.land data3 0x7f) in
  let* data4 := idx data 4 in
  let byte2 := (Z.land data4 0xf8) in
  let allBits := (Z.shiftr (bitutils.Pack2Bytes byte1 byte2) 3) in
  let height := (u32 (allBits * 2)) in
  Ok (status, height).

(* pkg/bds/bds45/fields/static_air_temperature.go:5-18 *)
Definition ReadStaticAirTemperatureV0 (data : list Z) : res (bool * f32) :=
  let* data1 := idx data 1 in
  let status := (negb ((Z.land data1 1) =? 0)) in
  let* data2 := idx data 2 in
  let byte1 := (Z.land data2 0x7f) in
  let* data3 := idx data 3 in
  let byte2 := (Z.land data3 0xc0) in
  let allBits := (Z.shiftr (bitutils.Pack2Bytes byte1 byte2) 6) in
  let temperature := (f32_mul (f32_of_Z allBits) (f32_lit 1 4)) in
  let temperature := if (negb ((Z.land data2 0x80) =? 0)) then
    let temperature := (f32_sub temperature (f32_lit 128 1)) in
    temperature
  else 
    temperature in
  Ok (status, temperature).

(* pkg/bds/bds45/fields/static_air_temperature.go:20-33 *)
Definition ReadStaticAirTemperatureV1 (data : list Z) : res (bool * f32) :=
  let* data1 := idx data 1 in
  let status := (negb ((Z.land data1 8) =? 0)) in
  let byte1 := (Z.land data1 3) in
  let* data2 := idx data 2 in
  let byte2 := (Z.land data2 0xff) in
  let allBits := (bitutils.Pack2Bytes byte1 byte2) in
  let temperature := (f32_mul (f32_of_Z allBits) (f32_lit 1 8)) in
  let temperature := if (negb ((Z.land data1 4) =? 0)) then
    let temperature := (f32_sub temperature (f32_lit 128 1)) in
    temperature
  else 
    temperature in
  Ok (status, temperature).

(* pkg/bds/bds45/fields/turbulence.go:5-9 *)
Definition ReadTurbulenceV0 (data : list Z) : res (bool * HazardLevel) :=
  let* data0 := idx data 0 in
  let status := (negb ((Z.land data0 0x80) =? 0)) in
  let level := (Z.shiftr (Z.land data0 0x60) 5) in
  Ok (status, level).

(* pkg/bds/bds45/fields/turbulence.go:11-35 *)
Definition ReadTurbulenceV1 (data : list Z) : res (bool * f32 * f32 * Z) :=
  let* data4 := idx data 4 in
  let status := (negb ((Z.land data4 4) =? 0)) in
  let byte1 := (Z.land data4 3) in
  let* data5 := idx data 5 in
  let byte2 := (Z.land data5 0xf0) in
  let average := (f32_mul (f32_of_Z (Z.shiftr (bitutils.Pack2Bytes byte1 byte2) 4)) (f32_lit 1 50)) in
  let average := if (fl_ltb (f32_lit 63 50) average) then
    let average := (f32_lit 63 50) in
    average
  else 
    average in
  let byte1 := (Z.land data5 0xf) in
  let* data6 := idx data 6 in
  let byte2 := (Z.land data6 0xc0) in
  let peak := (f32_mul (f32_of_Z (Z.shiftr (bitutils.Pack2Bytes byte1 byte2) 6)) (f32_lit 1 50)) in
  let peak := if (fl_ltb (f32_lit 63 50) peak) then
    let peak := (f32_lit 63 50) in
    peak
  else 
    peak in
  let byte1 := (Z.land data5 0xf) in
  let byte2 := (Z.land data6 0xc0) in
  let interval := (Z.shiftr (Z.land data6 0x3c) 2) in
  Ok (status, average, peak, interval).

(* pkg/bds/bds45/fields/wake_vortex.go:3-7 *)
Definition ReadWakeVortexV0 (data : list Z) : res (bool * HazardLevel) :=
  let* data1 := idx data 1 in
  let status := (negb ((Z.land data1 8) =? 0)) in
  let level := (Z.shiftr (Z.land data1 6) 1) in
  Ok (status, level).

(* pkg/bds/bds45/fields/wake_vortex.go:9-13 *)
Definition ReadWakeVortexV1 (data : list Z) : res (bool * HazardLevel) :=
  let* data1 := idx data 1 in
  let status := (negb ((Z.land data1 0x40) =? 0)) in
  let level := (Z.shiftr (Z.land data1 0x30) 4) in
  Ok (status, level).

(* pkg/bds/bds45/fields/wind_shear.go:3-7 *)
Definition ReadWindShearV0 (data : list Z) : res (bool * HazardLevel) :=
  let* data0 := idx data 0 in
  let status := (negb ((Z.land data0 0x10) =? 0)) in
  let level := (Z.shiftr (Z.land data0 0xc) 2) in
  Ok (status, level).

(* pkg/bds/bds45/fields/wind_shear.go:9-13 *)
Definition ReadWindShearV1 (data : list Z) : res (bool * HazardLevel) :=
  let* data0 := idx data 0 in
  let status := (negb ((Z.land data0 0x80) =? 0)) in
  let level := (Z.shiftr (Z.land data0 0x60) 5) in
  Ok (status, level).
