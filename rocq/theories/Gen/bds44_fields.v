(* GENERATED by tools/go2coq.py from /repo/pkg/bds/bds44/fields -- do not edit by hand.
   One Gallina definition per Go declaration; each is preceded by the file and lines it models.
   Error values are represented by their text, see DESIGN.md.
*)
From Verif Require Import GoBase.
From Verif.Gen Require bitutils.
Local Open Scope Z_scope.

(* pkg/bds/bds44/fields/source.go:8 *)
Definition Source := Z.

(* pkg/bds/bds44/fields/turbulence.go:11 *)
Definition TurbulenceLevel := Z.

(* pkg/bds/bds44/fields/turbulence_flag.go:8 *)
Definition TurbulenceFlag := Z.

Definition SourceInvalid : Source := 0. (* pkg/bds/bds44/fields/source.go:12 *)

Definition SourceINS : Source := 1. (* pkg/bds/bds44/fields/source.go:14 *)

Definition SourceGNSS : Source := 2. (* pkg/bds/bds44/fields/source.go:16 *)

Definition SourceDMEDME : Source := 3. (* pkg/bds/bds44/fields/source.go:18 *)

Definition SourceVORDME : Source := 4. (* pkg/bds/bds44/fields/source.go:20 *)

Definition TLNil : TurbulenceLevel := 0. (* pkg/bds/bds44/fields/turbulence.go:15 *)

Definition TLLight : TurbulenceLevel := 1. (* pkg/bds/bds44/fields/turbulence.go:17 *)

Definition TLModerate : TurbulenceLevel := 2. (* pkg/bds/bds44/fields/turbulence.go:19 *)

Definition TLSevere : TurbulenceLevel := 3. (* pkg/bds/bds44/fields/turbulence.go:21 *)

Definition TFNoDataAvailable : TurbulenceFlag := 0. (* pkg/bds/bds44/fields/turbulence_flag.go:12 *)

Definition TFDataAvailable : TurbulenceFlag := 1. (* pkg/bds/bds44/fields/turbulence_flag.go:14 *)

(* pkg/bds/bds44/fields/averge_static_pressure.go:6-15 *)
Definition ReadAverageStaticPressureV0 (data : list Z) : res (bool * Z) :=
  let* data4 := idx data 4 in
  let status := (negb ((Z.land data4 0x20) =? 0)) in
  let byte1 := (Z.land data4 0x1f) in
  let* data5 := idx data 5 in
  let byte2 := (Z.land data5 0xfc) in
  let allBits := (Z.shiftr (bitutils.Pack2Bytes byte1 byte2) 2) in
  let pressure := allBits in
  Ok (status, pressure).

(* pkg/bds/bds44/fields/averge_static_pressure.go:18-27 *)
Definition ReadAverageStaticPressureV1AndV2 (data : list Z) : res (bool * Z) :=
  let* data4 := idx data 4 in
  let status := (negb ((Z.land data4 0x10) =? 0)) in
  let byte1 := (Z.land data4 0xf) in
  let* data5 := idx data 5 in
  let byte2 := (Z.land data5 0xfe) in
  let allBits := (Z.shiftr (bitutils.Pack2Bytes byte1 byte2) 1) in
  let pressure := allBits in
  Ok (status, pressure).

(* pkg/bds/bds44/fields/humidity.go:3-8 *)
Definition ReadHumidityV0 (data : list Z) : res (bool * f32) :=
  let* data6 := idx data 6 in
  let status := (negb ((Z.land data6 0x40) =? 0)) in
  let humidity := (f32_div (f32_mul (f32_of_Z (Z.land data6 0x3f)) (f32_lit 100 1)) (f32_lit 64 1)) in
  Ok (status, humidity).

(* pkg/bds/bds44/fields/humidity.go:10-15 *)
Definition ReadHumidityV1AndV2 (data : list Z) : res (bool * f32) :=
  let* data6 := idx data 6 in
  let status := (negb ((Z.land data6 0x80) =? 0)) in
  let humidity := (f32_of_Z (Z.land data6 0x7f)) in
  Ok (status, humidity).

(* pkg/bds/bds44/fields/source.go:24-40 *)
Definition Source_ToString (source : Source) : string :=
  if (source =? SourceInvalid) then
    "0 - Invalid"%string
  else if (source =? SourceINS) then
    "1 - INS"%string
  else if (source =? SourceGNSS) then
    "2 - GNSS"%string
  else if (source =? SourceDMEDME) then
    "3 - DME/DME"%string
  else if (source =? SourceVORDME) then
    "4 - VOR/DMS"%string
  else 
    (dec source ++ " - Unknown code"%string)%string.

(* pkg/bds/bds44/fields/source.go:42-44 *)
Definition ReadSource (data : list Z) : res Source :=
  let* data0 := idx data 0 in
  Ok (Z.shiftr (Z.land data0 0xf0) 4).

(* pkg/bds/bds44/fields/static_air_temperature.go:6-18 *)
Definition ReadStaticAirTemperatureV0 (data : list Z) : res f32 :=
  let* data3 := idx data 3 in
  let byte1 := (Z.land data3 0xff) in
  let* data4 := idx data 4 in
  let byte2 := (Z.land data4 0xc0) in
  let allBits := (Z.shiftr (bitutils.Pack2Bytes byte1 byte2) 6) in
  let temperature := (f32_mul (f32_of_Z allBits) (f32_lit 1 4)) in
  let temperature := if (negb ((Z.land data3 1) =? 0)) then
    let temperature := (f32_sub temperature (f32_lit 128 1)) in
    temperature
  else 
    temperature in
  Ok temperature.

(* pkg/bds/bds44/fields/static_air_temperature.go:21-34 *)
Definition ReadStaticAirTemperatureV1AndV2 (data : list Z) : res (bool * f32) :=
  let* data2 := idx data 2 in
  let status := (negb ((Z.land data2 1) =? 0)) in
  let* data3 := idx data 3 in
  let byte1 := (Z.land data3 0x7f) in
  let* data4 := idx data 4 in
  let byte2 := (Z.land data4 0xe0) in
  let allBits := (Z.shiftr (bitutils.Pack2Bytes byte1 byte2) 5) in
  let temperature := (f32_mul (f32_of_Z allBits) (f32_lit 1 8)) in
  let temperature := if (negb ((Z.land data3 0x80) =? 0)) then
    let temperature := (f32_sub temperature (f32_lit 128 1)) in
    temperature
  else 
    temperature in
  Ok (status, temperature).

(* pkg/bds/bds44/fields/turbulence.go:25-39 *)
Definition TurbulenceLevel_ToString (tl : TurbulenceLevel) : string :=
  if (tl =? TLNil) then
    "0 - Nil"%string
  else if (tl =? TLLight) then
    "1 - Light"%string
  else if (tl =? TLModerate) then
    "2 - Moderate"%string
  else if (tl =? TLSevere) then
    "3 - Severe"%string
  else 
    (dec tl ++ " - Unknown code"%string)%string.

(* pkg/bds/bds44/fields/turbulence.go:41-50 *)
Definition ReadTurbulence (data : list Z) : res (bool * TurbulenceLevel) :=
  let* data5 := idx data 5 in
  let status := (negb ((Z.land data5 2) =? 0)) in
  let byte1 := (Z.land data5 1) in
  let* data6 := idx data 6 in
  let byte2 := (Z.land data6 0x80) in
  let allBits := (Z.shiftr (bitutils.Pack2Bytes byte1 byte2) 7) in
  let level := (u8 allBits) in
  Ok (status, level).

(* pkg/bds/bds44/fields/turbulence_flag.go:18-28 *)
Definition TurbulenceFlag_ToString (tf : TurbulenceFlag) : string :=
  if (tf =? TFNoDataAvailable) then
    "0 - turbulence data not available in Register 45"%string
  else if (tf =? TFDataAvailable) then
    "1 - turbulence data available in Register 45"%string
  else 
    (dec tf ++ " - Unknown code"%string)%string.

(* pkg/bds/bds44/fields/turbulence_flag.go:31-34 *)
Definition ReadTurbulenceFlag (data : list Z) : res TurbulenceFlag :=
  let* data5 := idx data 5 in
  let bits := (Z.land data5 1) in
  Ok bits.

(* pkg/bds/bds44/fields/wind_direction.go:6-15 *)
Definition ReadWindDirectionV0 (data : list Z) : res (bool * f32) :=
  let* data0 := idx data 0 in
  let status := (negb ((Z.land data0 8) =? 0)) in
  let* data1 := idx data 1 in
  let byte1 := (Z.land data1 3) in
  let* data2 := idx data 2 in
  let byte2 := (Z.land data2 0xfe) in
  let allBits := (Z.shiftr (bitutils.Pack2Bytes byte1 byte2) 1) in
  let direction := (f32_div (f32_mul (f32_of_Z allBits) (f32_lit 180 1)) (f32_lit 256 1)) in
  Ok (status, direction).

(* pkg/bds/bds44/fields/wind_direction.go:18-27 *)
Definition ReadWindDirectionV1AndV2 (data : list Z) : res (bool * f32) :=
  let* data1 := idx data 1 in
  let status := (negb ((Z.land data1 2) =? 0)) in
  let byte1 := (Z.land data1 1) in
  let* data2 := idx data 2 in
  let byte2 := (Z.land data2 0xfe) in
  let allBits := (Z.shiftr (bitutils.Pack2Bytes byte1 byte2) 1) in
  let direction := (f32_div (f32_mul (f32_of_Z allBits) (f32_lit 180 1)) (f32_lit 128 1)) in
  Ok (status, direction).

(* pkg/bds/bds44/fields/wind_speed.go:5-14 *)
Definition ReadWindSpeed (data : list Z) : res (bool * Z) :=
  let* data0 := idx data 0 in
  let status := (negb ((Z.land data0 8) =? 0)) in
  let byte1 := (Z.land data0 3) in
  let* data1 := idx data 1 in
  let byte2 := (Z.land data1 0xfc) in
  let allBits := (Z.shiftr (bitutils.Pack2Bytes byte1 byte2) 2) in
  let speed := allBits in
  Ok (status, speed).
