(* GENERATED by tools/go2coq.py from /repo/pkg/bds/bds40/fields -- do not edit by hand.
   One Gallina definition per Go declaration; each is preceded by the file and lines it models.
   Error values are represented by their text, see DESIGN.md.
*)
From Verif Require Import GoBase.
From Verif.Gen Require bitutils.
Local Open Scope Z_scope.

(* pkg/bds/bds40/fields/status_of_mode_bits.go:8 *)
Definition StatusOfModeBits := Z.

(* pkg/bds/bds40/fields/status_of_target_altitude_source.go:8 *)
Definition StatusOfTargetAltitudeSource := Z.

(* pkg/bds/bds40/fields/target_altitude_source.go:8 *)
Definition TargetAltitudeSource := Z.

Definition SMBNoModeInformation : StatusOfModeBits := 0. (* pkg/bds/bds40/fields/status_of_mode_bits.go:12 *)

Definition SMBInformationProvided : StatusOfModeBits := 1. (* pkg/bds/bds40/fields/status_of_mode_bits.go:14 *)

Definition STASNoSourceInformation : StatusOfTargetAltitudeSource := 0. (* pkg/bds/bds40/fields/status_of_target_altitude_source.go:12 *)

Definition STASInformationProvided : StatusOfTargetAltitudeSource := 1. (* pkg/bds/bds40/fields/status_of_target_altitude_source.go:14 *)

Definition TASUnknown : TargetAltitudeSource := 0. (* pkg/bds/bds40/fields/target_altitude_source.go:12 *)

Definition TASAircraftAltitude : TargetAltitudeSource := 1. (* pkg/bds/bds40/fields/target_altitude_source.go:14 *)

Definition TASFCUMCPSelectedAltitude : TargetAltitudeSource := 2. (* pkg/bds/bds40/fields/target_altitude_source.go:16 *)

Definition TASFMSSelectedAltitude : TargetAltitudeSource := 3. (* pkg/bds/bds40/fields/target_altitude_source.go:18 *)

(* pkg/bds/bds40/fields/barometric_pressure.go:5-14 *)
Definition ReadBarometricPressure (data : list Z) : res (bool * f32) :=
  let* data0 := idx data 0 in
  let status := (negb ((Z.land data0 0x80) =? 0)) in
  let* data3 := idx data 3 in
  let byte1 := (Z.land data3 0x1f) in
  let* data4 := idx data 4 in
  let byte2 := (Z.land data4 0xfe) in
  let allBits := (Z.shiftr (bitutils.Pack2Bytes byte1 byte2) 1) in
  let pressure := (f32_add (f32_mul (f32_of_Z allBits) (f32_lit 1 10)) (f32_lit 800 1)) in
  Ok (status, pressure).

(* pkg/bds/bds40/fields/fms_selected_altitude.go:5-14 *)
Definition ReadFMSSelectedAltitude (data : list Z) : res (bool * Z) :=
  let* data1 := idx data 1 in
  let status := (negb ((Z.land data1 4) =? 0)) in
  let* data0 := idx data 0 in
  let byte1 := (Z.land data0 0x7f) in
  let byte2 := (Z.land data1 0xf8) in
  let allBits := (Z.shiftr (bitutils.Pack2Bytes byte1 byte2) 3) in
  let fmsAltitude := (u32 (allBits * 16)) in
  Ok (status, fmsAltitude).

(* pkg/bds/bds40/fields/mcp_selected_altitude.go:5-15 *)
Definition ReadMCPSelectedAltitude (data : list Z) : res (bool * Z) :=
  let* data0 := idx data 0 in
  let status := (negb ((Z.land data0 0x80) =? 0)) in
  let* data1 := idx data 1 in
  let byte1 := (Z.land data1 3) in
  let* data2 := idx data 2 in
  let byte2 := data2 in
  let* data3 := idx data 3 in
  let byte3 := (Z.land data3 0xc0) in
  let allBits := (Z.shiftr (bitutils.Pack3Bytes byte1 byte2 byte3) 6) in
  let altitude := (u32 (allBits * 16)) in
  Ok (status, altitude).

(* pkg/bds/bds40/fields/status_of_mode_bits.go:18-28 *)
Definition StatusOfModeBits_ToString (smb : StatusOfModeBits) : string :=
  if (smb =? SMBNoModeInformation) then
    "0 - No mode information provided"%string
  else if (smb =? SMBInformationProvided) then
    "1 - Mode information deliberately provided"%string
  else 
    (dec smb ++ " - Unknown code"%string)%string.

(* pkg/bds/bds40/fields/status_of_mode_bits.go:31-34 *)
Definition ReadStatusOfModeBits (data : list Z) : res StatusOfModeBits :=
  let* data5 := idx data 5 in
  let bits := (Z.land data5 1) in
  Ok bits.

(* pkg/bds/bds40/fields/status_of_target_altitude_source.go:18-28 *)
Definition StatusOfTargetAltitudeSource_ToString (smb : StatusOfTargetAltitudeSource) : string :=
  if (smb =? STASNoSourceInformation) then
    "0 - No source information provided"%string
  else if (smb =? STASInformationProvided) then
    "1 - Source information deliberately provided"%string
  else 
    (dec smb ++ " - Unknown code"%string)%string.

(* pkg/bds/bds40/fields/status_of_target_altitude_source.go:31-34 *)
Definition ReadStatusOfTargetAltitudeSource (data : list Z) : res StatusOfTargetAltitudeSource :=
  let* data6 := idx data 6 in
  let bits := (Z.shiftr (Z.land data6 4) 2) in
  Ok bits.

(* pkg/bds/bds40/fields/target_altitude_source.go:22-36 *)
Definition TargetAltitudeSource_ToString (smb : TargetAltitudeSource) : string :=
  if (smb =? TASUnknown) then
    "0 - Unknown"%string
  else if (smb =? TASAircraftAltitude) then
    "1 - Aircraft altitude"%string
  else if (smb =? TASFCUMCPSelectedAltitude) then
    "2 - FCU/MCP selected altitude"%string
  else if (smb =? TASFMSSelectedAltitude) then
    "3 - FMS selected altitude"%string
  else 
    (dec smb ++ " - Unknown code"%string)%string.

(* pkg/bds/bds40/fields/target_altitude_source.go:39-42 *)
Definition ReadTargetAltitudeSource (data : list Z) : res TargetAltitudeSource :=
  let* data6 := idx data 6 in
  let bits := (Z.land data6 3) in
  Ok bits.
