(* GENERATED by tools/go2coq.py from /repo/pkg/bds/bds05/fields -- do not edit by hand.
   One Gallina definition per Go declaration; each is preceded by the file and lines it models.
   Error values are represented by their text, see DESIGN.md.
*)
From Verif Require Import GoBase.
From Verif.Gen Require bitutils.
Local Open Scope Z_scope.

(* pkg/bds/bds05/fields/altitude.go:10 *)
Definition AltitudeSource := Z.

(* pkg/bds/bds05/fields/altitude.go:32 *)
Definition AltitudeReportMethod := Z.

(* pkg/bds/bds05/fields/compact_position_reporting_format.go:8 *)
Definition CompactPositionReportingFormat := Z.

(* pkg/bds/bds05/fields/single_antenna_flag.go:8 *)
Definition SingleAntennaFlag := Z.

(* pkg/bds/bds05/fields/surveillance_status.go:8 *)
Definition SurveillanceStatus := Z.

(* pkg/bds/bds05/fields/time.go:8 *)
Definition Time := Z.

Definition AltitudeBarometric : AltitudeSource := 0. (* pkg/bds/bds05/fields/altitude.go:14 *)

Definition AltitudeGNSS : AltitudeSource := 1. (* pkg/bds/bds05/fields/altitude.go:16 *)

Definition AltitudeReport100FootIncrements : AltitudeReportMethod := 0. (* pkg/bds/bds05/fields/altitude.go:36 *)

Definition AltitudeReport25FootIncrements : AltitudeReportMethod := 1. (* pkg/bds/bds05/fields/altitude.go:38 *)

Definition CPRFormatEven : CompactPositionReportingFormat := 0. (* pkg/bds/bds05/fields/compact_position_reporting_format.go:12 *)

Definition CPRFormatOdd : CompactPositionReportingFormat := 1. (* pkg/bds/bds05/fields/compact_position_reporting_format.go:14 *)

Definition SAFDual : SingleAntennaFlag := 0. (* pkg/bds/bds05/fields/single_antenna_flag.go:12 *)

Definition SAFSingle : SingleAntennaFlag := 1. (* pkg/bds/bds05/fields/single_antenna_flag.go:14 *)

Definition SSNoCondition : SurveillanceStatus := 0. (* pkg/bds/bds05/fields/surveillance_status.go:12 *)

Definition SSPermanentAlert : SurveillanceStatus := 1. (* pkg/bds/bds05/fields/surveillance_status.go:14 *)

Definition SSTemporaryAlert : SurveillanceStatus := 2. (* pkg/bds/bds05/fields/surveillance_status.go:16 *)

Definition SSSPICondition : SurveillanceStatus := 3. (* pkg/bds/bds05/fields/surveillance_status.go:18 *)

Definition TNotSynchronized : Time := 0. (* pkg/bds/bds05/fields/time.go:12 *)

Definition TSynchronizedUTC : Time := 1. (* pkg/bds/bds05/fields/time.go:14 *)

(* pkg/bds/bds05/fields/altitude.go:20-29 *)
Definition AltitudeSource_ToString (altitudeSource : AltitudeSource) : string :=
  if (altitudeSource =? AltitudeBarometric) then
    "0 - Barometric"%string
  else if (altitudeSource =? AltitudeGNSS) then
    "1 - GNSS"%string
  else 
    (dec altitudeSource ++ " - Unknown code"%string)%string.

(* pkg/bds/bds05/fields/altitude.go:42-51 *)
Definition AltitudeReportMethod_ToString (altitudeReportMethod : AltitudeReportMethod) : string :=
  if (altitudeReportMethod =? AltitudeReport100FootIncrements) then
    "0 - 100 Foot Increments"%string
  else if (altitudeReportMethod =? AltitudeReport25FootIncrements) then
    "1 - 25 Foot Increments"%string
  else 
    (dec altitudeReportMethod ++ " - Unknown code"%string)%string.

(* pkg/bds/bds05/fields/altitude.go:54-109 *)
Definition ReadAltitude (data : list Z) : res (Z * AltitudeSource * AltitudeReportMethod) :=
  let source := AltitudeBarometric in
  let* data0 := idx data 0 in
  let format_ := (Z.shiftr (Z.land data0 0xf8) 3) in
  let source := if ((20 <=? format_) && (format_ <=? 22)) then
    let source := AltitudeGNSS in
    source
  else 
    source in
  let* data1 := idx data 1 in
  let qBit := (negb ((Z.land data1 1) =? 0)) in
  if qBit then
    let n := 0 in
    let n := (Z.lor n (u16 (Z.shiftl (Z.land data1 0xfe) 3))) in
    let* data2 := idx data 2 in
    let n := (Z.lor n (Z.shiftr (Z.land data2 0xf0) 4)) in
    Ok ((i32 ((i32 (25 * n)) - 1000)), source, AltitudeReport25FootIncrements)
  else 
    let c1 := (negb ((Z.land data1 0x80) =? 0)) in
    let a1 := (negb ((Z.land data1 0x40) =? 0)) in
    let c2 := (negb ((Z.land data1 0x20) =? 0)) in
    let a2 := (negb ((Z.land data1 0x10) =? 0)) in
    let c4 := (negb ((Z.land data1 8) =? 0)) in
    let a4 := (negb ((Z.land data1 4) =? 0)) in
    let b1 := (negb ((Z.land data1 2) =? 0)) in
    let* data2_1 := idx data 2 in
    let b2 := (negb ((Z.land data2_1 0x80) =? 0)) in
    let d2 := (negb ((Z.land data2_1 0x40) =? 0)) in
    let b4 := (negb ((Z.land data2_1 0x20) =? 0)) in
    let d4 := (negb ((Z.land data2_1 0x10) =? 0)) in
    match bitutils.GillhamToAltitude false d2 d4 a1 a2 a4 b1 b2 b4 c1 c2 c4 with
    | Ok altitudeFeet =>
      Ok (altitudeFeet, source, AltitudeReport100FootIncrements)
    | Err e =>
      Err ("the Altitude field is malformed"%string)
    | Panic => Panic
    end.

(* pkg/bds/bds05/fields/compact_position_reporting_format.go:18-28 *)
Definition CompactPositionReportingFormat_ToString (format_ : CompactPositionReportingFormat) : string :=
  if (format_ =? CPRFormatEven) then
    "0 - even format coding"%string
  else if (format_ =? CPRFormatOdd) then
    "1 - odd format coding"%string
  else 
    (dec format_ ++ " - Unknown code"%string)%string.

(* pkg/bds/bds05/fields/compact_position_reporting_format.go:31-34 *)
Definition ReadCompactPositionReportingFormat (data : list Z) : res CompactPositionReportingFormat :=
  let* data2 := idx data 2 in
  let bits := (Z.shiftr (Z.land data2 4) 2) in
  Ok bits.

(* pkg/bds/bds05/fields/encoded_latitude.go:8-15 *)
Definition ReadEncodedLatitude (data : list Z) : res Z :=
  let* data2 := idx data 2 in
  let b2 := (Z.land data2 3) in
  let* data3 := idx data 3 in
  let b1 := data3 in
  let* data4 := idx data 4 in
  let b0 := (Z.land data4 0xfe) in
  Ok (Z.shiftr (bitutils.Pack3Bytes b2 b1 b0) 1).

(* pkg/bds/bds05/fields/encoded_longitude.go:8-15 *)
Definition ReadEncodedLongitude (data : list Z) : res Z :=
  let* data4 := idx data 4 in
  let b2 := (Z.land data4 1) in
  let* data5 := idx data 5 in
  let b1 := data5 in
  let* data6 := idx data 6 in
  let b0 := data6 in
  Ok (bitutils.Pack3Bytes b2 b1 b0).

(* pkg/bds/bds05/fields/single_antenna_flag.go:18-28 *)
Definition SingleAntennaFlag_ToString (saf : SingleAntennaFlag) : string :=
  if (saf =? SAFDual) then
    "0 - dual transmit antenna system"%string
  else if (saf =? SAFSingle) then
    "1 - single transmit antenna system"%string
  else 
    (dec saf ++ " - Unknown code"%string)%string.

(* pkg/bds/bds05/fields/single_antenna_flag.go:31-34 *)
Definition ReadSingleAntennaFlag (data : list Z) : res SingleAntennaFlag :=
  let* data0 := idx data 0 in
  let bits := (Z.land data0 1) in
  Ok bits.

(* pkg/bds/bds05/fields/surveillance_status.go:22-36 *)
Definition SurveillanceStatus_ToString (surveillanceStatus : SurveillanceStatus) : string :=
  if (surveillanceStatus =? SSNoCondition) then
    "0 - no status information"%string
  else if (surveillanceStatus =? SSPermanentAlert) then
    "1 - permanent alert condition"%string
  else if (surveillanceStatus =? SSTemporaryAlert) then
    "2 - temporary alert condition"%string
  else if (surveillanceStatus =? SSSPICondition) then
    "3 - SPI condition"%string
  else 
    (dec surveillanceStatus ++ " - Unknown code"%string)%string.

(* pkg/bds/bds05/fields/surveillance_status.go:39-42 *)
Definition ReadSurveillanceStatus (data : list Z) : res SurveillanceStatus :=
  let* data0 := idx data 0 in
  let bits := (Z.shiftr (Z.land data0 6) 1) in
  Ok bits.

(* pkg/bds/bds05/fields/time.go:18-28 *)
Definition Time_ToString (time : Time) : string :=
  if (time =? TNotSynchronized) then
    "0 - not synchronized to UTC"%string
  else if (time =? TSynchronizedUTC) then
    "1 - synchronized to UTC"%string
  else 
    (dec time ++ " - Unknown code"%string)%string.

(* pkg/bds/bds05/fields/time.go:31-34 *)
Definition ReadTime (data : list Z) : res Time :=
  let* data2 := idx data 2 in
  let bits := (Z.shiftr (Z.land data2 8) 3) in
  Ok bits.
