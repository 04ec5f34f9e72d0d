(* GENERATED by tools/go2coq.py from /repo/pkg/bds/bds06/fields -- do not edit by hand.
   One Gallina definition per Go declaration; each is preceded by the file and lines it models.
   Error values are represented by their text, see DESIGN.md.
*)
From Verif Require Import GoBase.
From Verif.Gen Require bitutils.
Local Open Scope Z_scope.

(* pkg/bds/bds06/fields/compact_position_reporting_format.go:8 *)
Definition CompactPositionReportingFormat := Z.

(* pkg/bds/bds06/fields/encoded_latitude.go:11 *)
Definition EncodedLatitude := Z.

(* pkg/bds/bds06/fields/encoded_longitude.go:11 *)
Definition EncodedLongitude := Z.

(* pkg/bds/bds06/fields/movement.go:10 *)
Definition MovementStatus := Z.

(* pkg/bds/bds06/fields/time.go:8 *)
Definition Time := Z.

Definition CPRFormatEven : CompactPositionReportingFormat := 0. (* pkg/bds/bds06/fields/compact_position_reporting_format.go:12 *)

Definition CPRFormatOdd : CompactPositionReportingFormat := 1. (* pkg/bds/bds06/fields/compact_position_reporting_format.go:14 *)

Definition MSNoInformation : MovementStatus := 0. (* pkg/bds/bds06/fields/movement.go:14 *)

Definition MSAircraftStopped : MovementStatus := 1. (* pkg/bds/bds06/fields/movement.go:16 *)

Definition MSAboveMaximum : MovementStatus := 124. (* pkg/bds/bds06/fields/movement.go:18 *)

Definition MSReservedDecelerating : MovementStatus := 125. (* pkg/bds/bds06/fields/movement.go:20 *)

Definition MSReservedAccelerating : MovementStatus := 126. (* pkg/bds/bds06/fields/movement.go:22 *)

Definition MSReservedBackingUp : MovementStatus := 127. (* pkg/bds/bds06/fields/movement.go:24 *)

Definition TNotSynchronized : Time := 0. (* pkg/bds/bds06/fields/time.go:12 *)

Definition TSynchronizedUTC : Time := 1. (* pkg/bds/bds06/fields/time.go:14 *)

(* pkg/bds/bds06/fields/compact_position_reporting_format.go:18-28 *)
Definition CompactPositionReportingFormat_ToString (format_ : CompactPositionReportingFormat) : string :=
  if (format_ =? CPRFormatEven) then
    "0 - even format coding"%string
  else if (format_ =? CPRFormatOdd) then
    "1 - odd format coding"%string
  else 
    (dec format_ ++ " - Unknown code"%string)%string.

(* pkg/bds/bds06/fields/compact_position_reporting_format.go:31-34 *)
Definition ReadCompactPositionReportingFormat (data : list Z) : res CompactPositionReportingFormat :=
  let* data2 := idx data 2 in
  let bits := (Z.shiftr (Z.land data2 4) 2) in
  Ok bits.

(* pkg/bds/bds06/fields/encoded_latitude.go:14-16 *)
Definition EncodedLatitude_ToString (encodedLatitude : EncodedLatitude) : string :=
  (dec encodedLatitude).

(* pkg/bds/bds06/fields/encoded_latitude.go:19-26 *)
Definition ReadEncodedLatitude (data : list Z) : res EncodedLatitude :=
  let* data2 := idx data 2 in
  let b2 := (Z.shiftr (Z.land data2 2) 1) in
  let* data3 := idx data 3 in
  let b1 := (u8 ((u8 (Z.shiftl (Z.land data2 1) 7)) + (Z.shiftr (Z.land data3 0xfe) 1))) in
  let* data4 := idx data 4 in
  let b0 := (u8 ((u8 (Z.shiftl (Z.land data3 1) 7)) + (Z.shiftr (Z.land data4 0xfe) 1))) in
  Ok (bitutils.Pack3Bytes b2 b1 b0).

(* pkg/bds/bds06/fields/encoded_longitude.go:14-16 *)
Definition EncodedLongitude_ToString (encodedLongitude : EncodedLongitude) : string :=
  (dec encodedLongitude).

(* pkg/bds/bds06/fields/encoded_longitude.go:19-26 *)
Definition ReadEncodedLongitude (data : list Z) : res EncodedLongitude :=
  let* data4 := idx data 4 in
  let b2 := (Z.land data4 1) in
  let* data5 := idx data 5 in
  let b1 := data5 in
  let* data6 := idx data 6 in
  let b0 := data6 in
  Ok (bitutils.Pack3Bytes b2 b1 b0).

(* pkg/bds/bds06/fields/ground_track.go:8-18 *)
Definition ReadGroundTrack (data : list Z) : res (f32 * bool) :=
  let* data1 := idx data 1 in
  let status := (negb ((Z.land data1 8) =? 0)) in
  let byte1 := (Z.land data1 7) in
  let* data2 := idx data 2 in
  let byte2 := (Z.land data2 0xf0) in
  let allBits := (Z.shiftr (bitutils.Pack2Bytes byte1 byte2) 4) in
  let groundTrack := (f32_div (f32_mul (f32_of_Z allBits) (f32_lit 360 1)) (f32_lit 128 1)) in
  Ok (groundTrack, status).

(* pkg/bds/bds06/fields/movement.go:28-46 *)
Definition MovementStatus_ToString (movementStatus : MovementStatus) : string :=
  if (movementStatus =? MSNoInformation) then
    "0 - no information available"%string
  else if (movementStatus =? MSAircraftStopped) then
    "1 - aircraft stopped (ground speed < 0.2315 km/h (0.125 kt))"%string
  else if (movementStatus =? MSAboveMaximum) then
    "124 - ground speed ≥ 324.1 km/h (175 kt)"%string
  else if (movementStatus =? MSReservedDecelerating) then
    "125 - reserved for A/C Decelerating"%string
  else if (movementStatus =? MSReservedAccelerating) then
    "126 - reserved for A/C Accelerating"%string
  else if (movementStatus =? MSReservedBackingUp) then
    "127 - reserved for Backing Up"%string
  else 
    (dec movementStatus ++ " - valid"%string)%string.

(* pkg/bds/bds06/fields/movement.go:50-70 *)
Definition MovementStatus_getSpeed (movementStatus : MovementStatus) : f32 :=
  if (((movementStatus =? 0) || (movementStatus =? 1)) || (movementStatus >? 124)) then
    (f32_lit 0 1)
  else if ((2 <=? movementStatus) && (movementStatus <=? 8)) then
    (f32_add (f32_lit 1 8) (f32_mul (f32_of_Z (i64 (movementStatus - 2))) (f32_lit 1 8)))
  else if ((9 <=? movementStatus) && (movementStatus <=? 12)) then
    (f32_add (f32_lit 1 1) (f32_mul (f32_of_Z (i64 (movementStatus - 9))) (f32_lit 1 4)))
  else if ((13 <=? movementStatus) && (movementStatus <=? 38)) then
    (f32_add (f32_lit 2 1) (f32_mul (f32_of_Z (i64 (movementStatus - 13))) (f32_lit 1 2)))
  else if ((39 <=? movementStatus) && (movementStatus <=? 93)) then
    (f32_add (f32_lit 15 1) (f32_mul (f32_of_Z (i64 (movementStatus - 39))) (f32_lit 1 1)))
  else if ((94 <=? movementStatus) && (movementStatus <=? 108)) then
    (f32_add (f32_lit 70 1) (f32_mul (f32_of_Z (i64 (movementStatus - 94))) (f32_lit 2 1)))
  else if ((109 <=? movementStatus) && (movementStatus <=? 123)) then
    (f32_add (f32_lit 100 1) (f32_mul (f32_of_Z (i64 (movementStatus - 109))) (f32_lit 5 1)))
  else 
    (f32_lit 175 1).

(* pkg/bds/bds06/fields/movement.go:73-77 *)
Definition ReadMovement (data : list Z) : res (f32 * MovementStatus) :=
  let* data0 := idx data 0 in
  let* data1 := idx data 1 in
  let bits := (u8 ((u8 (Z.shiftl (Z.land data0 7) 4)) + (Z.shiftr (Z.land data1 0xf0) 4))) in
  let status := bits in
  Ok ((MovementStatus_getSpeed status), status).

(* pkg/bds/bds06/fields/time.go:18-28 *)
Definition Time_ToString (time : Time) : string :=
  if (time =? TNotSynchronized) then
    "0 - not synchronized to UTC"%string
  else if (time =? TSynchronizedUTC) then
    "1 - synchronized to UTC"%string
  else 
    (dec time ++ " - Unknown code"%string)%string.

(* pkg/bds/bds06/fields/time.go:31-34 *)
Definition ReadTime (data : list Z) : res Time :=
  let* data2 := idx data 2 in
  let bits := (Z.shiftr (Z.land data2 8) 3) in
  Ok bits.
