(* GENERATED by tools/go2coq.py from /repo/pkg/bds/bds07/fields -- do not edit by hand.
   One Gallina definition per Go declaration; each is preceded by the file and lines it models.
   Error values are represented by their text, see DESIGN.md.
*)
From Verif Require Import GoBase.
Local Open Scope Z_scope.

(* pkg/bds/bds07/fields/altitude_type_subfield.go:8 *)
Definition AltitudeTypeSubfield := Z.

(* pkg/bds/bds07/fields/transmission_rate_subfield.go:8 *)
Definition TransmissionRateSubfield := Z.

Definition BarometricAltitude : AltitudeTypeSubfield := 0. (* pkg/bds/bds07/fields/altitude_type_subfield.go:12 *)

Definition GNSSHeight : AltitudeTypeSubfield := 1. (* pkg/bds/bds07/fields/altitude_type_subfield.go:14 *)

Definition TransmissionRateNoCapability : TransmissionRateSubfield := 0. (* pkg/bds/bds07/fields/transmission_rate_subfield.go:12 *)

Definition TransmissionRateHigh : TransmissionRateSubfield := 1. (* pkg/bds/bds07/fields/transmission_rate_subfield.go:14 *)

Definition TransmissionRateLow : TransmissionRateSubfield := 2. (* pkg/bds/bds07/fields/transmission_rate_subfield.go:16 *)

(* pkg/bds/bds07/fields/altitude_type_subfield.go:18-28 *)
Definition AltitudeTypeSubfield_ToString (ats : AltitudeTypeSubfield) : string :=
  if (ats =? BarometricAltitude) then
    "0 - Barometric altitude"%string
  else if (ats =? GNSSHeight) then
    "1 - GNSS height (HAE)"%string
  else 
    (dec ats ++ " - Unknown code"%string)%string.

(* pkg/bds/bds07/fields/altitude_type_subfield.go:31-34 *)
Definition ReadAltitudeTypeSubfield (data : list Z) : res AltitudeTypeSubfield :=
  let* data0 := idx data 0 in
  let bits := (Z.shiftr (Z.land data0 0x20) 5) in
  Ok bits.

(* pkg/bds/bds07/fields/transmission_rate_subfield.go:20-32 *)
Definition TransmissionRateSubfield_ToString (trs : TransmissionRateSubfield) : string :=
  if (trs =? TransmissionRateNoCapability) then
    "0 - Barometric altitude"%string
  else if (trs =? TransmissionRateHigh) then
    "1 - High surface squitter rate selected"%string
  else if (trs =? TransmissionRateLow) then
    "2 - Low surface squitter rate selected"%string
  else 
    (dec trs ++ " - Unknown code"%string)%string.

(* pkg/bds/bds07/fields/transmission_rate_subfield.go:35-38 *)
Definition ReadTransmissionRateSubfield (data : list Z) : res TransmissionRateSubfield :=
  let* data0 := idx data 0 in
  let bits := (Z.shiftr (Z.land data0 0xc0) 6) in
  Ok bits.
