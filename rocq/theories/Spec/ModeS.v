(* Specification: layout of Mode S replies (Annex 10 vol. IV 3.1.2). *)
From Verif Require Import GoBase Bits.
From Verif.Spec Require Import Altitude.
From Verif.Gen Require modes_common modes_fields.
Local Open Scope Z_scope.

(* The header and raw parts kept with every message: downlink format (bits 1-5),
   bits 6-8, the payload (from byte 2 to the last byte before the parity) and
   the last three bytes *)
Definition frame_data (frame : list Z) : modes_common.MessageData :=
  {| modes_common.MessageData_DownLinkFormat := bits 1 5 frame;
     modes_common.MessageData_FirstField := bits 6 8 frame;
     modes_common.MessageData_Payload := octets 2 (len frame - 3) frame;
     modes_common.MessageData_Parity := octets (len frame - 2) (len frame) frame |}.

(* the constant the API uses for each coding of the altitude *)
Definition coding_code (c : AltitudeCoding) : Z :=
  match c with
  | NoAltitude => modes_fields.AltitudeCodeReportNotAvailable
  | Metric => modes_fields.AltitudeCodeReportMetricUnits
  | Feet25 => modes_fields.AltitudeCodeReport25FootIncrements
  | Feet100 => modes_fields.AltitudeCodeReport100FootIncrements
  end.


(* The downlink formats defined for short (56 bits) and long (112 bits) replies *)
Definition short_format (df : Z) : Prop := df = 0 \/ df = 4 \/ df = 5 \/ df = 11.
Definition long_format (df : Z) : Prop := 16 <= df <= 21 \/ 24 <= df <= 31.

(* The formats with an AC (altitude code) field *)
Definition has_altitude (df : Z) : Prop := df = 0 \/ df = 4 \/ df = 16 \/ df = 20.
