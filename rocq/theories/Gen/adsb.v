(* GENERATED by tools/go2coq.py from /repo/pkg/adsb -- do not edit by hand.
   One Gallina definition per Go declaration; each is preceded by the file and lines it models.
   Error values are represented by their text, see DESIGN.md.
*)
From Verif Require Import GoBase.
Local Open Scope Z_scope.

(* pkg/adsb/adsb_version.go:13 *)
Definition ADSBVersion := Z.

Definition ADSBV0 : ADSBVersion := 0. (* pkg/adsb/adsb_version.go:17 *)

Definition ADSBV1 : ADSBVersion := 1. (* pkg/adsb/adsb_version.go:19 *)

Definition ADSBV2 : ADSBVersion := 2. (* pkg/adsb/adsb_version.go:21 *)

(* pkg/adsb/adsb_version.go:25-36 *)
Definition ADSBVersion_ToString (level : ADSBVersion) : string :=
  if (level =? ADSBV0) then
    "ADSB V0"%string
  else if (level =? ADSBV1) then
    "ADSB V1"%string
  else if (level =? ADSBV2) then
    "ADSB V2"%string
  else 
    ("there is no ADSB ReaderLevel associated with value "%string ++ dec level)%string.
