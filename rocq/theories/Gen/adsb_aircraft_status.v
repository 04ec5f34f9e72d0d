(* GENERATED by tools/go2coq.py from /repo/pkg/adsb/aircraft_status -- do not edit by hand.
   One Gallina definition per Go declaration; each is preceded by the file and lines it models.
   Error values are represented by their text, see DESIGN.md.
*)
From Verif Require Import GoBase.
From Verif.Gen Require adsb bds61.
Local Open Scope Z_scope.

(* pkg/adsb/aircraft_status/aircraft_status.go:9-12 *)
Record AircraftStatus := mkAircraftStatus {
  AircraftStatus_AircraftStatus : bds61.AircraftStatus;
  AircraftStatus_adsbVersion : adsb.ADSBVersion }.

(* pkg/adsb/aircraft_status/aircraft_status.go:15-17 *)
Definition AircraftStatus_GetADSBVersion (message : AircraftStatus) : adsb.ADSBVersion :=
  message.(AircraftStatus_adsbVersion).

(* pkg/adsb/aircraft_status/aircraft_status.go:20-22 *)
Definition AircraftStatus_CheckCoherency (message : AircraftStatus) : res unit :=
  bds61.IAircraftStatus_CheckCoherency message.(AircraftStatus_AircraftStatus).

(* pkg/adsb/aircraft_status/aircraft_status.go:24-28 *)
Definition AircraftStatus_ToString (ffmt : spec_float -> string) (message : AircraftStatus) : res string :=
  let* r := bds61.IAircraftStatus_ToString ffmt message.(AircraftStatus_AircraftStatus) in
  Ok r.

(* pkg/adsb/aircraft_status/aircraft_status.go:31-42 *)
Definition ReadAircraftStatus (adsbVersion : adsb.ADSBVersion) (data : list Z) : res AircraftStatus :=
  match bds61.ReadAircraftStatus data with
  | Ok bds =>
    Ok ({| AircraftStatus_AircraftStatus := bds; AircraftStatus_adsbVersion := adsbVersion |})
  | Err e =>
    Err e
  | Panic => Panic
  end.
