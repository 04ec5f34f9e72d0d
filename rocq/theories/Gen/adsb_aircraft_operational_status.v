(* GENERATED by tools/go2coq.py from /repo/pkg/adsb/aircraft_operational_status -- do not edit by hand.
   One Gallina definition per Go declaration; each is preceded by the file and lines it models.
   Error values are represented by their text, see DESIGN.md.
*)
From Verif Require Import GoBase.
From Verif.Gen Require adsb bds65.
Local Open Scope Z_scope.

(* pkg/adsb/aircraft_operational_status/aircraft_operational_status.go:9-12 *)
Record AircraftOperationalStatus := mkAircraftOperationalStatus {
  AircraftOperationalStatus_AircraftOperationalStatus : bds65.AircraftOperationalStatus;
  AircraftOperationalStatus_adsbVersion : adsb.ADSBVersion }.

(* pkg/adsb/aircraft_operational_status/aircraft_operational_status.go:15-17 *)
Definition AircraftOperationalStatus_GetADSBVersion (message : AircraftOperationalStatus) : adsb.ADSBVersion :=
  message.(AircraftOperationalStatus_adsbVersion).

(* pkg/adsb/aircraft_operational_status/aircraft_operational_status.go:20-22 *)
Definition AircraftOperationalStatus_CheckCoherency (message : AircraftOperationalStatus) : res unit :=
  bds65.IAircraftOperationalStatus_CheckCoherency message.(AircraftOperationalStatus_AircraftOperationalStatus).

(* pkg/adsb/aircraft_operational_status/aircraft_operational_status.go:24-28 *)
Definition AircraftOperationalStatus_ToString (message : AircraftOperationalStatus) : string :=
  ((bds65.IAircraftOperationalStatus_ToString message.(AircraftOperationalStatus_AircraftOperationalStatus))).

(* pkg/adsb/aircraft_operational_status/aircraft_operational_status.go:31-42 *)
Definition ReadAircraftOperationalStatus (unused : adsb.ADSBVersion) (data : list Z) : res AircraftOperationalStatus :=
  match bds65.ReadAircraftOperationalStatus data with
  | Ok bds =>
    Ok ({| AircraftOperationalStatus_AircraftOperationalStatus := bds;
      AircraftOperationalStatus_adsbVersion := (bds65.IAircraftOperationalStatus_GetADSBLevel bds) |})
  | Err e =>
    Err e
  | Panic => Panic
  end.
