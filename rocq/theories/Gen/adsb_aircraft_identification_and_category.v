(* GENERATED by tools/go2coq.py from /repo/pkg/adsb/aircraft_identification_and_category -- do not edit by hand.
   One Gallina definition per Go declaration; each is preceded by the file and lines it models.
   Error values are represented by their text, see DESIGN.md.
*)
From Verif Require Import GoBase.
From Verif.Gen Require adsb bds08.
Local Open Scope Z_scope.

(* pkg/adsb/aircraft_identification_and_category/aircraft_identification_and_category.go:9-12 *)
Record AircraftIdentificationAndCategory := mkAircraftIdentificationAndCategory {
  AircraftIdentificationAndCategory_AircraftIdentificationAndCategory : bds08.AircraftIdentificationAndCategory;
  AircraftIdentificationAndCategory_adsbVersion : adsb.ADSBVersion }.

(* pkg/adsb/aircraft_identification_and_category/aircraft_identification_and_category.go:15-17 *)
Definition AircraftIdentificationAndCategory_GetADSBVersion (message : AircraftIdentificationAndCategory) : adsb.ADSBVersion :=
  message.(AircraftIdentificationAndCategory_adsbVersion).

(* pkg/adsb/aircraft_identification_and_category/aircraft_identification_and_category.go:20-22 *)
Definition AircraftIdentificationAndCategory_CheckCoherency (message : AircraftIdentificationAndCategory) : res unit :=
  bds08.AircraftIdentificationAndCategory_CheckCoherency message.(AircraftIdentificationAndCategory_AircraftIdentificationAndCategory).

(* pkg/adsb/aircraft_identification_and_category/aircraft_identification_and_category.go:24-28 *)
Definition AircraftIdentificationAndCategory_ToString (message : AircraftIdentificationAndCategory) : string :=
  ((bds08.AircraftIdentificationAndCategory_ToString message.(AircraftIdentificationAndCategory_AircraftIdentificationAndCategory))).

(* pkg/adsb/aircraft_identification_and_category/aircraft_identification_and_category.go:31-42 *)
Definition ReadAircraftIdentificationAndCategory (adsbVersion : adsb.ADSBVersion) (data : list Z) : res AircraftIdentificationAndCategory :=
  match bds08.ReadAircraftIdentificationAndCategory data with
  | Ok bds =>
    Ok ({| AircraftIdentificationAndCategory_AircraftIdentificationAndCategory := bds;
      AircraftIdentificationAndCategory_adsbVersion := adsbVersion |})
  | Err e =>
    Err e
  | Panic => Panic
  end.
