(* GENERATED by tools/go2coq.py from /repo/pkg/adsb/airborne_velocity -- do not edit by hand.
   One Gallina definition per Go declaration; each is preceded by the file and lines it models.
   Error values are represented by their text, see DESIGN.md.
*)
From Verif Require Import GoBase.
From Verif.Gen Require adsb bds09.
Local Open Scope Z_scope.

(* pkg/adsb/airborne_velocity/airborne_velocity.go:9-12 *)
Record AirborneVelocity := mkAirborneVelocity {
  AirborneVelocity_AirborneVelocity : bds09.AirborneVelocity;
  AirborneVelocity_adsbVersion : adsb.ADSBVersion }.

(* pkg/adsb/airborne_velocity/airborne_velocity.go:15-17 *)
Definition AirborneVelocity_GetADSBVersion (message : AirborneVelocity) : adsb.ADSBVersion :=
  message.(AirborneVelocity_adsbVersion).

(* pkg/adsb/airborne_velocity/airborne_velocity.go:20-22 *)
Definition AirborneVelocity_CheckCoherency (message : AirborneVelocity) : res unit :=
  bds09.IAirborneVelocity_CheckCoherency message.(AirborneVelocity_AirborneVelocity).

(* pkg/adsb/airborne_velocity/airborne_velocity.go:24-28 *)
Definition AirborneVelocity_ToString (ffmt : spec_float -> string) (matan2 : f64 -> f64 -> f64) (message : AirborneVelocity) : res string :=
  let* r := bds09.IAirborneVelocity_ToString ffmt matan2 message.(AirborneVelocity_AirborneVelocity) in
  Ok r.

(* pkg/adsb/airborne_velocity/airborne_velocity.go:31-42 *)
Definition ReadAirborneVelocity (adsbVersion : adsb.ADSBVersion) (data : list Z) : res AirborneVelocity :=
  match bds09.ReadAirborneVelocity data with
  | Ok bds =>
    Ok ({| AirborneVelocity_AirborneVelocity := bds; AirborneVelocity_adsbVersion := adsbVersion |})
  | Err e =>
    Err e
  | Panic => Panic
  end.
