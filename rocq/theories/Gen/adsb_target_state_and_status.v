(* GENERATED by tools/go2coq.py from /repo/pkg/adsb/target_state_and_status -- do not edit by hand.
   One Gallina definition per Go declaration; each is preceded by the file and lines it models.
   Error values are represented by their text, see DESIGN.md.
*)
From Verif Require Import GoBase.
From Verif.Gen Require adsb bds62.
Local Open Scope Z_scope.

(* pkg/adsb/target_state_and_status/target_state_status.go:9-12 *)
Record TargetStateAndStatus := mkTargetStateAndStatus {
  TargetStateAndStatus_TargetStateAndStatus : bds62.TargetStateAndStatus;
  TargetStateAndStatus_adsbVersion : adsb.ADSBVersion }.

(* pkg/adsb/target_state_and_status/target_state_status.go:15-17 *)
Definition TargetStateAndStatus_GetADSBVersion (message : TargetStateAndStatus) : adsb.ADSBVersion :=
  message.(TargetStateAndStatus_adsbVersion).

(* pkg/adsb/target_state_and_status/target_state_status.go:20-22 *)
Definition TargetStateAndStatus_CheckCoherency (message : TargetStateAndStatus) : res unit :=
  bds62.ITargetStateAndStatus_CheckCoherency message.(TargetStateAndStatus_TargetStateAndStatus).

(* pkg/adsb/target_state_and_status/target_state_status.go:24-28 *)
Definition TargetStateAndStatus_ToString (ffmt : spec_float -> string) (message : TargetStateAndStatus) : string :=
  ((bds62.ITargetStateAndStatus_ToString ffmt message.(TargetStateAndStatus_TargetStateAndStatus))).

(* pkg/adsb/target_state_and_status/target_state_status.go:31-42 *)
Definition ReadTargetStateAndStatus (adsbVersion : adsb.ADSBVersion) (data : list Z) : res TargetStateAndStatus :=
  match bds62.ReadTargetStateAndStatus data with
  | Ok bds =>
    Ok ({| TargetStateAndStatus_TargetStateAndStatus := bds; TargetStateAndStatus_adsbVersion := adsbVersion |})
  | Err e =>
    Err e
  | Panic => Panic
  end.
