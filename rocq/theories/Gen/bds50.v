(* GENERATED by tools/go2coq.py from /repo/pkg/bds/bds50 -- do not edit by hand.
   One Gallina definition per Go declaration; each is preceded by the file and lines it models.
   Error values are represented by their text, see DESIGN.md.
*)
From Verif Require Import GoBase.
From Verif.Gen Require bds50_fields bds_register.
Local Open Scope Z_scope.

(* pkg/bds/bds50/track_and_turn_report.go:14-25 *)
Record TrackAndTurnReport := mkTrackAndTurnReport {
  TrackAndTurnReport_RollAngleStatus : bool;
  TrackAndTurnReport_RollAngle : f32;
  TrackAndTurnReport_TrueTrackAngleStatus : bool;
  TrackAndTurnReport_TrueTrackAngle : f32;
  TrackAndTurnReport_GroundSpeedStatus : bool;
  TrackAndTurnReport_GroundSpeed : Z;
  TrackAndTurnReport_TrackAngleRateStatus : bool;
  TrackAndTurnReport_TrackAngleRate : f32;
  TrackAndTurnReport_TrueAirSpeedStatus : bool;
  TrackAndTurnReport_TrueAirSpeed : Z }.

(* pkg/bds/bds50/track_and_turn_report.go:28-30 *)
Definition TrackAndTurnReport_GetRegister (message : TrackAndTurnReport) : bds_register.Register :=
  bds_register.BDS50.

(* pkg/bds/bds50/track_and_turn_report.go:33-57 *)
Definition TrackAndTurnReport_ToString (ffmt : spec_float -> string) (message : TrackAndTurnReport) : string :=
  ("Message:                               "%string ++ (bds_register.Register_ToString (TrackAndTurnReport_GetRegister message)) ++
      (nl ++ "Roll Angle Status:                     ")%string ++ bool_str message.(TrackAndTurnReport_RollAngleStatus) ++
      (nl ++ "Roll Angle (degrees):                  ")%string ++ ffmt message.(TrackAndTurnReport_RollAngle) ++
      (nl ++ "True Track Angle Status:               ")%string ++ bool_str message.(TrackAndTurnReport_TrueTrackAngleStatus) ++
      (nl ++ "True Track (degrees):                  ")%string ++ ffmt message.(TrackAndTurnReport_TrueTrackAngle) ++
      (nl ++ "Ground Speed Status:                   ")%string ++ bool_str message.(TrackAndTurnReport_GroundSpeedStatus) ++
      (nl ++ "Ground Speed (knots):                  ")%string ++ dec message.(TrackAndTurnReport_GroundSpeed) ++
      (nl ++ "Track Angle Rate Status:               ")%string ++ bool_str message.(TrackAndTurnReport_TrackAngleRateStatus) ++
      (nl ++ "Track Angle Rate (degrees/second):     ")%string ++ ffmt message.(TrackAndTurnReport_TrackAngleRate) ++
      (nl ++ "True Air Speed Status:                 ")%string ++ bool_str message.(TrackAndTurnReport_TrueAirSpeedStatus) ++
      (nl ++ "True Air Speed (knots):                ")%string ++ dec message.(TrackAndTurnReport_TrueAirSpeed))%string.

(* pkg/bds/bds50/track_and_turn_report.go:60-104 *)
Definition TrackAndTurnReport_CheckCoherency (message : TrackAndTurnReport) : res unit :=
  if (((((negb message.(TrackAndTurnReport_RollAngleStatus)) && (negb message.(TrackAndTurnReport_TrueTrackAngleStatus))) && (negb message.(TrackAndTurnReport_GroundSpeedStatus))) && (negb message.(TrackAndTurnReport_TrackAngleRateStatus))) && (negb message.(TrackAndTurnReport_TrueAirSpeedStatus))) then
    Err ("the message does not convey any information"%string)
  else if ((negb message.(TrackAndTurnReport_RollAngleStatus)) && (negb (fl_eqb message.(TrackAndTurnReport_RollAngle) (f32_lit 0 1)))) then
    Err ("the roll angle status is set to false, but a roll angle value is given"%string)
  else if ((negb message.(TrackAndTurnReport_TrueTrackAngleStatus)) && (negb (fl_eqb message.(TrackAndTurnReport_TrueTrackAngle) (f32_lit 0 1)))) then
    Err ("the true track angle status is set to false, but a true track angle value is given"%string)
  else if ((negb message.(TrackAndTurnReport_GroundSpeedStatus)) && (negb (message.(TrackAndTurnReport_GroundSpeed) =? 0))) then
    Err ("the ground speed status is set to false, but a ground speed value is given"%string)
  else if ((negb message.(TrackAndTurnReport_TrackAngleRateStatus)) && (negb (fl_eqb message.(TrackAndTurnReport_TrackAngleRate) (f32_lit 0 1)))) then
    Err ("the track angle rate status is set to false, but a track angle rate value is given"%string)
  else if ((negb message.(TrackAndTurnReport_TrueAirSpeedStatus)) && (negb (message.(TrackAndTurnReport_TrueAirSpeed) =? 0))) then
    Err ("the true air speed status is set to false, but a true air speed rate value is given"%string)
  else if ((fl_ltb (f32_lit 50 1) message.(TrackAndTurnReport_RollAngle)) || (fl_ltb message.(TrackAndTurnReport_RollAngle) (f32_lit (-50) 1))) then
    Err ("the roll angle is too high (above 50 degrees)"%string)
  else if (message.(TrackAndTurnReport_GroundSpeed) >? 600) then
    Err ("the ground speed is too high (above 600 knots)"%string)
  else if (message.(TrackAndTurnReport_TrueAirSpeed) >? 500) then
    Err ("the true air speed is too high (above 500 knots)"%string)
  else 
    let speedDifference := (i64 (message.(TrackAndTurnReport_GroundSpeed) - message.(TrackAndTurnReport_TrueAirSpeed))) in
    if ((speedDifference <? (-200)) || (speedDifference >? 200)) then
      Err ("the difference between true air speed and ground speed is too high (above 200 knots)"%string)
    else 
      Ok tt.

(* pkg/bds/bds50/track_and_turn_report.go:107-131 *)
Definition ReadTrackAndTurnReport (data : list Z) : res TrackAndTurnReport :=
  if (negb ((len data) =? 7)) then
    Err ("the data for Comm-B TrackAndTurnReport message must be 7 bytes long"%string)
  else 
    let* '(rollAngleStatus, rollAngle) := bds50_fields.ReadRollAngle data in
    let* '(trueTrackAngleStatus, trueTrackAngle) := bds50_fields.ReadTrueTrackAngle data in
    let* '(groundSpeedStatus, groundSpeed) := bds50_fields.ReadGroundSpeed data in
    let* '(trackAngleRateStatus, trackAngleRate) := bds50_fields.ReadTrackAngleRate data in
    let* '(trueAirSpeedStatus, trueAirSpeed) := bds50_fields.ReadTrueAirSpeed data in
    Ok ({| TrackAndTurnReport_RollAngleStatus := rollAngleStatus;
      TrackAndTurnReport_RollAngle := rollAngle;
      TrackAndTurnReport_TrueTrackAngleStatus := trueTrackAngleStatus;
      TrackAndTurnReport_TrueTrackAngle := trueTrackAngle;
      TrackAndTurnReport_GroundSpeedStatus := groundSpeedStatus;
      TrackAndTurnReport_GroundSpeed := groundSpeed;
      TrackAndTurnReport_TrackAngleRateStatus := trackAngleRateStatus;
      TrackAndTurnReport_TrackAngleRate := trackAngleRate;
      TrackAndTurnReport_TrueAirSpeedStatus := trueAirSpeedStatus;
      TrackAndTurnReport_TrueAirSpeed := trueAirSpeed |}).
