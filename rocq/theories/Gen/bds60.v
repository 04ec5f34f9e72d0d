(* GENERATED by tools/go2coq.py from /repo/pkg/bds/bds60 -- do not edit by hand.
   One Gallina definition per Go declaration; each is preceded by the file and lines it models.
   Error values are represented by their text, see DESIGN.md.
*)
From Verif Require Import GoBase.
From Verif.Gen Require bds60_fields bds_register.
Local Open Scope Z_scope.

(* pkg/bds/bds60/heading_and_speed_report.go:13-24 *)
Record HeadingAndTrackReport := mkHeadingAndTrackReport {
  HeadingAndTrackReport_MagneticHeadingStatus : bool;
  HeadingAndTrackReport_MagneticHeading : f32;
  HeadingAndTrackReport_IndicatedAirSpeedStatus : bool;
  HeadingAndTrackReport_IndicatedAirSpeed : Z;
  HeadingAndTrackReport_MachStatus : bool;
  HeadingAndTrackReport_Mach : f32;
  HeadingAndTrackReport_BarometricAltitudeRateStatus : bool;
  HeadingAndTrackReport_BarometricAltitudeRate : Z;
  HeadingAndTrackReport_InitialVerticalVelocityStatus : bool;
  HeadingAndTrackReport_InitialVerticalVelocity : Z }.

(* pkg/bds/bds60/heading_and_speed_report.go:27-29 *)
Definition HeadingAndTrackReport_GetRegister (message : HeadingAndTrackReport) : bds_register.Register :=
  bds_register.BDS60.

(* pkg/bds/bds60/heading_and_speed_report.go:32-56 *)
Definition HeadingAndTrackReport_ToString (ffmt : spec_float -> string) (message : HeadingAndTrackReport) : string :=
  ("Message:                                  "%string ++ (bds_register.Register_ToString (HeadingAndTrackReport_GetRegister message)) ++
      (nl ++ "Magnetic Heading Status:                  ")%string ++ bool_str message.(HeadingAndTrackReport_MagneticHeadingStatus) ++
      (nl ++ "Magnetic Heading (degrees):               ")%string ++ ffmt message.(HeadingAndTrackReport_MagneticHeading) ++
      (nl ++ "Indicated Air Speed Status:               ")%string ++ bool_str message.(HeadingAndTrackReport_IndicatedAirSpeedStatus) ++
      (nl ++ "Indicated Air Speed (knots):              ")%string ++ dec message.(HeadingAndTrackReport_IndicatedAirSpeed) ++
      (nl ++ "Mach Status:                              ")%string ++ bool_str message.(HeadingAndTrackReport_MachStatus) ++
      (nl ++ "Mach:                                     ")%string ++ ffmt message.(HeadingAndTrackReport_Mach) ++
      (nl ++ "Barometric Altitude Rate Status:          ")%string ++ bool_str message.(HeadingAndTrackReport_BarometricAltitudeRateStatus) ++
      (nl ++ "Barometric Altitude Rate (feet/minute):   ")%string ++ dec message.(HeadingAndTrackReport_BarometricAltitudeRate) ++
      (nl ++ "Inertial Vertical Velocity Status:        ")%string ++ bool_str message.(HeadingAndTrackReport_InitialVerticalVelocityStatus) ++
      (nl ++ "Inertial Vertical Velocity (feet/minute): ")%string ++ dec message.(HeadingAndTrackReport_InitialVerticalVelocity))%string.

(* pkg/bds/bds60/heading_and_speed_report.go:59-102 *)
Definition HeadingAndTrackReport_CheckCoherency (message : HeadingAndTrackReport) : res unit :=
  if (((((negb message.(HeadingAndTrackReport_MagneticHeadingStatus)) && (negb message.(HeadingAndTrackReport_IndicatedAirSpeedStatus))) && (negb message.(HeadingAndTrackReport_MachStatus))) && (negb message.(HeadingAndTrackReport_BarometricAltitudeRateStatus))) && (negb message.(HeadingAndTrackReport_InitialVerticalVelocityStatus))) then
    Err ("the message does not convey any information"%string)
  else if ((negb message.(HeadingAndTrackReport_MagneticHeadingStatus)) && (negb (fl_eqb message.(HeadingAndTrackReport_MagneticHeading) (f32_lit 0 1)))) then
    Err ("the magnetic heading status is set to false, but a magnetic heading value is given"%string)
  else if ((negb message.(HeadingAndTrackReport_IndicatedAirSpeedStatus)) && (negb (message.(HeadingAndTrackReport_IndicatedAirSpeed) =? 0))) then
    Err ("the indicated air speed status is set to false, but a indicated air speed value is given"%string)
  else if ((negb message.(HeadingAndTrackReport_MachStatus)) && (negb (fl_eqb message.(HeadingAndTrackReport_Mach) (f32_lit 0 1)))) then
    Err ("the mach status is set to false, but a mach value is given"%string)
  else if ((negb message.(HeadingAndTrackReport_BarometricAltitudeRateStatus)) && (negb (message.(HeadingAndTrackReport_BarometricAltitudeRate) =? 0))) then
    Err ("the barometric altitude rate status is set to false, but a barometric altitude rate value is given"%string)
  else if ((negb message.(HeadingAndTrackReport_InitialVerticalVelocityStatus)) && (negb (message.(HeadingAndTrackReport_InitialVerticalVelocity) =? 0))) then
    Err ("the initial vertical velocity status is set to false, but a initial vertical velocity value is given"%string)
  else if (message.(HeadingAndTrackReport_IndicatedAirSpeed) >? 500) then
    Err ("the indicated air speed is too high (above 500 knots)"%string)
  else if (fl_ltb (f32_lit 1 1) message.(HeadingAndTrackReport_Mach)) then
    Err ("the mach is too high (above 1.0)"%string)
  else if ((message.(HeadingAndTrackReport_BarometricAltitudeRate) <? (-6000)) || (message.(HeadingAndTrackReport_BarometricAltitudeRate) >? 6000)) then
    Err ("the barometric altitude rate is to high or to low (above or under 6000fpm)"%string)
  else if ((message.(HeadingAndTrackReport_InitialVerticalVelocity) <? (-6000)) || (message.(HeadingAndTrackReport_InitialVerticalVelocity) >? 6000)) then
    Err ("the initial vertical velocity is to high or to low (above or under 6000fpm)"%string)
  else 
    Ok tt.

(* pkg/bds/bds60/heading_and_speed_report.go:105-129 *)
Definition ReadHeadingAndSpeedReport (data : list Z) : res HeadingAndTrackReport :=
  if (negb ((len data) =? 7)) then
    Err ("the data for Comm-B HeadingAndTrackReport message must be 7 bytes long"%string)
  else 
    let* '(magneticHeadingStatus, magneticHeading) := bds60_fields.ReadMagneticHeading data in
    let* '(indicatedAirSpeedStatus, indicatedAirSpeed) := bds60_fields.ReadIndicatedAirSpeed data in
    let* '(machStatus, mach) := bds60_fields.ReadMach data in
    let* '(barometricAltitudeRateStatus, barometricAltitudeRate) := bds60_fields.ReadBarometricAltitudeRate data in
    let* '(initialVerticalVelocityStatus, initialVerticalVelocity) := bds60_fields.ReadInertialVerticalVelocity data in
    Ok ({| HeadingAndTrackReport_MagneticHeadingStatus := magneticHeadingStatus;
      HeadingAndTrackReport_MagneticHeading := magneticHeading;
      HeadingAndTrackReport_IndicatedAirSpeedStatus := indicatedAirSpeedStatus;
      HeadingAndTrackReport_IndicatedAirSpeed := indicatedAirSpeed;
      HeadingAndTrackReport_MachStatus := machStatus;
      HeadingAndTrackReport_Mach := mach;
      HeadingAndTrackReport_BarometricAltitudeRateStatus := barometricAltitudeRateStatus;
      HeadingAndTrackReport_BarometricAltitudeRate := barometricAltitudeRate;
      HeadingAndTrackReport_InitialVerticalVelocityStatus := initialVerticalVelocityStatus;
      HeadingAndTrackReport_InitialVerticalVelocity := initialVerticalVelocity |}).
