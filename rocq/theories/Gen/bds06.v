(* GENERATED by tools/go2coq.py from /repo/pkg/bds/bds06 -- do not edit by hand.
   One Gallina definition per Go declaration; each is preceded by the file and lines it models.
   Error values are represented by their text, see DESIGN.md.
*)
From Verif Require Import GoBase.
From Verif.Gen Require bds06_fields bds_register.
Local Open Scope Z_scope.

(* pkg/bds/bds06/surface_position.go:10-20 *)
Record SurfacePosition := mkSurfacePosition {
  SurfacePosition_FormatTypeCode : Z;
  SurfacePosition_MovementStatus : bds06_fields.MovementStatus;
  SurfacePosition_MovementSpeed : f32;
  SurfacePosition_GroundTrackStatus : bool;
  SurfacePosition_GroundTrack : f32;
  SurfacePosition_Time : bds06_fields.Time;
  SurfacePosition_CPRFormat : bds06_fields.CompactPositionReportingFormat;
  SurfacePosition_EncodedLatitude : bds06_fields.EncodedLatitude;
  SurfacePosition_EncodedLongitude : bds06_fields.EncodedLongitude }.

(* pkg/bds/bds06/surface_position.go:23-25 *)
Definition SurfacePosition_GetRegister (message : SurfacePosition) : bds_register.Register :=
  bds_register.BDS06.

(* pkg/bds/bds06/surface_position.go:28-30 *)
Definition SurfacePosition_CheckCoherency (message : SurfacePosition) : res unit :=
  Ok tt.

(* pkg/bds/bds06/surface_position.go:32-54 *)
Definition SurfacePosition_ToString (ffmt : spec_float -> string) (message : SurfacePosition) : string :=
  ("Message:                           "%string ++ (bds_register.Register_ToString (SurfacePosition_GetRegister message)) ++
      (nl ++ "Format Type Code:                  ")%string ++ dec message.(SurfacePosition_FormatTypeCode) ++
      (nl ++ "Movement Status:                   ")%string ++ (bds06_fields.MovementStatus_ToString message.(SurfacePosition_MovementStatus)) ++
      (nl ++ "Movement Speed (knots):            ")%string ++ ffmt message.(SurfacePosition_MovementSpeed) ++
      (nl ++ "Ground Track Status:               ")%string ++ bool_str message.(SurfacePosition_GroundTrackStatus) ++
      (nl ++ "Ground Track (degrees):            ")%string ++ ffmt message.(SurfacePosition_GroundTrack) ++
      (nl ++ "Time:                              ")%string ++ (bds06_fields.Time_ToString message.(SurfacePosition_Time)) ++
      (nl ++ "Compact Position Reporting Format: ")%string ++ (bds06_fields.CompactPositionReportingFormat_ToString message.(SurfacePosition_CPRFormat)) ++
      (nl ++ "Encoded Latitude:                  ")%string ++ dec message.(SurfacePosition_EncodedLatitude) ++
      (nl ++ "Encoded Longitude:                 ")%string ++ dec message.(SurfacePosition_EncodedLongitude))%string.

(* pkg/bds/bds06/surface_position.go:57-83 *)
Definition ReadSurfacePosition (data : list Z) : res SurfacePosition :=
  if (negb ((len data) =? 7)) then
    Err ("the data must be 7 bytes long ("%string ++ dec (len data) ++ " given)"%string)%string
  else 
    let* data0 := idx data 0 in
    let formatTypeCode := (Z.shiftr (Z.land data0 0xf8) 3) in
    if ((formatTypeCode <? 5) || (formatTypeCode >? 8)) then
      Err ("the field FormatTypeCode must be comprised between 5 and 8 included, got "%string ++ dec formatTypeCode)%string
    else 
      let* '(speed, movementStatus) := bds06_fields.ReadMovement data in
      let* '(groundTrack, groundTrackStatus) := bds06_fields.ReadGroundTrack data in
      let* r := bds06_fields.ReadTime data in
      let* r_1 := bds06_fields.ReadCompactPositionReportingFormat data in
      let* r_2 := bds06_fields.ReadEncodedLatitude data in
      let* r_3 := bds06_fields.ReadEncodedLongitude data in
      Ok ({| SurfacePosition_FormatTypeCode := formatTypeCode;
      SurfacePosition_MovementStatus := movementStatus;
      SurfacePosition_MovementSpeed := speed;
      SurfacePosition_GroundTrackStatus := groundTrackStatus;
      SurfacePosition_GroundTrack := groundTrack;
      SurfacePosition_Time := r;
      SurfacePosition_CPRFormat := r_1;
      SurfacePosition_EncodedLatitude := r_2;
      SurfacePosition_EncodedLongitude := r_3 |}).
