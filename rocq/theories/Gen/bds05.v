(* GENERATED by tools/go2coq.py from /repo/pkg/bds/bds05 -- do not edit by hand.
   One Gallina definition per Go declaration; each is preceded by the file and lines it models.
   Error values are represented by their text, see DESIGN.md.
*)
From Verif Require Import GoBase.
From Verif.Gen Require bds05_fields bds_register.
Local Open Scope Z_scope.

(* pkg/bds/bds05/airborne_position.go:10-21 *)
Record AirbornePosition := mkAirbornePosition {
  AirbornePosition_FormatTypeCode : Z;
  AirbornePosition_SurveillanceStatus : bds05_fields.SurveillanceStatus;
  AirbornePosition_SingleAntennaFlag : bds05_fields.SingleAntennaFlag;
  AirbornePosition_AltitudeSource : bds05_fields.AltitudeSource;
  AirbornePosition_AltitudeReportMethod : bds05_fields.AltitudeReportMethod;
  AirbornePosition_AltitudeInFeet : Z;
  AirbornePosition_Time : bds05_fields.Time;
  AirbornePosition_CPRFormat : bds05_fields.CompactPositionReportingFormat;
  AirbornePosition_EncodedLatitude : Z;
  AirbornePosition_EncodedLongitude : Z }.

(* pkg/bds/bds05/airborne_position.go:24-26 *)
Definition AirbornePosition_GetRegister (message : AirbornePosition) : bds_register.Register :=
  bds_register.BDS05.

(* pkg/bds/bds05/airborne_position.go:29-31 *)
Definition AirbornePosition_CheckCoherency (message : AirbornePosition) : res unit :=
  Ok tt.

(* pkg/bds/bds05/airborne_position.go:33-57 *)
Definition AirbornePosition_ToString (message : AirbornePosition) : string :=
  ("Message:                           "%string ++ (bds_register.Register_ToString (AirbornePosition_GetRegister message)) ++
      (nl ++ "Format Type Code:                  ")%string ++ dec message.(AirbornePosition_FormatTypeCode) ++
      (nl ++ "Surveillance Status:               ")%string ++ (bds05_fields.SurveillanceStatus_ToString message.(AirbornePosition_SurveillanceStatus)) ++
      (nl ++ "Single Antenna Flag:               ")%string ++ (bds05_fields.SingleAntennaFlag_ToString message.(AirbornePosition_SingleAntennaFlag)) ++
      (nl ++ "Altitude Source:                   ")%string ++ (bds05_fields.AltitudeSource_ToString message.(AirbornePosition_AltitudeSource)) ++
      (nl ++ "Altitude Report Method:            ")%string ++ (bds05_fields.AltitudeReportMethod_ToString message.(AirbornePosition_AltitudeReportMethod)) ++
      (nl ++ "Altitude (feet):                   ")%string ++ dec message.(AirbornePosition_AltitudeInFeet) ++
      (nl ++ "Time:                              ")%string ++ (bds05_fields.Time_ToString message.(AirbornePosition_Time)) ++
      (nl ++ "Compact Position Reporting Format: ")%string ++ (bds05_fields.CompactPositionReportingFormat_ToString message.(AirbornePosition_CPRFormat)) ++
      (nl ++ "Encoded Latitude:                  ")%string ++ dec message.(AirbornePosition_EncodedLatitude) ++
      (nl ++ "Encoded Longitude:                 ")%string ++ dec message.(AirbornePosition_EncodedLongitude))%string.

(* pkg/bds/bds05/airborne_position.go:60-89 *)
Definition ReadAirbornePosition (data : list Z) : res AirbornePosition :=
  if (negb ((len data) =? 7)) then
    Err ("the data must be 7 bytes long ("%string ++ dec (len data) ++ " given)"%string)%string
  else 
    let* data0 := idx data 0 in
    let formatTypeCode := (Z.shiftr (Z.land data0 0xf8) 3) in
    if (((formatTypeCode <? 9) || (formatTypeCode >? 22)) || (formatTypeCode =? 19)) then
      Err ("the field FormatTypeCode must be comprised between 9 and 18 included or 20 and 22 included, got "%string ++ dec formatTypeCode)%string
    else 
      match bds05_fields.ReadAltitude data with
      | Ok (altitude, altitudeSource, altitudeReportMethod) =>
        let* r := bds05_fields.ReadSurveillanceStatus data in
        let* r_1 := bds05_fields.ReadSingleAntennaFlag data in
        let* r_2 := bds05_fields.ReadTime data in
        let* r_3 := bds05_fields.ReadCompactPositionReportingFormat data in
        let* r_4 := bds05_fields.ReadEncodedLatitude data in
        let* r_5 := bds05_fields.ReadEncodedLongitude data in
        Ok ({| AirbornePosition_FormatTypeCode := formatTypeCode;
      AirbornePosition_SurveillanceStatus := r;
      AirbornePosition_SingleAntennaFlag := r_1;
      AirbornePosition_AltitudeSource := altitudeSource;
      AirbornePosition_AltitudeReportMethod := altitudeReportMethod;
      AirbornePosition_AltitudeInFeet := altitude;
      AirbornePosition_Time := r_2;
      AirbornePosition_CPRFormat := r_3;
      AirbornePosition_EncodedLatitude := r_4;
      AirbornePosition_EncodedLongitude := r_5 |})
      | Err e =>
        Err ("the field Altitude is malformed"%string)
      | Panic => Panic
      end.
