(* GENERATED by tools/go2coq.py from /repo/pkg/adsb/airborne_position -- do not edit by hand.
   One Gallina definition per Go declaration; each is preceded by the file and lines it models.
   Error values are represented by their text, see DESIGN.md.
*)
From Verif Require Import GoBase.
From Verif.Gen Require adsb adsb_airborne_position_fields bds05.
Local Open Scope Z_scope.

(* pkg/adsb/airborne_position/airborne_position_type_0.go:12-16 *)
Record AirbornePositionType0 := mkAirbornePositionType0 {
  AirbornePositionType0_AirbornePosition : bds05.AirbornePosition;
  AirbornePositionType0_NavigationIntegrityCategory : Z;
  AirbornePositionType0_adsbVersion : adsb.ADSBVersion }.

(* pkg/adsb/airborne_position/airborne_position_v0.go:11-15 *)
Record AirbornePositionV0 := mkAirbornePositionV0 {
  AirbornePositionV0_AirbornePosition : bds05.AirbornePosition;
  AirbornePositionV0_HorizontalProtectionLimit : adsb_airborne_position_fields.HorizontalProtectionLimit;
  AirbornePositionV0_ContainmentRadius : adsb_airborne_position_fields.ContainmentRadius }.

(* pkg/adsb/airborne_position/airborne_position_v1.go:11-16 *)
Record AirbornePositionV1 := mkAirbornePositionV1 {
  AirbornePositionV1_AirbornePosition : bds05.AirbornePosition;
  AirbornePositionV1_NavigationIntegrityCodeSupplementA : bool;
  AirbornePositionV1_HorizontalContainmentRadius : adsb_airborne_position_fields.HorizontalContainmentRadiusV1;
  AirbornePositionV1_NavigationIntegrityCategory : Z }.

(* pkg/adsb/airborne_position/airborne_position_v2.go:11-17 *)
Record AirbornePositionV2 := mkAirbornePositionV2 {
  AirbornePositionV2_AirbornePosition : bds05.AirbornePosition;
  AirbornePositionV2_NavigationIntegrityCodeSupplementA : bool;
  AirbornePositionV2_NavigationIntegrityCodeSupplementB : adsb_airborne_position_fields.NavigationIntegrityCodeSupplementB;
  AirbornePositionV2_HorizontalContainmentRadius : adsb_airborne_position_fields.HorizontalContainmentRadiusV2;
  AirbornePositionV2_NavigationIntegrityCategory : Z }.

(* pkg/adsb/messages.go:8-16 (the implementations returned by this package)
   Go interface Message, as the sum of the types that implement it *)
Inductive Message :=
| IMessage_AirbornePositionType0 (m : AirbornePositionType0)
| IMessage_AirbornePositionV0 (m : AirbornePositionV0)
| IMessage_AirbornePositionV1 (m : AirbornePositionV1)
| IMessage_AirbornePositionV2 (m : AirbornePositionV2).

(* pkg/adsb/airborne_position/airborne_position_type_0.go:19-21 *)
Definition AirbornePositionType0_GetADSBVersion (message : AirbornePositionType0) : adsb.ADSBVersion :=
  message.(AirbornePositionType0_adsbVersion).

(* pkg/adsb/airborne_position/airborne_position_type_0.go:24-26 *)
Definition AirbornePositionType0_CheckCoherency (message : AirbornePositionType0) : res unit :=
  bds05.AirbornePosition_CheckCoherency message.(AirbornePositionType0_AirbornePosition).

(* pkg/adsb/airborne_position/airborne_position_type_0.go:28-34 *)
Definition AirbornePositionType0_ToString (message : AirbornePositionType0) : string :=
  ((bds05.AirbornePosition_ToString message.(AirbornePositionType0_AirbornePosition)) ++
      (nl ++ "Navigation Integrity Category:     ")%string ++ dec message.(AirbornePositionType0_NavigationIntegrityCategory))%string.

(* pkg/adsb/airborne_position/airborne_position_type_0.go:37-54 *)
Definition ReadAirbornePositionType0 (adsbVersion : adsb.ADSBVersion) (data : list Z) : res AirbornePositionType0 :=
  let* data1 := idx data 1 in
  let* data2 := idx data 2 in
  let* data3 := idx data 3 in
  let* data4 := idx data 4 in
  let* data5 := idx data 5 in
  let* data6 := idx data 6 in
  let dataTmp := [176; data1; data2; data3; data4; data5; data6] in
  match bds05.ReadAirbornePosition dataTmp with
  | Ok bds =>
    let bds := {| bds05.AirbornePosition_FormatTypeCode := 0; bds05.AirbornePosition_SurveillanceStatus := bds.(bds05.AirbornePosition_SurveillanceStatus); bds05.AirbornePosition_SingleAntennaFlag := bds.(bds05.AirbornePosition_SingleAntennaFlag); bds05.AirbornePosition_AltitudeSource := bds.(bds05.AirbornePosition_AltitudeSource); bds05.AirbornePosition_AltitudeReportMethod := bds.(bds05.AirbornePosition_AltitudeReportMethod); bds05.AirbornePosition_AltitudeInFeet := bds.(bds05.AirbornePosition_AltitudeInFeet); bds05.AirbornePosition_Time := bds.(bds05.AirbornePosition_Time); bds05.AirbornePosition_CPRFormat := bds.(bds05.AirbornePosition_CPRFormat); bds05.AirbornePosition_EncodedLatitude := bds.(bds05.AirbornePosition_EncodedLatitude); bds05.AirbornePosition_EncodedLongitude := bds.(bds05.AirbornePosition_EncodedLongitude) |} in
    Ok ({| AirbornePositionType0_AirbornePosition := bds;
      AirbornePositionType0_NavigationIntegrityCategory := 0;
      AirbornePositionType0_adsbVersion := adsbVersion |})
  | Err e =>
    Err e
  | Panic => Panic
  end.

(* pkg/adsb/airborne_position/airborne_position_v0.go:18-20 *)
Definition AirbornePositionV0_GetADSBVersion (message : AirbornePositionV0) : adsb.ADSBVersion :=
  adsb.ADSBV0.

(* pkg/adsb/airborne_position/airborne_position_v0.go:23-25 *)
Definition AirbornePositionV0_CheckCoherency (message : AirbornePositionV0) : res unit :=
  bds05.AirbornePosition_CheckCoherency message.(AirbornePositionV0_AirbornePosition).

(* pkg/adsb/airborne_position/airborne_position_v0.go:27-35 *)
Definition AirbornePositionV0_ToString (message : AirbornePositionV0) : string :=
  ((bds05.AirbornePosition_ToString message.(AirbornePositionV0_AirbornePosition)) ++
      (nl ++ "Horizontal Protection Limit:       ")%string ++ (adsb_airborne_position_fields.HorizontalProtectionLimit_ToString message.(AirbornePositionV0_HorizontalProtectionLimit)) ++
      (nl ++ "Containment Radius:                ")%string ++ (adsb_airborne_position_fields.ContainmentRadius_ToString message.(AirbornePositionV0_ContainmentRadius)))%string.

(* pkg/adsb/airborne_position/airborne_position_v0.go:38-50 *)
Definition ReadAirbornePositionV0 (data : list Z) : res AirbornePositionV0 :=
  match bds05.ReadAirbornePosition data with
  | Ok bds =>
    Ok ({| AirbornePositionV0_AirbornePosition := bds;
      AirbornePositionV0_HorizontalProtectionLimit := bds.(bds05.AirbornePosition_FormatTypeCode);
      AirbornePositionV0_ContainmentRadius := bds.(bds05.AirbornePosition_FormatTypeCode) |})
  | Err e =>
    Err e
  | Panic => Panic
  end.

(* pkg/adsb/airborne_position/airborne_position_v1.go:19-21 *)
Definition AirbornePositionV1_GetADSBVersion (message : AirbornePositionV1) : adsb.ADSBVersion :=
  adsb.ADSBV1.

(* pkg/adsb/airborne_position/airborne_position_v1.go:24-26 *)
Definition AirbornePositionV1_CheckCoherency (message : AirbornePositionV1) : res unit :=
  bds05.AirbornePosition_CheckCoherency message.(AirbornePositionV1_AirbornePosition).

(* pkg/adsb/airborne_position/airborne_position_v1.go:28-38 *)
Definition AirbornePositionV1_ToString (message : AirbornePositionV1) : string :=
  ((bds05.AirbornePosition_ToString message.(AirbornePositionV1_AirbornePosition)) ++
      (nl ++ "Navigation Integrity Code A:       ")%string ++ bool_str message.(AirbornePositionV1_NavigationIntegrityCodeSupplementA) ++
      (nl ++ "Horizontal Containment Radius:     ")%string ++ (adsb_airborne_position_fields.HorizontalContainmentRadiusV1_ToString message.(AirbornePositionV1_HorizontalContainmentRadius)) ++
      (nl ++ "Navigation Integrity Category:     ")%string ++ dec message.(AirbornePositionV1_NavigationIntegrityCategory))%string.

(* pkg/adsb/airborne_position/airborne_position_v1.go:58-100 *)
Definition getHCRAndNICForV1 (formatTypeCode : Z) (nicSupplementA : bool) : (adsb_airborne_position_fields.HorizontalContainmentRadiusV1 * Z) :=
  if (formatTypeCode =? 9) then
    (adsb_airborne_position_fields.HCRBaroV1RcLowerThan7Point5MAndVPLLowerThan11M, 11)
  else if (formatTypeCode =? 10) then
    (adsb_airborne_position_fields.HCRBaroV1RcLowerThan25MAndVPLLowerThan37Point5M, 10)
  else if (formatTypeCode =? 11) then
    if nicSupplementA then
      (adsb_airborne_position_fields.HCRBaroV1RcLowerThan75MAndVPLLowerThan112M, 9)
    else 
      (adsb_airborne_position_fields.HCRBaroV1RcLowerThan0Point1NM, 8)
  else if (formatTypeCode =? 12) then
    (adsb_airborne_position_fields.HCRBaroV1RcLowerThan0Point2NM, 7)
  else if (formatTypeCode =? 13) then
    if nicSupplementA then
      (adsb_airborne_position_fields.HCRBaroV1RcLowerThan0Point6NM, 6)
    else 
      (adsb_airborne_position_fields.HCRBaroV1RcLowerThan0Point5NM, 6)
  else if (formatTypeCode =? 14) then
    (adsb_airborne_position_fields.HCRBaroV1RcLowerThan1Point0NM, 5)
  else if (formatTypeCode =? 15) then
    (adsb_airborne_position_fields.HCRBaroV1RcLowerThan2NM, 4)
  else if (formatTypeCode =? 16) then
    if nicSupplementA then
      (adsb_airborne_position_fields.HCRBaroV1RcLowerThan4NM, 3)
    else 
      (adsb_airborne_position_fields.HCRBaroV1RcLowerThan8NM, 2)
  else if (formatTypeCode =? 17) then
    (adsb_airborne_position_fields.HCRBaroV1RcLowerThan20NM, 1)
  else if (formatTypeCode =? 18) then
    (adsb_airborne_position_fields.HCRBaroV1RcGreaterThan20NM, 0)
  else if (formatTypeCode =? 20) then
    (adsb_airborne_position_fields.HCRGNSSV1RcLowerThan7Point5MAndVPLLowerThan11M, 11)
  else if (formatTypeCode =? 21) then
    (adsb_airborne_position_fields.HCRGNSSV1RcLowerThan25MAndVPLLowerThan37Point5M, 10)
  else 
    (adsb_airborne_position_fields.HCRGNSSV1RcGreaterThan25MOrVPLGreaterThan37Point5MOrUnknown, 0).

(* pkg/adsb/airborne_position/airborne_position_v2.go:20-22 *)
Definition AirbornePositionV2_GetADSBVersion (message : AirbornePositionV2) : adsb.ADSBVersion :=
  adsb.ADSBV2.

(* pkg/adsb/airborne_position/airborne_position_v2.go:25-27 *)
Definition AirbornePositionV2_CheckCoherency (message : AirbornePositionV2) : res unit :=
  bds05.AirbornePosition_CheckCoherency message.(AirbornePositionV2_AirbornePosition).

(* pkg/adsb/airborne_position/airborne_position_v2.go:29-41 *)
Definition AirbornePositionV2_ToString (message : AirbornePositionV2) : string :=
  ((bds05.AirbornePosition_ToString message.(AirbornePositionV2_AirbornePosition)) ++
      (nl ++ "Navigation Integrity Code A:       ")%string ++ bool_str message.(AirbornePositionV2_NavigationIntegrityCodeSupplementA) ++
      (nl ++ "Navigation Integrity Code B:       ")%string ++ (adsb_airborne_position_fields.NavigationIntegrityCodeSupplementB_ToString message.(AirbornePositionV2_NavigationIntegrityCodeSupplementB)) ++
      (nl ++ "Horizontal Containment Radius:     ")%string ++ (adsb_airborne_position_fields.HorizontalContainmentRadiusV2_ToString message.(AirbornePositionV2_HorizontalContainmentRadius)) ++
      (nl ++ "Navigation Integrity Category:     ")%string ++ dec message.(AirbornePositionV2_NavigationIntegrityCategory))%string.

(* pkg/adsb/airborne_position/airborne_position_v2.go:64-111 *)
Definition getHCRAndNICForV2 (formatTypeCode : Z) (nicSupplementA : bool) (nicSupplementB : adsb_airborne_position_fields.NavigationIntegrityCodeSupplementB) : (adsb_airborne_position_fields.HorizontalContainmentRadiusV2 * Z) :=
  if (formatTypeCode =? 9) then
    (adsb_airborne_position_fields.HCRBaroV2RcLowerThan7Point5M, 11)
  else if (formatTypeCode =? 10) then
    (adsb_airborne_position_fields.HCRBaroV2RcLowerThan25M, 10)
  else if (formatTypeCode =? 11) then
    if nicSupplementA then
      (adsb_airborne_position_fields.HCRBaroV2RcLowerThan75M, 9)
    else 
      (adsb_airborne_position_fields.HCRBaroV2RcLowerThan0Point1NM, 8)
  else if (formatTypeCode =? 12) then
    (adsb_airborne_position_fields.HCRBaroV2RcLowerThan0Point2NM, 7)
  else if (formatTypeCode =? 13) then
    if (negb nicSupplementA) then
      if (nicSupplementB =? adsb_airborne_position_fields.NICBOne) then
        (adsb_airborne_position_fields.HCRBaroV2RcLowerThan0Point3NM, 6)
      else 
        (adsb_airborne_position_fields.HCRBaroV2RcLowerThan0Point5NM, 6)
    else 
      (adsb_airborne_position_fields.HCRBaroV2RcLowerThan0Point6NM, 6)
  else if (formatTypeCode =? 14) then
    (adsb_airborne_position_fields.HCRBaroV2RcLowerThan1Point0NM, 5)
  else if (formatTypeCode =? 15) then
    (adsb_airborne_position_fields.HCRBaroV2RcLowerThan2NM, 4)
  else if (formatTypeCode =? 16) then
    if nicSupplementA then
      (adsb_airborne_position_fields.HCRBaroV2RcLowerThan4NM, 3)
    else 
      (adsb_airborne_position_fields.HCRBaroV2RcLowerThan8NM, 2)
  else if (formatTypeCode =? 17) then
    (adsb_airborne_position_fields.HCRBaroV2RcLowerThan20NM, 1)
  else if (formatTypeCode =? 18) then
    (adsb_airborne_position_fields.HCRBaroV2RcGreaterThan20NM, 0)
  else if (formatTypeCode =? 20) then
    (adsb_airborne_position_fields.HCRGNSSV2RcLowerThan7Point5M, 11)
  else if (formatTypeCode =? 21) then
    (adsb_airborne_position_fields.HCRGNSSV2RcLowerThan25M, 10)
  else 
    (adsb_airborne_position_fields.HCRGNSSV2RcGreaterThan25MOrUnknown, 0).

(* dynamic dispatch of method CheckCoherency of interface Message *)
Definition IMessage_CheckCoherency (v : Message) : res unit :=
  match v with
  | IMessage_AirbornePositionType0 x => AirbornePositionType0_CheckCoherency x
  | IMessage_AirbornePositionV0 x => AirbornePositionV0_CheckCoherency x
  | IMessage_AirbornePositionV1 x => AirbornePositionV1_CheckCoherency x
  | IMessage_AirbornePositionV2 x => AirbornePositionV2_CheckCoherency x
  end.

(* dynamic dispatch of method GetADSBVersion of interface Message *)
Definition IMessage_GetADSBVersion (v : Message) : adsb.ADSBVersion :=
  match v with
  | IMessage_AirbornePositionType0 x => AirbornePositionType0_GetADSBVersion x
  | IMessage_AirbornePositionV0 x => AirbornePositionV0_GetADSBVersion x
  | IMessage_AirbornePositionV1 x => AirbornePositionV1_GetADSBVersion x
  | IMessage_AirbornePositionV2 x => AirbornePositionV2_GetADSBVersion x
  end.

(* dynamic dispatch of method ToString of interface Message *)
Definition IMessage_ToString (v : Message) : string :=
  match v with
  | IMessage_AirbornePositionType0 x => AirbornePositionType0_ToString x
  | IMessage_AirbornePositionV0 x => AirbornePositionV0_ToString x
  | IMessage_AirbornePositionV1 x => AirbornePositionV1_ToString x
  | IMessage_AirbornePositionV2 x => AirbornePositionV2_ToString x
  end.

(* pkg/adsb/airborne_position/airborne_position_v1.go:41-56 *)
Definition ReadAirbornePositionV1 (data : list Z) (nicSupplementA : bool) : res AirbornePositionV1 :=
  match bds05.ReadAirbornePosition data with
  | Ok bds =>
    let '(hcr, nic) := getHCRAndNICForV1 bds.(bds05.AirbornePosition_FormatTypeCode) nicSupplementA in
    Ok ({| AirbornePositionV1_AirbornePosition := bds;
      AirbornePositionV1_NavigationIntegrityCodeSupplementA := nicSupplementA;
      AirbornePositionV1_HorizontalContainmentRadius := hcr;
      AirbornePositionV1_NavigationIntegrityCategory := nic |})
  | Err e =>
    Err e
  | Panic => Panic
  end.

(* pkg/adsb/airborne_position/airborne_position_v2.go:44-62 *)
Definition ReadAirbornePositionV2 (data : list Z) (nicSupplementA : bool) : res AirbornePositionV2 :=
  match bds05.ReadAirbornePosition data with
  | Ok bds =>
    let* r := adsb_airborne_position_fields.ReadNavigationIntegritySupplementB data in
    let nicSupplementB := r in
    let '(hcr, nic) := getHCRAndNICForV2 bds.(bds05.AirbornePosition_FormatTypeCode) nicSupplementA nicSupplementB in
    Ok ({| AirbornePositionV2_AirbornePosition := bds;
      AirbornePositionV2_NavigationIntegrityCodeSupplementA := nicSupplementA;
      AirbornePositionV2_NavigationIntegrityCodeSupplementB := nicSupplementB;
      AirbornePositionV2_HorizontalContainmentRadius := hcr;
      AirbornePositionV2_NavigationIntegrityCategory := nic |})
  | Err e =>
    Err e
  | Panic => Panic
  end.

(* pkg/adsb/airborne_position/airborne_position.go:9-25 *)
Definition ReadAirbornePosition (adsbVersion : adsb.ADSBVersion) (data : list Z) (nicSupplementA : bool) : res Message :=
  let* data0 := idx data 0 in
  if (data0 =? 0) then
    rmap (fun x__ => (IMessage_AirbornePositionType0 x__)) (ReadAirbornePositionType0 adsbVersion data)
  else if (adsbVersion =? adsb.ADSBV0) then
    rmap (fun x__ => (IMessage_AirbornePositionV0 x__)) (ReadAirbornePositionV0 data)
  else if (adsbVersion =? adsb.ADSBV1) then
    rmap (fun x__ => (IMessage_AirbornePositionV1 x__)) (ReadAirbornePositionV1 data nicSupplementA)
  else if (adsbVersion =? adsb.ADSBV2) then
    rmap (fun x__ => (IMessage_AirbornePositionV2 x__)) (ReadAirbornePositionV2 data nicSupplementA)
  else 
    Err ("the ADS-B version "%string ++ dec adsbVersion ++ " does not allow to read AirbornePosition messages"%string)%string.
