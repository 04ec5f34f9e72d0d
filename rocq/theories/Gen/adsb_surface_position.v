(* GENERATED by tools/go2coq.py from /repo/pkg/adsb/surface_position -- do not edit by hand.
   One Gallina definition per Go declaration; each is preceded by the file and lines it models.
   Error values are represented by their text, see DESIGN.md.
*)
From Verif Require Import GoBase.
From Verif.Gen Require adsb adsb_surface_position_fields bds06.
Local Open Scope Z_scope.

(* pkg/adsb/surface_position/surface_position_v0.go:11-15 *)
Record SurfacePositionV0 := mkSurfacePositionV0 {
  SurfacePositionV0_SurfacePosition : bds06.SurfacePosition;
  SurfacePositionV0_HorizontalProtectionLimit : adsb_surface_position_fields.HorizontalProtectionLimit;
  SurfacePositionV0_ContainmentRadius : adsb_surface_position_fields.ContainmentRadius }.

(* pkg/adsb/surface_position/surface_position_v1.go:11-16 *)
Record SurfacePositionV1 := mkSurfacePositionV1 {
  SurfacePositionV1_SurfacePosition : bds06.SurfacePosition;
  SurfacePositionV1_nicSupplementA : bool;
  SurfacePositionV1_HorizontalContainmentRadius : adsb_surface_position_fields.HorizontalContainmentRadiusV1;
  SurfacePositionV1_NavigationIntegrityCategory : Z }.

(* pkg/adsb/surface_position/surface_position_v2.go:11-17 *)
Record SurfacePositionV2 := mkSurfacePositionV2 {
  SurfacePositionV2_SurfacePosition : bds06.SurfacePosition;
  SurfacePositionV2_nicSupplementA : bool;
  SurfacePositionV2_nicSupplementC : bool;
  SurfacePositionV2_HorizontalContainmentRadius : adsb_surface_position_fields.HorizontalContainmentRadiusV2;
  SurfacePositionV2_NavigationIntegrityCategory : Z }.

(* pkg/adsb/messages.go:8-16 (the implementations returned by this package)
   Go interface Message, as the sum of the types that implement it *)
Inductive Message :=
| IMessage_SurfacePositionV0 (m : SurfacePositionV0)
| IMessage_SurfacePositionV1 (m : SurfacePositionV1)
| IMessage_SurfacePositionV2 (m : SurfacePositionV2).

(* pkg/adsb/surface_position/surface_position_v0.go:17-25 *)
Definition SurfacePositionV0_ToString (ffmt : spec_float -> string) (message : SurfacePositionV0) : string :=
  ((bds06.SurfacePosition_ToString ffmt message.(SurfacePositionV0_SurfacePosition)) ++
      (nl ++ "Horizontal Protection Limit:       ")%string ++ (adsb_surface_position_fields.HorizontalProtectionLimit_ToString message.(SurfacePositionV0_HorizontalProtectionLimit)) ++
      (nl ++ "Containment Radius:                ")%string ++ (adsb_surface_position_fields.ContainmentRadius_ToString message.(SurfacePositionV0_ContainmentRadius)))%string.

(* pkg/adsb/surface_position/surface_position_v0.go:28-30 *)
Definition SurfacePositionV0_GetADSBVersion (message : SurfacePositionV0) : adsb.ADSBVersion :=
  adsb.ADSBV0.

(* pkg/adsb/surface_position/surface_position_v0.go:33-35 *)
Definition SurfacePositionV0_CheckCoherency (message : SurfacePositionV0) : res unit :=
  bds06.SurfacePosition_CheckCoherency message.(SurfacePositionV0_SurfacePosition).

(* pkg/adsb/surface_position/surface_position_v0.go:38-50 *)
Definition ReadSurfacePositionV0 (data : list Z) : res SurfacePositionV0 :=
  match bds06.ReadSurfacePosition data with
  | Ok bds =>
    Ok ({| SurfacePositionV0_SurfacePosition := bds;
      SurfacePositionV0_HorizontalProtectionLimit := bds.(bds06.SurfacePosition_FormatTypeCode);
      SurfacePositionV0_ContainmentRadius := bds.(bds06.SurfacePosition_FormatTypeCode) |})
  | Err e =>
    Err e
  | Panic => Panic
  end.

(* pkg/adsb/surface_position/surface_position_v1.go:18-28 *)
Definition SurfacePositionV1_ToString (ffmt : spec_float -> string) (message : SurfacePositionV1) : string :=
  ((bds06.SurfacePosition_ToString ffmt message.(SurfacePositionV1_SurfacePosition)) ++
      (nl ++ "Navigation Integrity Code A:       ")%string ++ bool_str message.(SurfacePositionV1_nicSupplementA) ++
      (nl ++ "Horizontal Containment Limit:      ")%string ++ (adsb_surface_position_fields.HorizontalContainmentRadiusV1_ToString message.(SurfacePositionV1_HorizontalContainmentRadius)) ++
      (nl ++ "Navigation Integrity Category:     ")%string ++ dec message.(SurfacePositionV1_NavigationIntegrityCategory))%string.

(* pkg/adsb/surface_position/surface_position_v1.go:31-33 *)
Definition SurfacePositionV1_GetADSBVersion (message : SurfacePositionV1) : adsb.ADSBVersion :=
  adsb.ADSBV1.

(* pkg/adsb/surface_position/surface_position_v1.go:36-38 *)
Definition SurfacePositionV1_CheckCoherency (message : SurfacePositionV1) : res unit :=
  bds06.SurfacePosition_CheckCoherency message.(SurfacePositionV1_SurfacePosition).

(* pkg/adsb/surface_position/surface_position_v1.go:58-73 *)
Definition getHCRAndNICForV1 (formatTypeCode : Z) (nicSupplementA : bool) : (adsb_surface_position_fields.HorizontalContainmentRadiusV1 * Z) :=
  if (formatTypeCode =? 5) then
    (adsb_surface_position_fields.HCRV1RcLowerThan7Point5M, 11)
  else if (formatTypeCode =? 6) then
    (adsb_surface_position_fields.HCRV1RcLowerThan25M, 10)
  else if (formatTypeCode =? 7) then
    if nicSupplementA then
      (adsb_surface_position_fields.HCRV1RcLowerThan75M, 9)
    else 
      (adsb_surface_position_fields.HCRV1RcGreaterThan0Point1NM, 8)
  else 
    (adsb_surface_position_fields.HCRV1RcGreaterThan0Point1NM, 0).

(* pkg/adsb/surface_position/surface_position_v2.go:19-31 *)
Definition SurfacePositionV2_ToString (ffmt : spec_float -> string) (message : SurfacePositionV2) : string :=
  ((bds06.SurfacePosition_ToString ffmt message.(SurfacePositionV2_SurfacePosition)) ++
      (nl ++ "Navigation Integrity Code A:       ")%string ++ bool_str message.(SurfacePositionV2_nicSupplementA) ++
      (nl ++ "Navigation Integrity Code C:       ")%string ++ bool_str message.(SurfacePositionV2_nicSupplementC) ++
      (nl ++ "Horizontal Containment Limit:      ")%string ++ (adsb_surface_position_fields.HorizontalContainmentRadiusV2_ToString message.(SurfacePositionV2_HorizontalContainmentRadius)) ++
      (nl ++ "Navigation Integrity Category:     ")%string ++ dec message.(SurfacePositionV2_NavigationIntegrityCategory))%string.

(* pkg/adsb/surface_position/surface_position_v2.go:34-36 *)
Definition SurfacePositionV2_GetADSBVersion (message : SurfacePositionV2) : adsb.ADSBVersion :=
  adsb.ADSBV2.

(* pkg/adsb/surface_position/surface_position_v2.go:39-41 *)
Definition SurfacePositionV2_CheckCoherency (message : SurfacePositionV2) : res unit :=
  bds06.SurfacePosition_CheckCoherency message.(SurfacePositionV2_SurfacePosition).

(* pkg/adsb/surface_position/surface_position_v2.go:62-89 *)
Definition getHCRAndNICForV2 (formatTypeCode : Z) (nicSupplementA : bool) (nicSupplementC : bool) : (adsb_surface_position_fields.HorizontalContainmentRadiusV2 * Z) :=
  if (formatTypeCode =? 5) then
    (adsb_surface_position_fields.HCRV2RcLowerThan7Point5M, 11)
  else if (formatTypeCode =? 6) then
    (adsb_surface_position_fields.HCRV2RcLowerThan25M, 10)
  else if (formatTypeCode =? 7) then
    if nicSupplementA then
      (adsb_surface_position_fields.HCRV2RcLowerThan75M, 9)
    else 
      (adsb_surface_position_fields.HCRV2RcLowerThan0Point1NM, 8)
  else if nicSupplementA then
    if nicSupplementC then
      (adsb_surface_position_fields.HCRV2RcLowerThan0Point2NM, 7)
    else 
      (adsb_surface_position_fields.HCRV2RcLowerThan0Point3NM, 6)
  else if nicSupplementC then
    (adsb_surface_position_fields.HCRV2RcLowerThan0Point6NM, 6)
  else 
    (adsb_surface_position_fields.HCRV2RcGreaterThan0Point6NM, 0).

(* dynamic dispatch of method CheckCoherency of interface Message *)
Definition IMessage_CheckCoherency (v : Message) : res unit :=
  match v with
  | IMessage_SurfacePositionV0 x => SurfacePositionV0_CheckCoherency x
  | IMessage_SurfacePositionV1 x => SurfacePositionV1_CheckCoherency x
  | IMessage_SurfacePositionV2 x => SurfacePositionV2_CheckCoherency x
  end.

(* dynamic dispatch of method GetADSBVersion of interface Message *)
Definition IMessage_GetADSBVersion (v : Message) : adsb.ADSBVersion :=
  match v with
  | IMessage_SurfacePositionV0 x => SurfacePositionV0_GetADSBVersion x
  | IMessage_SurfacePositionV1 x => SurfacePositionV1_GetADSBVersion x
  | IMessage_SurfacePositionV2 x => SurfacePositionV2_GetADSBVersion x
  end.

(* dynamic dispatch of method ToString of interface Message *)
Definition IMessage_ToString (ffmt : spec_float -> string) (v : Message) : string :=
  match v with
  | IMessage_SurfacePositionV0 x => SurfacePositionV0_ToString ffmt x
  | IMessage_SurfacePositionV1 x => SurfacePositionV1_ToString ffmt x
  | IMessage_SurfacePositionV2 x => SurfacePositionV2_ToString ffmt x
  end.

(* pkg/adsb/surface_position/surface_position_v1.go:41-56 *)
Definition ReadSurfacePositionV1 (data : list Z) (nicSupplementA : bool) : res SurfacePositionV1 :=
  match bds06.ReadSurfacePosition data with
  | Ok bds =>
    let '(hcr, nic) := getHCRAndNICForV1 bds.(bds06.SurfacePosition_FormatTypeCode) nicSupplementA in
    Ok ({| SurfacePositionV1_SurfacePosition := bds;
      SurfacePositionV1_nicSupplementA := nicSupplementA;
      SurfacePositionV1_HorizontalContainmentRadius := hcr;
      SurfacePositionV1_NavigationIntegrityCategory := nic |})
  | Err e =>
    Err e
  | Panic => Panic
  end.

(* pkg/adsb/surface_position/surface_position_v2.go:44-60 *)
Definition ReadSurfacePositionV2 (data : list Z) (nicSupplementA : bool) (nicSupplementC : bool) : res SurfacePositionV2 :=
  match bds06.ReadSurfacePosition data with
  | Ok bds =>
    let '(hcr, nic) := getHCRAndNICForV2 bds.(bds06.SurfacePosition_FormatTypeCode) nicSupplementA nicSupplementC in
    Ok ({| SurfacePositionV2_SurfacePosition := bds;
      SurfacePositionV2_nicSupplementA := nicSupplementA;
      SurfacePositionV2_nicSupplementC := nicSupplementC;
      SurfacePositionV2_HorizontalContainmentRadius := hcr;
      SurfacePositionV2_NavigationIntegrityCategory := nic |})
  | Err e =>
    Err e
  | Panic => Panic
  end.

(* pkg/adsb/surface_position/surface_position.go:9-21 *)
Definition ReadSurfacePosition (adsbVersion : adsb.ADSBVersion) (data : list Z) (nicSupplementA : bool) (nicSupplementC : bool) : res Message :=
  if (adsbVersion =? adsb.ADSBV0) then
    rmap (fun x__ => (IMessage_SurfacePositionV0 x__)) (ReadSurfacePositionV0 data)
  else if (adsbVersion =? adsb.ADSBV1) then
    rmap (fun x__ => (IMessage_SurfacePositionV1 x__)) (ReadSurfacePositionV1 data nicSupplementA)
  else if (adsbVersion =? adsb.ADSBV2) then
    rmap (fun x__ => (IMessage_SurfacePositionV2 x__)) (ReadSurfacePositionV2 data nicSupplementA nicSupplementC)
  else 
    Err ("the ADS-B version "%string ++ dec adsbVersion ++ " does not allow to read AirbornePosition messages"%string)%string.
