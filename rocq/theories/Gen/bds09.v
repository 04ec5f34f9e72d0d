(* GENERATED by tools/go2coq.py from /repo/pkg/bds/bds09 -- do not edit by hand.
   One Gallina definition per Go declaration; each is preceded by the file and lines it models.
   Error values are represented by their text, see DESIGN.md.
*)
From Verif Require Import GoBase.
From Verif.Gen Require bds09_fields bds_register.
Local Open Scope Z_scope.

(* pkg/bds/bds09/airborne_velocity_ground_speed_normal.go:13-30 *)
Record AirborneVelocityGroundSpeedNormal := mkAirborneVelocityGroundSpeedNormal {
  AirborneVelocityGroundSpeedNormal_FormatTypeCode : Z;
  AirborneVelocityGroundSpeedNormal_Subtype : bds09_fields.Subtype;
  AirborneVelocityGroundSpeedNormal_IntentChange : bds09_fields.IntentChange;
  AirborneVelocityGroundSpeedNormal_IFRCapability : bds09_fields.IFRCapability;
  AirborneVelocityGroundSpeedNormal_NavigationUncertaintyCategory : bds09_fields.NavigationUncertaintyCategory;
  AirborneVelocityGroundSpeedNormal_DirectionEastWest : bds09_fields.DirectionEastWest;
  AirborneVelocityGroundSpeedNormal_VelocityEWStatus : bds09_fields.NumericValueStatus;
  AirborneVelocityGroundSpeedNormal_VelocityEW : Z;
  AirborneVelocityGroundSpeedNormal_DirectionNorthSouth : bds09_fields.DirectionNorthSouth;
  AirborneVelocityGroundSpeedNormal_VelocityNSStatus : bds09_fields.NumericValueStatus;
  AirborneVelocityGroundSpeedNormal_VelocityNS : Z;
  AirborneVelocityGroundSpeedNormal_VerticalRateSource : bds09_fields.VerticalRateSource;
  AirborneVelocityGroundSpeedNormal_VerticalRateStatus : bds09_fields.NumericValueStatus;
  AirborneVelocityGroundSpeedNormal_VerticalRate : Z;
  AirborneVelocityGroundSpeedNormal_DifferenceAltitudeGNSSBaroStatus : bds09_fields.NumericValueStatus;
  AirborneVelocityGroundSpeedNormal_DifferenceAltitudeGNSSBaro : Z }.

(* pkg/bds/bds09/airborne_velocity_ground_speed_supersonic.go:13-30 *)
Record AirborneVelocityGroundSpeedSupersonic := mkAirborneVelocityGroundSpeedSupersonic {
  AirborneVelocityGroundSpeedSupersonic_FormatTypeCode : Z;
  AirborneVelocityGroundSpeedSupersonic_Subtype : bds09_fields.Subtype;
  AirborneVelocityGroundSpeedSupersonic_IntentChange : bds09_fields.IntentChange;
  AirborneVelocityGroundSpeedSupersonic_IFRCapability : bds09_fields.IFRCapability;
  AirborneVelocityGroundSpeedSupersonic_NavigationUncertaintyCategory : bds09_fields.NavigationUncertaintyCategory;
  AirborneVelocityGroundSpeedSupersonic_DirectionEastWest : bds09_fields.DirectionEastWest;
  AirborneVelocityGroundSpeedSupersonic_VelocityEWStatus : bds09_fields.NumericValueStatus;
  AirborneVelocityGroundSpeedSupersonic_VelocityEW : Z;
  AirborneVelocityGroundSpeedSupersonic_DirectionNorthSouth : bds09_fields.DirectionNorthSouth;
  AirborneVelocityGroundSpeedSupersonic_VelocityNSStatus : bds09_fields.NumericValueStatus;
  AirborneVelocityGroundSpeedSupersonic_VelocityNS : Z;
  AirborneVelocityGroundSpeedSupersonic_VerticalRateSource : bds09_fields.VerticalRateSource;
  AirborneVelocityGroundSpeedSupersonic_VerticalRateStatus : bds09_fields.NumericValueStatus;
  AirborneVelocityGroundSpeedSupersonic_VerticalRate : Z;
  AirborneVelocityGroundSpeedSupersonic_DifferenceAltitudeGNSSBaroStatus : bds09_fields.NumericValueStatus;
  AirborneVelocityGroundSpeedSupersonic_DifferenceAltitudeGNSSBaro : Z }.

(* pkg/bds/bds09/airborne_velocity_air_speed_normal.go:11-26 *)
Record AirborneVelocityAirSpeedNormal := mkAirborneVelocityAirSpeedNormal {
  AirborneVelocityAirSpeedNormal_FormatTypeCode : Z;
  AirborneVelocityAirSpeedNormal_Subtype : bds09_fields.Subtype;
  AirborneVelocityAirSpeedNormal_IntentChange : bds09_fields.IntentChange;
  AirborneVelocityAirSpeedNormal_IFRCapability : bds09_fields.IFRCapability;
  AirborneVelocityAirSpeedNormal_NavigationUncertaintyCategory : bds09_fields.NavigationUncertaintyCategory;
  AirborneVelocityAirSpeedNormal_MagneticHeadingStatus : bds09_fields.MagneticHeadingStatus;
  AirborneVelocityAirSpeedNormal_MagneticHeading : f32;
  AirborneVelocityAirSpeedNormal_AirspeedStatus : bds09_fields.NumericValueStatus;
  AirborneVelocityAirSpeedNormal_Airspeed : Z;
  AirborneVelocityAirSpeedNormal_VerticalRateSource : bds09_fields.VerticalRateSource;
  AirborneVelocityAirSpeedNormal_VerticalRateStatus : bds09_fields.NumericValueStatus;
  AirborneVelocityAirSpeedNormal_VerticalRate : Z;
  AirborneVelocityAirSpeedNormal_HeightDifferenceFromBaroStatus : bds09_fields.NumericValueStatus;
  AirborneVelocityAirSpeedNormal_HeightDifferenceFromBaro : Z }.

(* pkg/bds/bds09/airborne_velocity_air_speed_supersonic.go:11-26 *)
Record AirborneVelocityAirSpeedSupersonic := mkAirborneVelocityAirSpeedSupersonic {
  AirborneVelocityAirSpeedSupersonic_FormatTypeCode : Z;
  AirborneVelocityAirSpeedSupersonic_Subtype : bds09_fields.Subtype;
  AirborneVelocityAirSpeedSupersonic_IntentChange : bds09_fields.IntentChange;
  AirborneVelocityAirSpeedSupersonic_IFRCapability : bds09_fields.IFRCapability;
  AirborneVelocityAirSpeedSupersonic_NavigationUncertaintyCategory : bds09_fields.NavigationUncertaintyCategory;
  AirborneVelocityAirSpeedSupersonic_MagneticHeadingStatus : bds09_fields.MagneticHeadingStatus;
  AirborneVelocityAirSpeedSupersonic_MagneticHeading : f32;
  AirborneVelocityAirSpeedSupersonic_AirspeedStatus : bds09_fields.NumericValueStatus;
  AirborneVelocityAirSpeedSupersonic_Airspeed : Z;
  AirborneVelocityAirSpeedSupersonic_VerticalRateSource : bds09_fields.VerticalRateSource;
  AirborneVelocityAirSpeedSupersonic_VerticalRateStatus : bds09_fields.NumericValueStatus;
  AirborneVelocityAirSpeedSupersonic_VerticalRate : Z;
  AirborneVelocityAirSpeedSupersonic_HeightDifferenceFromBaroStatus : bds09_fields.NumericValueStatus;
  AirborneVelocityAirSpeedSupersonic_HeightDifferenceFromBaro : Z }.

(* pkg/bds/bds09/airborne_velocity.go:10-13
   Go interface AirborneVelocity, as the sum of the types that implement it *)
Inductive AirborneVelocity :=
| IAirborneVelocity_AirborneVelocityGroundSpeedNormal (m : AirborneVelocityGroundSpeedNormal)
| IAirborneVelocity_AirborneVelocityGroundSpeedSupersonic (m : AirborneVelocityGroundSpeedSupersonic)
| IAirborneVelocity_AirborneVelocityAirSpeedNormal (m : AirborneVelocityAirSpeedNormal)
| IAirborneVelocity_AirborneVelocityAirSpeedSupersonic (m : AirborneVelocityAirSpeedSupersonic).

(* pkg/bds/bds09/airborne_velocity_air_speed_normal.go:28-30 *)
Definition AirborneVelocityAirSpeedNormal_GetSubtype (message : AirborneVelocityAirSpeedNormal) : bds09_fields.Subtype :=
  message.(AirborneVelocityAirSpeedNormal_Subtype).

(* pkg/bds/bds09/airborne_velocity_air_speed_normal.go:33-35 *)
Definition AirborneVelocityAirSpeedNormal_GetRegister (message : AirborneVelocityAirSpeedNormal) : bds_register.Register :=
  bds_register.BDS09.

(* pkg/bds/bds09/airborne_velocity_air_speed_normal.go:38-40 *)
Definition AirborneVelocityAirSpeedNormal_CheckCoherency (message : AirborneVelocityAirSpeedNormal) : res unit :=
  Ok tt.

(* pkg/bds/bds09/airborne_velocity_air_speed_normal.go:43-73 *)
Definition AirborneVelocityAirSpeedNormal_ToString (ffmt : spec_float -> string) (message : AirborneVelocityAirSpeedNormal) : string :=
  ("Message:                             "%string ++ (bds_register.Register_ToString (AirborneVelocityAirSpeedNormal_GetRegister message)) ++
      (nl ++ "Subtype:                             ")%string ++ (bds09_fields.Subtype_ToString message.(AirborneVelocityAirSpeedNormal_Subtype)) ++
      (nl ++ "Intent Change:                       ")%string ++ (bds09_fields.IntentChange_ToString message.(AirborneVelocityAirSpeedNormal_IntentChange)) ++
      (nl ++ "IFR Capability:                      ")%string ++ (bds09_fields.IFRCapability_ToString message.(AirborneVelocityAirSpeedNormal_IFRCapability)) ++
      (nl ++ "Navigation Uncertainty Category:     ")%string ++ (bds09_fields.NavigationUncertaintyCategory_ToString message.(AirborneVelocityAirSpeedNormal_NavigationUncertaintyCategory)) ++
      (nl ++ "Magnetic Heading Status:             ")%string ++ (bds09_fields.MagneticHeadingStatus_ToString message.(AirborneVelocityAirSpeedNormal_MagneticHeadingStatus)) ++
      (nl ++ "Magnetic Heading (degrees):          ")%string ++ ffmt message.(AirborneVelocityAirSpeedNormal_MagneticHeading) ++
      (nl ++ "Air Speed Status:                    ")%string ++ (bds09_fields.NumericValueStatus_ToString message.(AirborneVelocityAirSpeedNormal_AirspeedStatus)) ++
      (nl ++ "Air Speed (knots):                   ")%string ++ dec message.(AirborneVelocityAirSpeedNormal_Airspeed) ++
      (nl ++ "Vertical Rate Source:                ")%string ++ (bds09_fields.VerticalRateSource_ToString message.(AirborneVelocityAirSpeedNormal_VerticalRateSource)) ++
      (nl ++ "Vertical Rate Status:                ")%string ++ (bds09_fields.NumericValueStatus_ToString message.(AirborneVelocityAirSpeedNormal_VerticalRateStatus)) ++
      (nl ++ "Vertical Rate (ft/min):              ")%string ++ dec message.(AirborneVelocityAirSpeedNormal_VerticalRate) ++
      (nl ++ "Geom. Height Diff." ++ " From Baro Status: ")%string ++ (bds09_fields.NumericValueStatus_ToString message.(AirborneVelocityAirSpeedNormal_HeightDifferenceFromBaroStatus)) ++
      (nl ++ "Geom. Height Diff." ++ " From Baro (ft):   ")%string ++ dec message.(AirborneVelocityAirSpeedNormal_HeightDifferenceFromBaro))%string.

(* pkg/bds/bds09/airborne_velocity_air_speed_normal.go:76-113 *)
Definition ReadAirborneVelocityAirSpeedNormal (data : list Z) : res AirborneVelocityAirSpeedNormal :=
  if (negb ((len data) =? 7)) then
    Err ("the data must be 7 bytes long ("%string ++ dec (len data) ++ " given)"%string)%string
  else 
    let* data0 := idx data 0 in
    let formatTypeCode := (Z.shiftr (Z.land data0 0xf8) 3) in
    if (negb (formatTypeCode =? 19)) then
      Err ("the field FormatTypeCode must be 19, got "%string ++ dec formatTypeCode)%string
    else 
      let* r := bds09_fields.ReadSubtype data in
      let subType := r in
      if (negb (subType =? bds09_fields.SubtypeAirspeedNormal)) then
        Err ("the data are given for subtype "%string ++ (bds09_fields.Subtype_ToString subType) ++ " format and can not be read by ReadAirborneVelocityAirSpeedNormal"%string)%string
      else 
        let* '(magneticHeading, magneticHeadingStatus) := bds09_fields.ReadMagneticHeading data in
        let* '(airSpeed, airSpeedStatus) := bds09_fields.ReadAirspeedNormal data in
        let* '(verticalRate, verticalRateStatus) := bds09_fields.ReadVerticalRate data in
        let* '(diffBaro, diffBaroStatus) := bds09_fields.ReadHeightDifference data in
        let* r_1 := bds09_fields.ReadIntentChange data in
        let* r_2 := bds09_fields.ReadIFRCapability data in
        let* r_3 := bds09_fields.ReadNavigationUncertaintyCategory data in
        let* r_4 := bds09_fields.ReadVerticalRateSource data in
        Ok ({| AirborneVelocityAirSpeedNormal_FormatTypeCode := formatTypeCode;
      AirborneVelocityAirSpeedNormal_Subtype := subType;
      AirborneVelocityAirSpeedNormal_IntentChange := r_1;
      AirborneVelocityAirSpeedNormal_IFRCapability := r_2;
      AirborneVelocityAirSpeedNormal_NavigationUncertaintyCategory := r_3;
      AirborneVelocityAirSpeedNormal_MagneticHeadingStatus := magneticHeadingStatus;
      AirborneVelocityAirSpeedNormal_MagneticHeading := magneticHeading;
      AirborneVelocityAirSpeedNormal_AirspeedStatus := airSpeedStatus;
      AirborneVelocityAirSpeedNormal_Airspeed := airSpeed;
      AirborneVelocityAirSpeedNormal_VerticalRateSource := r_4;
      AirborneVelocityAirSpeedNormal_VerticalRateStatus := verticalRateStatus;
      AirborneVelocityAirSpeedNormal_VerticalRate := verticalRate;
      AirborneVelocityAirSpeedNormal_HeightDifferenceFromBaroStatus := diffBaroStatus;
      AirborneVelocityAirSpeedNormal_HeightDifferenceFromBaro := diffBaro |}).

(* pkg/bds/bds09/airborne_velocity_air_speed_supersonic.go:28-30 *)
Definition AirborneVelocityAirSpeedSupersonic_GetSubtype (message : AirborneVelocityAirSpeedSupersonic) : bds09_fields.Subtype :=
  message.(AirborneVelocityAirSpeedSupersonic_Subtype).

(* pkg/bds/bds09/airborne_velocity_air_speed_supersonic.go:33-35 *)
Definition AirborneVelocityAirSpeedSupersonic_GetRegister (message : AirborneVelocityAirSpeedSupersonic) : bds_register.Register :=
  bds_register.BDS09.

(* pkg/bds/bds09/airborne_velocity_air_speed_supersonic.go:38-40 *)
Definition AirborneVelocityAirSpeedSupersonic_CheckCoherency (message : AirborneVelocityAirSpeedSupersonic) : res unit :=
  Ok tt.

(* pkg/bds/bds09/airborne_velocity_air_speed_supersonic.go:43-73 *)
Definition AirborneVelocityAirSpeedSupersonic_ToString (ffmt : spec_float -> string) (message : AirborneVelocityAirSpeedSupersonic) : string :=
  ("Message:                             "%string ++ (bds_register.Register_ToString (AirborneVelocityAirSpeedSupersonic_GetRegister message)) ++
      (nl ++ "Subtype:                             ")%string ++ (bds09_fields.Subtype_ToString message.(AirborneVelocityAirSpeedSupersonic_Subtype)) ++
      (nl ++ "Intent Change:                       ")%string ++ (bds09_fields.IntentChange_ToString message.(AirborneVelocityAirSpeedSupersonic_IntentChange)) ++
      (nl ++ "IFR Capability:                      ")%string ++ (bds09_fields.IFRCapability_ToString message.(AirborneVelocityAirSpeedSupersonic_IFRCapability)) ++
      (nl ++ "Navigation Uncertainty Category:     ")%string ++ (bds09_fields.NavigationUncertaintyCategory_ToString message.(AirborneVelocityAirSpeedSupersonic_NavigationUncertaintyCategory)) ++
      (nl ++ "Magnetic Heading Status:             ")%string ++ (bds09_fields.MagneticHeadingStatus_ToString message.(AirborneVelocityAirSpeedSupersonic_MagneticHeadingStatus)) ++
      (nl ++ "Magnetic Heading (degrees):          ")%string ++ ffmt message.(AirborneVelocityAirSpeedSupersonic_MagneticHeading) ++
      (nl ++ "Air Speed Status:                    ")%string ++ (bds09_fields.NumericValueStatus_ToString message.(AirborneVelocityAirSpeedSupersonic_AirspeedStatus)) ++
      (nl ++ "Air Speed (knots):                   ")%string ++ dec message.(AirborneVelocityAirSpeedSupersonic_Airspeed) ++
      (nl ++ "Vertical Rate Source:                ")%string ++ (bds09_fields.VerticalRateSource_ToString message.(AirborneVelocityAirSpeedSupersonic_VerticalRateSource)) ++
      (nl ++ "Vertical Rate Status:                ")%string ++ (bds09_fields.NumericValueStatus_ToString message.(AirborneVelocityAirSpeedSupersonic_VerticalRateStatus)) ++
      (nl ++ "Vertical Rate (ft/min):              ")%string ++ dec message.(AirborneVelocityAirSpeedSupersonic_VerticalRate) ++
      (nl ++ "Geom. Height Diff." ++ " From Baro Status: ")%string ++ (bds09_fields.NumericValueStatus_ToString message.(AirborneVelocityAirSpeedSupersonic_HeightDifferenceFromBaroStatus)) ++
      (nl ++ "Geom. Height Diff." ++ " From Baro (ft):   ")%string ++ dec message.(AirborneVelocityAirSpeedSupersonic_HeightDifferenceFromBaro))%string.

(* pkg/bds/bds09/airborne_velocity_air_speed_supersonic.go:76-113 *)
Definition ReadAirborneVelocityAirSpeedSupersonic (data : list Z) : res AirborneVelocityAirSpeedSupersonic :=
  if (negb ((len data) =? 7)) then
    Err ("the data must be 7 bytes long ("%string ++ dec (len data) ++ " given)"%string)%string
  else 
    let* data0 := idx data 0 in
    let formatTypeCode := (Z.shiftr (Z.land data0 0xf8) 3) in
    if (negb (formatTypeCode =? 19)) then
      Err ("the field FormatTypeCode must be 19, got "%string ++ dec formatTypeCode)%string
    else 
      let* r := bds09_fields.ReadSubtype data in
      let subType := r in
      if (negb (subType =? bds09_fields.SubtypeAirspeedSupersonic)) then
        Err ("the data are given for subtype "%string ++ (bds09_fields.Subtype_ToString subType) ++ " format and can not be read by ReadAirborneVelocityAirSpeedSupersonic"%string)%string
      else 
        let* '(magneticHeading, magneticHeadingStatus) := bds09_fields.ReadMagneticHeading data in
        let* '(airSpeed, airSpeedStatus) := bds09_fields.ReadAirspeedSupersonic data in
        let* '(verticalRate, verticalRateStatus) := bds09_fields.ReadVerticalRate data in
        let* '(diffBaro, diffBaroStatus) := bds09_fields.ReadHeightDifference data in
        let* r_1 := bds09_fields.ReadIntentChange data in
        let* r_2 := bds09_fields.ReadIFRCapability data in
        let* r_3 := bds09_fields.ReadNavigationUncertaintyCategory data in
        let* r_4 := bds09_fields.ReadVerticalRateSource data in
        Ok ({| AirborneVelocityAirSpeedSupersonic_FormatTypeCode := formatTypeCode;
      AirborneVelocityAirSpeedSupersonic_Subtype := subType;
      AirborneVelocityAirSpeedSupersonic_IntentChange := r_1;
      AirborneVelocityAirSpeedSupersonic_IFRCapability := r_2;
      AirborneVelocityAirSpeedSupersonic_NavigationUncertaintyCategory := r_3;
      AirborneVelocityAirSpeedSupersonic_MagneticHeadingStatus := magneticHeadingStatus;
      AirborneVelocityAirSpeedSupersonic_MagneticHeading := magneticHeading;
      AirborneVelocityAirSpeedSupersonic_AirspeedStatus := airSpeedStatus;
      AirborneVelocityAirSpeedSupersonic_Airspeed := airSpeed;
      AirborneVelocityAirSpeedSupersonic_VerticalRateSource := r_4;
      AirborneVelocityAirSpeedSupersonic_VerticalRateStatus := verticalRateStatus;
      AirborneVelocityAirSpeedSupersonic_VerticalRate := verticalRate;
      AirborneVelocityAirSpeedSupersonic_HeightDifferenceFromBaroStatus := diffBaroStatus;
      AirborneVelocityAirSpeedSupersonic_HeightDifferenceFromBaro := diffBaro |}).

(* pkg/bds/bds09/airborne_velocity_ground_speed_normal.go:32-34 *)
Definition AirborneVelocityGroundSpeedNormal_GetSubtype (message : AirborneVelocityGroundSpeedNormal) : bds09_fields.Subtype :=
  message.(AirborneVelocityGroundSpeedNormal_Subtype).

(* pkg/bds/bds09/airborne_velocity_ground_speed_normal.go:37-39 *)
Definition AirborneVelocityGroundSpeedNormal_GetRegister (message : AirborneVelocityGroundSpeedNormal) : bds_register.Register :=
  bds_register.BDS09.

(* pkg/bds/bds09/airborne_velocity_ground_speed_normal.go:42-44 *)
Definition AirborneVelocityGroundSpeedNormal_CheckCoherency (message : AirborneVelocityGroundSpeedNormal) : res unit :=
  Ok tt.

(* pkg/bds/bds09/airborne_velocity_ground_speed_normal.go:88-127 *)
Definition ReadAirborneVelocityGroundSpeedNormal (data : list Z) : res AirborneVelocityGroundSpeedNormal :=
  if (negb ((len data) =? 7)) then
    Err ("the data must be 7 bytes long ("%string ++ dec (len data) ++ " given)"%string)%string
  else 
    let* data0 := idx data 0 in
    let formatTypeCode := (Z.shiftr (Z.land data0 0xf8) 3) in
    if (negb (formatTypeCode =? 19)) then
      Err ("the field FormatTypeCode must be 19, got "%string ++ dec formatTypeCode)%string
    else 
      let* r := bds09_fields.ReadSubtype data in
      let subType := r in
      if (negb (subType =? bds09_fields.SubtypeGroundSpeedNormal)) then
        Err ("the data are given for subtype "%string ++ (bds09_fields.Subtype_ToString subType) ++ " format and can not be read by ReadFormat19GroundSpeedNormal"%string)%string
      else 
        let* '(velocityEW, velocityEWStatus) := bds09_fields.ReadVelocityEWNormal data in
        let* '(velocityNS, velocityNSStatus) := bds09_fields.ReadVelocityNSNormal data in
        let* '(verticalRate, verticalRateStatus) := bds09_fields.ReadVerticalRate data in
        let* '(diffBaro, diffBaroStatus) := bds09_fields.ReadHeightDifference data in
        let* r_1 := bds09_fields.ReadIntentChange data in
        let* r_2 := bds09_fields.ReadIFRCapability data in
        let* r_3 := bds09_fields.ReadNavigationUncertaintyCategory data in
        let* r_4 := bds09_fields.ReadDirectionEastWest data in
        let* r_5 := bds09_fields.ReadDirectionNorthSouth data in
        let* r_6 := bds09_fields.ReadVerticalRateSource data in
        Ok ({| AirborneVelocityGroundSpeedNormal_FormatTypeCode := formatTypeCode;
      AirborneVelocityGroundSpeedNormal_Subtype := subType;
      AirborneVelocityGroundSpeedNormal_IntentChange := r_1;
      AirborneVelocityGroundSpeedNormal_IFRCapability := r_2;
      AirborneVelocityGroundSpeedNormal_NavigationUncertaintyCategory := r_3;
      AirborneVelocityGroundSpeedNormal_DirectionEastWest := r_4;
      AirborneVelocityGroundSpeedNormal_VelocityEWStatus := velocityEWStatus;
      AirborneVelocityGroundSpeedNormal_VelocityEW := velocityEW;
      AirborneVelocityGroundSpeedNormal_DirectionNorthSouth := r_5;
      AirborneVelocityGroundSpeedNormal_VelocityNSStatus := velocityNSStatus;
      AirborneVelocityGroundSpeedNormal_VelocityNS := velocityNS;
      AirborneVelocityGroundSpeedNormal_VerticalRateSource := r_6;
      AirborneVelocityGroundSpeedNormal_VerticalRateStatus := verticalRateStatus;
      AirborneVelocityGroundSpeedNormal_VerticalRate := verticalRate;
      AirborneVelocityGroundSpeedNormal_DifferenceAltitudeGNSSBaroStatus := diffBaroStatus;
      AirborneVelocityGroundSpeedNormal_DifferenceAltitudeGNSSBaro := diffBaro |}).

(* pkg/bds/bds09/airborne_velocity_ground_speed_normal.go:129-144 *)
Definition AirborneVelocityGroundSpeedNormal_GetSpeed (message : AirborneVelocityGroundSpeedNormal) : res Z :=
  if (negb (message.(AirborneVelocityGroundSpeedNormal_VelocityEWStatus) =? bds09_fields.NVSRegular)) then
    Err ("velocity EW is not regular"%string)
  else if (negb (message.(AirborneVelocityGroundSpeedNormal_VelocityNSStatus) =? bds09_fields.NVSRegular)) then
    Err ("velocity NS is not regular"%string)
  else 
    let velocityEW := (f64_of_Z message.(AirborneVelocityGroundSpeedNormal_VelocityEW)) in
    let velocityNS := (f64_of_Z message.(AirborneVelocityGroundSpeedNormal_VelocityNS)) in
    let speed := (f64_sqrt (f64_add (f64_mul velocityEW velocityEW) (f64_mul velocityNS velocityNS))) in
    Ok (u32_of_f64 speed).

(* pkg/bds/bds09/airborne_velocity_ground_speed_normal.go:146-153 *)
Definition AirborneVelocityGroundSpeedNormal_toSpeedString (message : AirborneVelocityGroundSpeedNormal) : res string :=
  match AirborneVelocityGroundSpeedNormal_GetSpeed message with
  | Ok speed =>
    Ok ((dec speed ++ " (knots)"%string)%string)
  | Err e =>
    Ok (("not computable: "%string ++ e)%string)
  | Panic => Panic
  end.

(* pkg/bds/bds09/airborne_velocity_ground_speed_normal.go:155-182 *)
Definition AirborneVelocityGroundSpeedNormal_GetTrack (matan2 : f64 -> f64 -> f64) (message : AirborneVelocityGroundSpeedNormal) : res f32 :=
  if (negb (message.(AirborneVelocityGroundSpeedNormal_VelocityEWStatus) =? bds09_fields.NVSRegular)) then
    Err ("velocity EW is not regular"%string)
  else if (negb (message.(AirborneVelocityGroundSpeedNormal_VelocityNSStatus) =? bds09_fields.NVSRegular)) then
    Err ("velocity NS is not regular"%string)
  else 
    let velocityEW := (f64_of_Z message.(AirborneVelocityGroundSpeedNormal_VelocityEW)) in
    let velocityNS := (f64_of_Z message.(AirborneVelocityGroundSpeedNormal_VelocityNS)) in
    let velocityEW := if (message.(AirborneVelocityGroundSpeedNormal_DirectionEastWest) =? bds09_fields.DEWWest) then
      let velocityEW := (SFopp velocityEW) in
      velocityEW
    else 
      velocityEW in
    let velocityNS := if (message.(AirborneVelocityGroundSpeedNormal_DirectionNorthSouth) =? bds09_fields.DNSSouth) then
      let velocityNS := (SFopp velocityNS) in
      velocityNS
    else 
      velocityNS in
    let trackRadian := (matan2 velocityEW velocityNS) in
    let trackDegree := (f64_mul trackRadian (S754_finite false 8063664102031864 (-47))) in
    let trackDegree := if (fl_ltb trackDegree (f64_lit 0 1)) then
      let trackDegree := (f64_add trackDegree (f64_lit 360 1)) in
      trackDegree
    else 
      trackDegree in
    Ok (f32_of_f64 trackDegree).

(* pkg/bds/bds09/airborne_velocity_ground_speed_normal.go:184-191 *)
Definition AirborneVelocityGroundSpeedNormal_toTrackString (ffmt : spec_float -> string) (matan2 : f64 -> f64 -> f64) (message : AirborneVelocityGroundSpeedNormal) : res string :=
  match AirborneVelocityGroundSpeedNormal_GetTrack matan2 message with
  | Ok track =>
    Ok ((ffmt track ++ " (degrees)"%string)%string)
  | Err e =>
    Ok (("not computable: "%string ++ e)%string)
  | Panic => Panic
  end.

(* pkg/bds/bds09/airborne_velocity_ground_speed_supersonic.go:32-34 *)
Definition AirborneVelocityGroundSpeedSupersonic_GetSubtype (message : AirborneVelocityGroundSpeedSupersonic) : bds09_fields.Subtype :=
  message.(AirborneVelocityGroundSpeedSupersonic_Subtype).

(* pkg/bds/bds09/airborne_velocity_ground_speed_supersonic.go:37-39 *)
Definition AirborneVelocityGroundSpeedSupersonic_GetRegister (message : AirborneVelocityGroundSpeedSupersonic) : bds_register.Register :=
  bds_register.BDS09.

(* pkg/bds/bds09/airborne_velocity_ground_speed_supersonic.go:42-44 *)
Definition AirborneVelocityGroundSpeedSupersonic_CheckCoherency (message : AirborneVelocityGroundSpeedSupersonic) : res unit :=
  Ok tt.

(* pkg/bds/bds09/airborne_velocity_ground_speed_supersonic.go:88-127 *)
Definition ReadAirborneVelocityGroundSpeedSupersonic (data : list Z) : res AirborneVelocityGroundSpeedSupersonic :=
  if (negb ((len data) =? 7)) then
    Err ("the data must be 7 bytes long ("%string ++ dec (len data) ++ " given)"%string)%string
  else 
    let* data0 := idx data 0 in
    let formatTypeCode := (Z.shiftr (Z.land data0 0xf8) 3) in
    if (negb (formatTypeCode =? 19)) then
      Err ("the field FormatTypeCode must be 19, got "%string ++ dec formatTypeCode)%string
    else 
      let* r := bds09_fields.ReadSubtype data in
      let subType := r in
      if (negb (subType =? bds09_fields.SubtypeGroundSpeedSupersonic)) then
        Err ("the data are given for subtype "%string ++ (bds09_fields.Subtype_ToString subType) ++ " format and can not be read by ReadAirborneVelocityGroundSpeedSupersonic"%string)%string
      else 
        let* '(velocityEW, velocityEWStatus) := bds09_fields.ReadVelocityEWSupersonic data in
        let* '(velocityNS, velocityNSStatus) := bds09_fields.ReadVelocityNSSupersonic data in
        let* '(verticalRate, verticalRateStatus) := bds09_fields.ReadVerticalRate data in
        let* '(diffBaro, diffBaroStatus) := bds09_fields.ReadHeightDifference data in
        let* r_1 := bds09_fields.ReadIntentChange data in
        let* r_2 := bds09_fields.ReadIFRCapability data in
        let* r_3 := bds09_fields.ReadNavigationUncertaintyCategory data in
        let* r_4 := bds09_fields.ReadDirectionEastWest data in
        let* r_5 := bds09_fields.ReadDirectionNorthSouth data in
        let* r_6 := bds09_fields.ReadVerticalRateSource data in
        Ok ({| AirborneVelocityGroundSpeedSupersonic_FormatTypeCode := formatTypeCode;
      AirborneVelocityGroundSpeedSupersonic_Subtype := subType;
      AirborneVelocityGroundSpeedSupersonic_IntentChange := r_1;
      AirborneVelocityGroundSpeedSupersonic_IFRCapability := r_2;
      AirborneVelocityGroundSpeedSupersonic_NavigationUncertaintyCategory := r_3;
      AirborneVelocityGroundSpeedSupersonic_DirectionEastWest := r_4;
      AirborneVelocityGroundSpeedSupersonic_VelocityEWStatus := velocityEWStatus;
      AirborneVelocityGroundSpeedSupersonic_VelocityEW := velocityEW;
      AirborneVelocityGroundSpeedSupersonic_DirectionNorthSouth := r_5;
      AirborneVelocityGroundSpeedSupersonic_VelocityNSStatus := velocityNSStatus;
      AirborneVelocityGroundSpeedSupersonic_VelocityNS := velocityNS;
      AirborneVelocityGroundSpeedSupersonic_VerticalRateSource := r_6;
      AirborneVelocityGroundSpeedSupersonic_VerticalRateStatus := verticalRateStatus;
      AirborneVelocityGroundSpeedSupersonic_VerticalRate := verticalRate;
      AirborneVelocityGroundSpeedSupersonic_DifferenceAltitudeGNSSBaroStatus := diffBaroStatus;
      AirborneVelocityGroundSpeedSupersonic_DifferenceAltitudeGNSSBaro := diffBaro |}).

(* pkg/bds/bds09/airborne_velocity_ground_speed_supersonic.go:129-144 *)
Definition AirborneVelocityGroundSpeedSupersonic_GetSpeed (message : AirborneVelocityGroundSpeedSupersonic) : res Z :=
  if (negb (message.(AirborneVelocityGroundSpeedSupersonic_VelocityEWStatus) =? bds09_fields.NVSRegular)) then
    Err ("velocity EW is not regular"%string)
  else if (negb (message.(AirborneVelocityGroundSpeedSupersonic_VelocityNSStatus) =? bds09_fields.NVSRegular)) then
    Err ("velocity NS is not regular"%string)
  else 
    let velocityEW := (f64_of_Z message.(AirborneVelocityGroundSpeedSupersonic_VelocityEW)) in
    let velocityNS := (f64_of_Z message.(AirborneVelocityGroundSpeedSupersonic_VelocityNS)) in
    let speed := (f64_sqrt (f64_add (f64_mul velocityEW velocityEW) (f64_mul velocityNS velocityNS))) in
    Ok (u32_of_f64 speed).

(* pkg/bds/bds09/airborne_velocity_ground_speed_supersonic.go:146-153 *)
Definition AirborneVelocityGroundSpeedSupersonic_toSpeedString (message : AirborneVelocityGroundSpeedSupersonic) : res string :=
  match AirborneVelocityGroundSpeedSupersonic_GetSpeed message with
  | Ok speed =>
    Ok ((dec speed ++ " (knots)"%string)%string)
  | Err e =>
    Ok (("not computable: "%string ++ e)%string)
  | Panic => Panic
  end.

(* pkg/bds/bds09/airborne_velocity_ground_speed_supersonic.go:155-182 *)
Definition AirborneVelocityGroundSpeedSupersonic_GetTrack (matan2 : f64 -> f64 -> f64) (message : AirborneVelocityGroundSpeedSupersonic) : res f32 :=
  if (negb (message.(AirborneVelocityGroundSpeedSupersonic_VelocityEWStatus) =? bds09_fields.NVSRegular)) then
    Err ("velocity EW is not regular"%string)
  else if (negb (message.(AirborneVelocityGroundSpeedSupersonic_VelocityNSStatus) =? bds09_fields.NVSRegular)) then
    Err ("velocity NS is not regular"%string)
  else 
    let velocityEW := (f64_of_Z message.(AirborneVelocityGroundSpeedSupersonic_VelocityEW)) in
    let velocityNS := (f64_of_Z message.(AirborneVelocityGroundSpeedSupersonic_VelocityNS)) in
    let velocityEW := if (message.(AirborneVelocityGroundSpeedSupersonic_DirectionEastWest) =? bds09_fields.DEWWest) then
      let velocityEW := (SFopp velocityEW) in
      velocityEW
    else 
      velocityEW in
    let velocityNS := if (message.(AirborneVelocityGroundSpeedSupersonic_DirectionNorthSouth) =? bds09_fields.DNSSouth) then
      let velocityNS := (SFopp velocityNS) in
      velocityNS
    else 
      velocityNS in
    let trackRadian := (matan2 velocityEW velocityNS) in
    let trackDegree := (f64_mul trackRadian (S754_finite false 8063664102031864 (-47))) in
    let trackDegree := if (fl_ltb trackDegree (f64_lit 0 1)) then
      let trackDegree := (f64_add trackDegree (f64_lit 360 1)) in
      trackDegree
    else 
      trackDegree in
    Ok (f32_of_f64 trackDegree).

(* pkg/bds/bds09/airborne_velocity_ground_speed_supersonic.go:184-191 *)
Definition AirborneVelocityGroundSpeedSupersonic_toTrackString (ffmt : spec_float -> string) (matan2 : f64 -> f64 -> f64) (message : AirborneVelocityGroundSpeedSupersonic) : res string :=
  match AirborneVelocityGroundSpeedSupersonic_GetTrack matan2 message with
  | Ok track =>
    Ok ((ffmt track ++ " (degrees)"%string)%string)
  | Err e =>
    Ok (("not computable: "%string ++ e)%string)
  | Panic => Panic
  end.

(* dynamic dispatch of method CheckCoherency of interface AirborneVelocity *)
Definition IAirborneVelocity_CheckCoherency (v : AirborneVelocity) : res unit :=
  match v with
  | IAirborneVelocity_AirborneVelocityGroundSpeedNormal x => AirborneVelocityGroundSpeedNormal_CheckCoherency x
  | IAirborneVelocity_AirborneVelocityGroundSpeedSupersonic x => AirborneVelocityGroundSpeedSupersonic_CheckCoherency x
  | IAirborneVelocity_AirborneVelocityAirSpeedNormal x => AirborneVelocityAirSpeedNormal_CheckCoherency x
  | IAirborneVelocity_AirborneVelocityAirSpeedSupersonic x => AirborneVelocityAirSpeedSupersonic_CheckCoherency x
  end.

(* dynamic dispatch of method GetRegister of interface AirborneVelocity *)
Definition IAirborneVelocity_GetRegister (v : AirborneVelocity) : bds_register.Register :=
  match v with
  | IAirborneVelocity_AirborneVelocityGroundSpeedNormal x => AirborneVelocityGroundSpeedNormal_GetRegister x
  | IAirborneVelocity_AirborneVelocityGroundSpeedSupersonic x => AirborneVelocityGroundSpeedSupersonic_GetRegister x
  | IAirborneVelocity_AirborneVelocityAirSpeedNormal x => AirborneVelocityAirSpeedNormal_GetRegister x
  | IAirborneVelocity_AirborneVelocityAirSpeedSupersonic x => AirborneVelocityAirSpeedSupersonic_GetRegister x
  end.

(* dynamic dispatch of method GetSubtype of interface AirborneVelocity *)
Definition IAirborneVelocity_GetSubtype (v : AirborneVelocity) : bds09_fields.Subtype :=
  match v with
  | IAirborneVelocity_AirborneVelocityGroundSpeedNormal x => AirborneVelocityGroundSpeedNormal_GetSubtype x
  | IAirborneVelocity_AirborneVelocityGroundSpeedSupersonic x => AirborneVelocityGroundSpeedSupersonic_GetSubtype x
  | IAirborneVelocity_AirborneVelocityAirSpeedNormal x => AirborneVelocityAirSpeedNormal_GetSubtype x
  | IAirborneVelocity_AirborneVelocityAirSpeedSupersonic x => AirborneVelocityAirSpeedSupersonic_GetSubtype x
  end.

(* pkg/bds/bds09/airborne_velocity.go:16-40 *)
Definition ReadAirborneVelocity (data : list Z) : res AirborneVelocity :=
  if (negb ((len data) =? 7)) then
    Err ("the data must be 7 bytes long ("%string ++ dec (len data) ++ " given)"%string)%string
  else 
    let* data0 := idx data 0 in
    let formatTypeCode := (Z.shiftr (Z.land data0 0xf8) 3) in
    if (negb (formatTypeCode =? 19)) then
      Err ("the data are given at format "%string ++ dec formatTypeCode ++ " and can not be read by ReadAirborneVelocityAirSpeedNormal"%string)%string
    else 
      let* r := bds09_fields.ReadSubtype data in
      let subType := r in
      if (subType =? bds09_fields.SubtypeGroundSpeedNormal) then
        rmap (fun x__ => (IAirborneVelocity_AirborneVelocityGroundSpeedNormal x__)) (ReadAirborneVelocityGroundSpeedNormal data)
      else if (subType =? bds09_fields.SubtypeGroundSpeedSupersonic) then
        rmap (fun x__ => (IAirborneVelocity_AirborneVelocityGroundSpeedSupersonic x__)) (ReadAirborneVelocityGroundSpeedSupersonic data)
      else if (subType =? bds09_fields.SubtypeAirspeedNormal) then
        rmap (fun x__ => (IAirborneVelocity_AirborneVelocityAirSpeedNormal x__)) (ReadAirborneVelocityAirSpeedNormal data)
      else if (subType =? bds09_fields.SubtypeAirspeedSupersonic) then
        rmap (fun x__ => (IAirborneVelocity_AirborneVelocityAirSpeedSupersonic x__)) (ReadAirborneVelocityAirSpeedSupersonic data)
      else 
        Err ("the field SubType must be comprised between 1 and 4 included, got "%string ++ dec subType)%string.

(* pkg/bds/bds09/airborne_velocity_ground_speed_normal.go:47-85 *)
Definition AirborneVelocityGroundSpeedNormal_ToString (ffmt : spec_float -> string) (matan2 : f64 -> f64 -> f64) (message : AirborneVelocityGroundSpeedNormal) : res string :=
  let* r := AirborneVelocityGroundSpeedNormal_toSpeedString message in
  let* r_1 := AirborneVelocityGroundSpeedNormal_toTrackString ffmt matan2 message in
  Ok (("Message:                           "%string ++ (bds_register.Register_ToString (AirborneVelocityGroundSpeedNormal_GetRegister message)) ++
      (nl ++ "Subtype:                           ")%string ++ (bds09_fields.Subtype_ToString message.(AirborneVelocityGroundSpeedNormal_Subtype)) ++
      (nl ++ "Intent Change:                     ")%string ++ (bds09_fields.IntentChange_ToString message.(AirborneVelocityGroundSpeedNormal_IntentChange)) ++
      (nl ++ "IFR Capability:                    ")%string ++ (bds09_fields.IFRCapability_ToString message.(AirborneVelocityGroundSpeedNormal_IFRCapability)) ++
      (nl ++ "Navigation Uncertainty Category:   ")%string ++ (bds09_fields.NavigationUncertaintyCategory_ToString message.(AirborneVelocityGroundSpeedNormal_NavigationUncertaintyCategory)) ++
      (nl ++ "Direction EW:                      ")%string ++ (bds09_fields.DirectionEastWest_ToString message.(AirborneVelocityGroundSpeedNormal_DirectionEastWest)) ++
      (nl ++ "Velocity EW Status:                ")%string ++ (bds09_fields.NumericValueStatus_ToString message.(AirborneVelocityGroundSpeedNormal_VelocityEWStatus)) ++
      (nl ++ "Velocity EW (knots):               ")%string ++ dec message.(AirborneVelocityGroundSpeedNormal_VelocityEW) ++
      (nl ++ "Direction NS:                      ")%string ++ (bds09_fields.DirectionNorthSouth_ToString message.(AirborneVelocityGroundSpeedNormal_DirectionNorthSouth)) ++
      (nl ++ "Velocity NS Status:                ")%string ++ (bds09_fields.NumericValueStatus_ToString message.(AirborneVelocityGroundSpeedNormal_VelocityNSStatus)) ++
      (nl ++ "Velocity NS (knots):               ")%string ++ dec message.(AirborneVelocityGroundSpeedNormal_VelocityNS) ++
      (nl ++ "Vertical Rate Source:              ")%string ++ (bds09_fields.VerticalRateSource_ToString message.(AirborneVelocityGroundSpeedNormal_VerticalRateSource)) ++
      (nl ++ "Vertical Rate Status:              ")%string ++ (bds09_fields.NumericValueStatus_ToString message.(AirborneVelocityGroundSpeedNormal_VerticalRateStatus)) ++
      (nl ++ "Vertical Rate (ft/min):            ")%string ++ dec message.(AirborneVelocityGroundSpeedNormal_VerticalRate) ++
      (nl ++ "Difference Alt. GNSS Baro Status:  ")%string ++ (bds09_fields.NumericValueStatus_ToString message.(AirborneVelocityGroundSpeedNormal_DifferenceAltitudeGNSSBaroStatus)) ++
      (nl ++ "Difference Alt. GNSS Baro (ft):    ")%string ++ dec message.(AirborneVelocityGroundSpeedNormal_DifferenceAltitudeGNSSBaro) ++
      (nl ++ "Computed Speed:                    ")%string ++ r ++
      (nl ++ "Computed Track:                    ")%string ++ r_1)%string).

(* pkg/bds/bds09/airborne_velocity_ground_speed_supersonic.go:47-85 *)
Definition AirborneVelocityGroundSpeedSupersonic_ToString (ffmt : spec_float -> string) (matan2 : f64 -> f64 -> f64) (message : AirborneVelocityGroundSpeedSupersonic) : res string :=
  let* r := AirborneVelocityGroundSpeedSupersonic_toSpeedString message in
  let* r_1 := AirborneVelocityGroundSpeedSupersonic_toTrackString ffmt matan2 message in
  Ok (("Message:                           "%string ++ (bds_register.Register_ToString (AirborneVelocityGroundSpeedSupersonic_GetRegister message)) ++
      (nl ++ "Subtype:                           ")%string ++ (bds09_fields.Subtype_ToString message.(AirborneVelocityGroundSpeedSupersonic_Subtype)) ++
      (nl ++ "Intent Change:                     ")%string ++ (bds09_fields.IntentChange_ToString message.(AirborneVelocityGroundSpeedSupersonic_IntentChange)) ++
      (nl ++ "IFR Capability:                    ")%string ++ (bds09_fields.IFRCapability_ToString message.(AirborneVelocityGroundSpeedSupersonic_IFRCapability)) ++
      (nl ++ "Navigation Uncertainty Category:   ")%string ++ (bds09_fields.NavigationUncertaintyCategory_ToString message.(AirborneVelocityGroundSpeedSupersonic_NavigationUncertaintyCategory)) ++
      (nl ++ "Direction EW:                      ")%string ++ (bds09_fields.DirectionEastWest_ToString message.(AirborneVelocityGroundSpeedSupersonic_DirectionEastWest)) ++
      (nl ++ "Velocity EW Status:                ")%string ++ (bds09_fields.NumericValueStatus_ToString message.(AirborneVelocityGroundSpeedSupersonic_VelocityEWStatus)) ++
      (nl ++ "Velocity EW (knots):               ")%string ++ dec message.(AirborneVelocityGroundSpeedSupersonic_VelocityEW) ++
      (nl ++ "Direction NS:                      ")%string ++ (bds09_fields.DirectionNorthSouth_ToString message.(AirborneVelocityGroundSpeedSupersonic_DirectionNorthSouth)) ++
      (nl ++ "Velocity NS Status:                ")%string ++ (bds09_fields.NumericValueStatus_ToString message.(AirborneVelocityGroundSpeedSupersonic_VelocityNSStatus)) ++
      (nl ++ "Velocity NS (knots):               ")%string ++ dec message.(AirborneVelocityGroundSpeedSupersonic_VelocityNS) ++
      (nl ++ "Vertical Rate Source:              ")%string ++ (bds09_fields.VerticalRateSource_ToString message.(AirborneVelocityGroundSpeedSupersonic_VerticalRateSource)) ++
      (nl ++ "Vertical Rate Status:              ")%string ++ (bds09_fields.NumericValueStatus_ToString message.(AirborneVelocityGroundSpeedSupersonic_VerticalRateStatus)) ++
      (nl ++ "Vertical Rate (ft/min):            ")%string ++ dec message.(AirborneVelocityGroundSpeedSupersonic_VerticalRate) ++
      (nl ++ "Difference Alt. GNSS Baro Status:  ")%string ++ (bds09_fields.NumericValueStatus_ToString message.(AirborneVelocityGroundSpeedSupersonic_DifferenceAltitudeGNSSBaroStatus)) ++
      (nl ++ "Difference Alt. GNSS Baro (ft):    ")%string ++ dec message.(AirborneVelocityGroundSpeedSupersonic_DifferenceAltitudeGNSSBaro) ++
      (nl ++ "Computed Speed:                    ")%string ++ r ++
      (nl ++ "Computed Track:                    ")%string ++ r_1)%string).

(* dynamic dispatch of method ToString of interface AirborneVelocity *)
Definition IAirborneVelocity_ToString (ffmt : spec_float -> string) (matan2 : f64 -> f64 -> f64) (v : AirborneVelocity) : res string :=
  match v with
  | IAirborneVelocity_AirborneVelocityGroundSpeedNormal x => AirborneVelocityGroundSpeedNormal_ToString ffmt matan2 x
  | IAirborneVelocity_AirborneVelocityGroundSpeedSupersonic x => AirborneVelocityGroundSpeedSupersonic_ToString ffmt matan2 x
  | IAirborneVelocity_AirborneVelocityAirSpeedNormal x => Ok (AirborneVelocityAirSpeedNormal_ToString ffmt x)
  | IAirborneVelocity_AirborneVelocityAirSpeedSupersonic x => Ok (AirborneVelocityAirSpeedSupersonic_ToString ffmt x)
  end.
