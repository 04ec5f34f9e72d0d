(* GENERATED by tools/go2coq.py from /repo/pkg/bds/bds65 -- do not edit by hand.
   One Gallina definition per Go declaration; each is preceded by the file and lines it models.
   Error values are represented by their text, see DESIGN.md.
*)
From Verif Require Import GoBase.
From Verif.Gen Require bds65_fields bds_register.
Local Open Scope Z_scope.

(* pkg/bds/bds65/aircraft_operational_status_adsb0.go:10-21 *)
Record AircraftOperationalStatusADSB0 := mkAircraftOperationalStatusADSB0 {
  AircraftOperationalStatusADSB0_FormatTypeCode : Z;
  AircraftOperationalStatusADSB0_Subtype : Z;
  AircraftOperationalStatusADSB0_EnRouteOperationalCapabilities : bds65_fields.EnRouteOperationalCapabilities;
  AircraftOperationalStatusADSB0_EnRouteOperationalCapabilityStatus : bds65_fields.EnRouteOperationalCapabilityStatus;
  AircraftOperationalStatusADSB0_TerminalAreaOperationalCapabilities : bds65_fields.TerminalAreaOperationalCapabilities;
  AircraftOperationalStatusADSB0_TerminalAreaOperationalCapabilityStatus : bds65_fields.TerminalAreaOperationalCapabilityStatus;
  AircraftOperationalStatusADSB0_ApproachLandingOperationalCapabilities : bds65_fields.ApproachLandingOperationalCapabilities;
  AircraftOperationalStatusADSB0_ApproachLandingOperationalCapabilityStatus : bds65_fields.ApproachLandingOperationalCapabilityStatus;
  AircraftOperationalStatusADSB0_SurfaceOperationalCapabilities : bds65_fields.SurfaceOperationalCapabilities;
  AircraftOperationalStatusADSB0_SurfaceOperationalCapabilityStatus : bds65_fields.SurfaceOperationalCapabilityStatus }.

(* pkg/bds/bds65/aircraft_operational_status_airborne_adsb1.go:15-26 *)
Record AircraftOperationalStatusAirborneADSB1 := mkAircraftOperationalStatusAirborneADSB1 {
  AircraftOperationalStatusAirborneADSB1_FormatTypeCode : Z;
  AircraftOperationalStatusAirborneADSB1_Subtype : bds65_fields.Subtype;
  AircraftOperationalStatusAirborneADSB1_AirborneCapabilityClass : bds65_fields.AirborneCapabilityClassV1;
  AircraftOperationalStatusAirborneADSB1_OperationalMode : bds65_fields.OperationalMode;
  AircraftOperationalStatusAirborneADSB1_VersionNumber : bds65_fields.VersionNumber;
  AircraftOperationalStatusAirborneADSB1_NICSupplement : bds65_fields.NICSupplementA;
  AircraftOperationalStatusAirborneADSB1_NavigationalAccuracyCategoryPosition : bds65_fields.NavigationalAccuracyCategoryPositionV1;
  AircraftOperationalStatusAirborneADSB1_SurveillanceIntegrityLevel : bds65_fields.SurveillanceIntegrityLevel;
  AircraftOperationalStatusAirborneADSB1_NICBaro : bds65_fields.NICBaro;
  AircraftOperationalStatusAirborneADSB1_HorizontalReferenceDirection : bds65_fields.HorizontalReferenceDirection }.

(* pkg/bds/bds65/aircraft_operational_status_airborne_adsb2.go:15-28 *)
Record AircraftOperationalStatusAirborneADSB2 := mkAircraftOperationalStatusAirborneADSB2 {
  AircraftOperationalStatusAirborneADSB2_FormatTypeCode : Z;
  AircraftOperationalStatusAirborneADSB2_Subtype : bds65_fields.Subtype;
  AircraftOperationalStatusAirborneADSB2_AirborneCapabilityClass : bds65_fields.AirborneCapabilityClassV2;
  AircraftOperationalStatusAirborneADSB2_OperationalMode : bds65_fields.AirborneOperationalMode;
  AircraftOperationalStatusAirborneADSB2_VersionNumber : bds65_fields.VersionNumber;
  AircraftOperationalStatusAirborneADSB2_NICSupplementA : bds65_fields.NICSupplementA;
  AircraftOperationalStatusAirborneADSB2_NavigationalAccuracyCategoryPosition : bds65_fields.NavigationalAccuracyCategoryPositionV2;
  AircraftOperationalStatusAirborneADSB2_GeometricVerticalAccuracy : bds65_fields.GeometricVerticalAccuracy;
  AircraftOperationalStatusAirborneADSB2_SourceIntegrityLevel : bds65_fields.SourceIntegrityLevel;
  AircraftOperationalStatusAirborneADSB2_NICBaro : bds65_fields.NICBaro;
  AircraftOperationalStatusAirborneADSB2_HorizontalReferenceDirection : bds65_fields.HorizontalReferenceDirection;
  AircraftOperationalStatusAirborneADSB2_SourceIntegrityLevelSupplement : bds65_fields.SourceIntegrityLevelSupplement }.

(* pkg/bds/bds65/aircraft_operational_status_surface_adsb1.go:15-27 *)
Record AircraftOperationalStatusSurfaceADSB1 := mkAircraftOperationalStatusSurfaceADSB1 {
  AircraftOperationalStatusSurfaceADSB1_FormatTypeCode : Z;
  AircraftOperationalStatusSurfaceADSB1_Subtype : bds65_fields.Subtype;
  AircraftOperationalStatusSurfaceADSB1_SurfaceCapabilityClass : bds65_fields.SurfaceCapabilityClassV1;
  AircraftOperationalStatusSurfaceADSB1_LengthAndWidth : bds65_fields.LengthWidth;
  AircraftOperationalStatusSurfaceADSB1_OperationalMode : bds65_fields.OperationalMode;
  AircraftOperationalStatusSurfaceADSB1_VersionNumber : bds65_fields.VersionNumber;
  AircraftOperationalStatusSurfaceADSB1_NICSupplement : bds65_fields.NICSupplementA;
  AircraftOperationalStatusSurfaceADSB1_NavigationalAccuracyCategoryPosition : bds65_fields.NavigationalAccuracyCategoryPositionV1;
  AircraftOperationalStatusSurfaceADSB1_SurveillanceIntegrityLevel : bds65_fields.SurveillanceIntegrityLevel;
  AircraftOperationalStatusSurfaceADSB1_TrackAngleHeading : bds65_fields.TrackAngleHeading;
  AircraftOperationalStatusSurfaceADSB1_HorizontalReferenceDirection : bds65_fields.HorizontalReferenceDirection }.

(* pkg/bds/bds65/aircraft_operational_status_surface_adsb2.go:15-28 *)
Record AircraftOperationalStatusSurfaceADSB2 := mkAircraftOperationalStatusSurfaceADSB2 {
  AircraftOperationalStatusSurfaceADSB2_FormatTypeCode : Z;
  AircraftOperationalStatusSurfaceADSB2_Subtype : bds65_fields.Subtype;
  AircraftOperationalStatusSurfaceADSB2_SurfaceCapabilityClass : bds65_fields.SurfaceCapabilityClassV2;
  AircraftOperationalStatusSurfaceADSB2_LengthAndWidth : bds65_fields.LengthWidth;
  AircraftOperationalStatusSurfaceADSB2_OperationalMode : bds65_fields.SurfaceOperationalMode;
  AircraftOperationalStatusSurfaceADSB2_VersionNumber : bds65_fields.VersionNumber;
  AircraftOperationalStatusSurfaceADSB2_NICSupplementA : bds65_fields.NICSupplementA;
  AircraftOperationalStatusSurfaceADSB2_NavigationalAccuracyCategoryPosition : bds65_fields.NavigationalAccuracyCategoryPositionV2;
  AircraftOperationalStatusSurfaceADSB2_SourceIntegrityLevel : bds65_fields.SourceIntegrityLevel;
  AircraftOperationalStatusSurfaceADSB2_TrackAngleHeading : bds65_fields.TrackAngleHeading;
  AircraftOperationalStatusSurfaceADSB2_HorizontalReferenceDirection : bds65_fields.HorizontalReferenceDirection;
  AircraftOperationalStatusSurfaceADSB2_SourceIntegrityLevelSupplement : bds65_fields.SourceIntegrityLevelSupplement }.

(* pkg/bds/bds65/aircraft_operational_status.go:8-11
   Go interface AircraftOperationalStatus, as the sum of the types that implement it *)
Inductive AircraftOperationalStatus :=
| IAircraftOperationalStatus_AircraftOperationalStatusADSB0 (m : AircraftOperationalStatusADSB0)
| IAircraftOperationalStatus_AircraftOperationalStatusAirborneADSB1 (m : AircraftOperationalStatusAirborneADSB1)
| IAircraftOperationalStatus_AircraftOperationalStatusAirborneADSB2 (m : AircraftOperationalStatusAirborneADSB2)
| IAircraftOperationalStatus_AircraftOperationalStatusSurfaceADSB1 (m : AircraftOperationalStatusSurfaceADSB1)
| IAircraftOperationalStatus_AircraftOperationalStatusSurfaceADSB2 (m : AircraftOperationalStatusSurfaceADSB2).

(* pkg/bds/bds65/aircraft_operational_status_adsb0.go:23-25 *)
Definition AircraftOperationalStatusADSB0_GetADSBLevel (message : AircraftOperationalStatusADSB0) : Z :=
  0.

(* pkg/bds/bds65/aircraft_operational_status_adsb0.go:28-30 *)
Definition AircraftOperationalStatusADSB0_GetRegister (message : AircraftOperationalStatusADSB0) : bds_register.Register :=
  bds_register.BDS65.

(* pkg/bds/bds65/aircraft_operational_status_adsb0.go:33-35 *)
Definition AircraftOperationalStatusADSB0_CheckCoherency (message : AircraftOperationalStatusADSB0) : res unit :=
  Ok tt.

(* pkg/bds/bds65/aircraft_operational_status_adsb0.go:38-58 *)
Definition AircraftOperationalStatusADSB0_ToString (message : AircraftOperationalStatusADSB0) : string :=
  ("Message:                                        "%string ++ (bds_register.Register_ToString (AircraftOperationalStatusADSB0_GetRegister message)) ++
      (nl ++ "En Route Operational Capabilities:              ")%string ++ (bds65_fields.EnRouteOperationalCapabilities_ToString message.(AircraftOperationalStatusADSB0_EnRouteOperationalCapabilities)) ++
      (nl ++ "En Route Operational Capability Status:         ")%string ++ (bds65_fields.EnRouteOperationalCapabilityStatus_ToString message.(AircraftOperationalStatusADSB0_EnRouteOperationalCapabilityStatus)) ++
      (nl ++ "Terminal Area Operational Capabilities:         ")%string ++ (bds65_fields.TerminalAreaOperationalCapabilities_ToString message.(AircraftOperationalStatusADSB0_TerminalAreaOperationalCapabilities)) ++
      (nl ++ "Terminal Area Operational Capability Status:    ")%string ++ (bds65_fields.TerminalAreaOperationalCapabilityStatus_ToString message.(AircraftOperationalStatusADSB0_TerminalAreaOperationalCapabilityStatus)) ++
      (nl ++ "Approach/Landing Operational Capabilities:      ")%string ++ (bds65_fields.ApproachLandingOperationalCapabilities_ToString message.(AircraftOperationalStatusADSB0_ApproachLandingOperationalCapabilities)) ++
      (nl ++ "Approach/Landing Operational Capability Status: ")%string ++ (bds65_fields.ApproachLandingOperationalCapabilityStatus_ToString message.(AircraftOperationalStatusADSB0_ApproachLandingOperationalCapabilityStatus)) ++
      (nl ++ "SubtypeSurface Operational Capabilities:               ")%string ++ (bds65_fields.SurfaceOperationalCapabilities_ToString message.(AircraftOperationalStatusADSB0_SurfaceOperationalCapabilities)) ++
      (nl ++ "SubtypeSurface Operational Capability Status:          ")%string ++ (bds65_fields.SurfaceOperationalCapabilityStatus_ToString message.(AircraftOperationalStatusADSB0_SurfaceOperationalCapabilityStatus)))%string.

(* pkg/bds/bds65/aircraft_operational_status_adsb0.go:61-93 *)
Definition ReadAircraftOperationalStatusADSB0 (data : list Z) : res AircraftOperationalStatusADSB0 :=
  if (negb ((len data) =? 7)) then
    Err ("the data must be 7 bytes long ("%string ++ dec (len data) ++ " given)"%string)%string
  else 
    let* data0 := idx data 0 in
    let formatTypeCode := (Z.shiftr (Z.land data0 0xf8) 3) in
    if (negb (formatTypeCode =? 31)) then
      Err ("the field FormatTypeCode must be 29, got "%string ++ dec formatTypeCode)%string
    else 
      let subType := (Z.land data0 7) in
      if (negb (subType =? 0)) then
        Err ("the data are given for subtype "%string ++ dec subType ++ " format and can not be read by ReadAircraftOperationalStatusADSB0"%string)%string
      else 
        let* data5 := idx data 5 in
        let* cond := (if (negb (data5 =? 0)) then Ok true else let* data6 := idx data 6 in
        Ok (negb (data6 =? 0))) in
        if cond then
          Err ("the bits 41 to 56 are expected to be 0"%string)
        else 
          let* r := bds65_fields.ReadEnRouteOperationalCapabilities data in
          let* r_1 := bds65_fields.ReadEnRouteOperationalCapabilityStatus data in
          let* r_2 := bds65_fields.ReadTerminalAreaOperationalCapabilities data in
          let* r_3 := bds65_fields.ReadTerminalAreaOperationalCapabilityStatus data in
          let* r_4 := bds65_fields.ReadApproachLandingOperationalCapabilities data in
          let* r_5 := bds65_fields.ReadApproachLandingOperationalCapabilityStatus data in
          let* r_6 := bds65_fields.ReadSurfaceOperationalCapabilities data in
          let* r_7 := bds65_fields.ReadSurfaceOperationalCapabilityStatus data in
          Ok ({| AircraftOperationalStatusADSB0_FormatTypeCode := formatTypeCode;
      AircraftOperationalStatusADSB0_Subtype := subType;
      AircraftOperationalStatusADSB0_EnRouteOperationalCapabilities := r;
      AircraftOperationalStatusADSB0_EnRouteOperationalCapabilityStatus := r_1;
      AircraftOperationalStatusADSB0_TerminalAreaOperationalCapabilities := r_2;
      AircraftOperationalStatusADSB0_TerminalAreaOperationalCapabilityStatus := r_3;
      AircraftOperationalStatusADSB0_ApproachLandingOperationalCapabilities := r_4;
      AircraftOperationalStatusADSB0_ApproachLandingOperationalCapabilityStatus := r_5;
      AircraftOperationalStatusADSB0_SurfaceOperationalCapabilities := r_6;
      AircraftOperationalStatusADSB0_SurfaceOperationalCapabilityStatus := r_7 |}).

(* pkg/bds/bds65/aircraft_operational_status_airborne_adsb1.go:28-30 *)
Definition AircraftOperationalStatusAirborneADSB1_GetADSBLevel (message : AircraftOperationalStatusAirborneADSB1) : Z :=
  1.

(* pkg/bds/bds65/aircraft_operational_status_airborne_adsb1.go:33-35 *)
Definition AircraftOperationalStatusAirborneADSB1_GetRegister (message : AircraftOperationalStatusAirborneADSB1) : bds_register.Register :=
  bds_register.BDS65.

(* pkg/bds/bds65/aircraft_operational_status_airborne_adsb1.go:38-40 *)
Definition AircraftOperationalStatusAirborneADSB1_CheckCoherency (message : AircraftOperationalStatusAirborneADSB1) : res unit :=
  Ok tt.

(* pkg/bds/bds65/aircraft_operational_status_airborne_adsb1.go:43-65 *)
Definition AircraftOperationalStatusAirborneADSB1_ToString (message : AircraftOperationalStatusAirborneADSB1) : string :=
  ("Message:                                 "%string ++ (bds_register.Register_ToString (AircraftOperationalStatusAirborneADSB1_GetRegister message)) ++
      (nl ++ "Subtype:                                 ")%string ++ (bds65_fields.Subtype_ToString message.(AircraftOperationalStatusAirborneADSB1_Subtype)) ++
      (nl ++ "Airborne Capability Class:               " ++ nl)%string ++ (PrefixMultiLine (bds65_fields.AirborneCapabilityClassV1_ToString message.(AircraftOperationalStatusAirborneADSB1_AirborneCapabilityClass)) ("    "%string)) ++
      (nl ++ "Operational Mode:                        " ++ nl)%string ++ (PrefixMultiLine (bds65_fields.OperationalMode_ToString message.(AircraftOperationalStatusAirborneADSB1_OperationalMode)) ("    "%string)) ++
      (nl ++ "ADSB Version Number:                     ")%string ++ (bds65_fields.VersionNumber_ToString message.(AircraftOperationalStatusAirborneADSB1_VersionNumber)) ++
      (nl ++ "NIC Supplement:                          ")%string ++ (bds65_fields.NICSupplementA_ToString message.(AircraftOperationalStatusAirborneADSB1_NICSupplement)) ++
      (nl ++ "Navigational Accuracy Category Position: ")%string ++ (bds65_fields.NavigationalAccuracyCategoryPositionV1_ToString message.(AircraftOperationalStatusAirborneADSB1_NavigationalAccuracyCategoryPosition)) ++
      (nl ++ "Surveillance Integrity ReaderLevel:      " ++ nl)%string ++ (PrefixMultiLine (bds65_fields.SurveillanceIntegrityLevel_ToString message.(AircraftOperationalStatusAirborneADSB1_SurveillanceIntegrityLevel)) ("    "%string)) ++
      (nl ++ "NIC Baro:                                ")%string ++ (bds65_fields.NICBaro_ToString message.(AircraftOperationalStatusAirborneADSB1_NICBaro)) ++
      (nl ++ "Horizontal Reference Direction:          ")%string ++ (bds65_fields.HorizontalReferenceDirection_ToString message.(AircraftOperationalStatusAirborneADSB1_HorizontalReferenceDirection)))%string.

(* pkg/bds/bds65/aircraft_operational_status_airborne_adsb1.go:68-120 *)
Definition ReadAircraftOperationalStatusAirborneADSB1 (data : list Z) : res AircraftOperationalStatusAirborneADSB1 :=
  if (negb ((len data) =? 7)) then
    Err ("the data must be 7 bytes long ("%string ++ dec (len data) ++ " given)"%string)%string
  else 
    let* data0 := idx data 0 in
    let formatTypeCode := (Z.shiftr (Z.land data0 0xf8) 3) in
    if (negb (formatTypeCode =? 31)) then
      Err ("the field FormatTypeCode must be 29, got "%string ++ dec formatTypeCode)%string
    else 
      let* r := bds65_fields.ReadSubtype data in
      let subType := r in
      if (negb (subType =? bds65_fields.SubtypeAirborne)) then
        Err ("the data are given for subtype "%string ++ dec subType ++ " format and can not be read by ReadAircraftOperationalStatusADSB0"%string)%string
      else 
        let* r_1 := bds65_fields.ReadVersionNumber data in
        let detectedADSBLevel := r_1 in
        if (negb (detectedADSBLevel =? bds65_fields.ADSBVersion1)) then
          Err ("the data are given at "%string ++ (bds65_fields.VersionNumber_ToString detectedADSBLevel) ++ " format and can not be read by ReadAircraftOperationalStatusAirborneADSB1"%string)%string
        else 
          let* data1 := idx data 1 in
          let serviceLevel := (u8 ((Z.shiftr (Z.land data1 0xc0) 4) + (Z.shiftr (Z.land data1 0xc) 2))) in
          if (negb (serviceLevel =? 0)) then
            Err ("the ServiceLevel (field Capability Class) must be 0 ("%string ++ dec serviceLevel ++ " given)"%string)%string
          else 
            let* data3 := idx data 3 in
            let operationalModeFormat := (Z.shiftr (Z.land data3 0xc0) 6) in
            if (negb (operationalModeFormat =? 0)) then
              Err ("the Operational Mode Format (field Operational Mode) must be 0 ("%string ++ dec operationalModeFormat ++ " given)"%string)%string
            else 
              let* data6 := idx data 6 in
              if (negb ((Z.land data6 0xc0) =? 0)) then
                Err ("the bits 49 and 50 must be 0"%string)
              else if (negb ((Z.land data6 3) =? 0)) then
                Err ("the bits 55 and 56 must be 0"%string)
              else 
                let* r_2 := bds65_fields.ReadAirborneCapabilityClassV1 data in
                let* r_3 := bds65_fields.ReadOperationalMode data in
                let* r_4 := bds65_fields.ReadVersionNumber data in
                let* r_5 := bds65_fields.ReadNICSupplementA data in
                let* r_6 := bds65_fields.ReadNavigationalAccuracyCategoryPositionV1 data in
                let* r_7 := bds65_fields.ReadSurveillanceIntegrityLevel data in
                let* r_8 := bds65_fields.ReadNICBaro data in
                let* r_9 := bds65_fields.ReadHorizontalReferenceDirection data in
                Ok ({| AircraftOperationalStatusAirborneADSB1_FormatTypeCode := formatTypeCode;
      AircraftOperationalStatusAirborneADSB1_Subtype := subType;
      AircraftOperationalStatusAirborneADSB1_AirborneCapabilityClass := r_2;
      AircraftOperationalStatusAirborneADSB1_OperationalMode := r_3;
      AircraftOperationalStatusAirborneADSB1_VersionNumber := r_4;
      AircraftOperationalStatusAirborneADSB1_NICSupplement := r_5;
      AircraftOperationalStatusAirborneADSB1_NavigationalAccuracyCategoryPosition := r_6;
      AircraftOperationalStatusAirborneADSB1_SurveillanceIntegrityLevel := r_7;
      AircraftOperationalStatusAirborneADSB1_NICBaro := r_8;
      AircraftOperationalStatusAirborneADSB1_HorizontalReferenceDirection := r_9 |}).

(* pkg/bds/bds65/aircraft_operational_status_airborne_adsb2.go:30-32 *)
Definition AircraftOperationalStatusAirborneADSB2_GetADSBLevel (message : AircraftOperationalStatusAirborneADSB2) : Z :=
  2.

(* pkg/bds/bds65/aircraft_operational_status_airborne_adsb2.go:35-37 *)
Definition AircraftOperationalStatusAirborneADSB2_GetRegister (message : AircraftOperationalStatusAirborneADSB2) : bds_register.Register :=
  bds_register.BDS65.

(* pkg/bds/bds65/aircraft_operational_status_airborne_adsb2.go:40-42 *)
Definition AircraftOperationalStatusAirborneADSB2_CheckCoherency (message : AircraftOperationalStatusAirborneADSB2) : res unit :=
  Ok tt.

(* pkg/bds/bds65/aircraft_operational_status_airborne_adsb2.go:45-71 *)
Definition AircraftOperationalStatusAirborneADSB2_ToString (message : AircraftOperationalStatusAirborneADSB2) : string :=
  ("Message:                                 "%string ++ (bds_register.Register_ToString (AircraftOperationalStatusAirborneADSB2_GetRegister message)) ++
      (nl ++ "Subtype:                                 ")%string ++ (bds65_fields.Subtype_ToString message.(AircraftOperationalStatusAirborneADSB2_Subtype)) ++
      (nl ++ "SubtypeAirborne Capability Class:        " ++ nl)%string ++ (PrefixMultiLine (bds65_fields.AirborneCapabilityClassV2_ToString message.(AircraftOperationalStatusAirborneADSB2_AirborneCapabilityClass)) ("    "%string)) ++
      (nl ++ "Operational Mode:                        " ++ nl)%string ++ (PrefixMultiLine (bds65_fields.AirborneOperationalMode_ToString message.(AircraftOperationalStatusAirborneADSB2_OperationalMode)) ("    "%string)) ++
      (nl ++ "ADSB Version Number:                     ")%string ++ (bds65_fields.VersionNumber_ToString message.(AircraftOperationalStatusAirborneADSB2_VersionNumber)) ++
      (nl ++ "NIC Supplement:                          ")%string ++ (bds65_fields.NICSupplementA_ToString message.(AircraftOperationalStatusAirborneADSB2_NICSupplementA)) ++
      (nl ++ "Navigational Accuracy Category Position: ")%string ++ (bds65_fields.NavigationalAccuracyCategoryPositionV2_ToString message.(AircraftOperationalStatusAirborneADSB2_NavigationalAccuracyCategoryPosition)) ++
      (nl ++ "Geometric Vertical Accuracy:             ")%string ++ (bds65_fields.GeometricVerticalAccuracy_ToString message.(AircraftOperationalStatusAirborneADSB2_GeometricVerticalAccuracy)) ++
      (nl ++ "Source Integrity ReaderLevel:            ")%string ++ (bds65_fields.SourceIntegrityLevel_ToString message.(AircraftOperationalStatusAirborneADSB2_SourceIntegrityLevel)) ++
      (nl ++ "Source Integrity ReaderLevel Supplement: ")%string ++ (bds65_fields.SourceIntegrityLevelSupplement_ToString message.(AircraftOperationalStatusAirborneADSB2_SourceIntegrityLevelSupplement)) ++
      (nl ++ "NIC Baro:                                ")%string ++ (bds65_fields.NICBaro_ToString message.(AircraftOperationalStatusAirborneADSB2_NICBaro)) ++
      (nl ++ "Horizontal Reference Direction:          ")%string ++ (bds65_fields.HorizontalReferenceDirection_ToString message.(AircraftOperationalStatusAirborneADSB2_HorizontalReferenceDirection)))%string.

(* pkg/bds/bds65/aircraft_operational_status_airborne_adsb2.go:74-124 *)
Definition ReadAircraftOperationalStatusAirborneADSB2 (data : list Z) : res AircraftOperationalStatusAirborneADSB2 :=
  if (negb ((len data) =? 7)) then
    Err ("the data must be 7 bytes long ("%string ++ dec (len data) ++ " given)"%string)%string
  else 
    let* data0 := idx data 0 in
    let formatTypeCode := (Z.shiftr (Z.land data0 0xf8) 3) in
    if (negb (formatTypeCode =? 31)) then
      Err ("the field FormatTypeCode must be 31, got "%string ++ dec formatTypeCode)%string
    else 
      let* r := bds65_fields.ReadSubtype data in
      let subType := r in
      if (negb (subType =? bds65_fields.SubtypeAirborne)) then
        Err ("the data are given for subtype "%string ++ dec subType ++ " format and can not be read by ReadAircraftOperationalStatusADSB0"%string)%string
      else 
        let* r_1 := bds65_fields.ReadVersionNumber data in
        let detectedADSBLevel := r_1 in
        if (negb (detectedADSBLevel =? bds65_fields.ADSBVersion2)) then
          Err ("the data are given at at "%string ++ (bds65_fields.VersionNumber_ToString detectedADSBLevel) ++ " format and can not be read by ReadAircraftOperationalStatusAirborneADSB2"%string)%string
        else 
          let* data1 := idx data 1 in
          let capabilityContent := (Z.shiftr (Z.land data1 0xc0) 6) in
          if (negb (capabilityContent =? 0)) then
            Err ("the Capability Content (field Capability Class) must be 0 ("%string ++ dec capabilityContent ++ " given)"%string)%string
          else 
            let* data3 := idx data 3 in
            let operationalModeFormat := (Z.shiftr (Z.land data3 0xc0) 6) in
            if (negb (operationalModeFormat =? 0)) then
              Err ("the Operational Mode Format (field Operational Mode) must be 0 ("%string ++ dec operationalModeFormat ++ " given)"%string)%string
            else 
              let* data6 := idx data 6 in
              if (negb ((Z.land data6 1) =? 0)) then
                Err ("the bit 56 must be 0"%string)
              else 
                let* r_2 := bds65_fields.ReadAirborneCapabilityClassV2 data in
                let* r_3 := bds65_fields.ReadAirborneOperationalMode data in
                let* r_4 := bds65_fields.ReadVersionNumber data in
                let* r_5 := bds65_fields.ReadNICSupplementA data in
                let* r_6 := bds65_fields.ReadNavigationalAccuracyCategoryPositionV2 data in
                let* r_7 := bds65_fields.ReadGeometricVerticalAccuracy data in
                let* r_8 := bds65_fields.ReadSourceIntegrityLevel data in
                let* r_9 := bds65_fields.ReadNICBaro data in
                let* r_10 := bds65_fields.ReadHorizontalReferenceDirection data in
                let* r_11 := bds65_fields.ReadSourceIntegrityLevelSupplement data in
                Ok ({| AircraftOperationalStatusAirborneADSB2_FormatTypeCode := formatTypeCode;
      AircraftOperationalStatusAirborneADSB2_Subtype := subType;
      AircraftOperationalStatusAirborneADSB2_AirborneCapabilityClass := r_2;
      AircraftOperationalStatusAirborneADSB2_OperationalMode := r_3;
      AircraftOperationalStatusAirborneADSB2_VersionNumber := r_4;
      AircraftOperationalStatusAirborneADSB2_NICSupplementA := r_5;
      AircraftOperationalStatusAirborneADSB2_NavigationalAccuracyCategoryPosition := r_6;
      AircraftOperationalStatusAirborneADSB2_GeometricVerticalAccuracy := r_7;
      AircraftOperationalStatusAirborneADSB2_SourceIntegrityLevel := r_8;
      AircraftOperationalStatusAirborneADSB2_NICBaro := r_9;
      AircraftOperationalStatusAirborneADSB2_HorizontalReferenceDirection := r_10;
      AircraftOperationalStatusAirborneADSB2_SourceIntegrityLevelSupplement := r_11 |}).

(* pkg/bds/bds65/aircraft_operational_status_surface_adsb1.go:29-31 *)
Definition AircraftOperationalStatusSurfaceADSB1_GetADSBLevel (message : AircraftOperationalStatusSurfaceADSB1) : Z :=
  1.

(* pkg/bds/bds65/aircraft_operational_status_surface_adsb1.go:34-36 *)
Definition AircraftOperationalStatusSurfaceADSB1_GetRegister (message : AircraftOperationalStatusSurfaceADSB1) : bds_register.Register :=
  bds_register.BDS65.

(* pkg/bds/bds65/aircraft_operational_status_surface_adsb1.go:39-41 *)
Definition AircraftOperationalStatusSurfaceADSB1_CheckCoherency (message : AircraftOperationalStatusSurfaceADSB1) : res unit :=
  Ok tt.

(* pkg/bds/bds65/aircraft_operational_status_surface_adsb1.go:44-68 *)
Definition AircraftOperationalStatusSurfaceADSB1_ToString (message : AircraftOperationalStatusSurfaceADSB1) : string :=
  ("Message:                                 "%string ++ (bds_register.Register_ToString (AircraftOperationalStatusSurfaceADSB1_GetRegister message)) ++
      (nl ++ "Subtype:                                 ")%string ++ (bds65_fields.Subtype_ToString message.(AircraftOperationalStatusSurfaceADSB1_Subtype)) ++
      (nl ++ "SubtypeAirborne Capability Class:        " ++ nl)%string ++ (PrefixMultiLine (bds65_fields.SurfaceCapabilityClassV1_ToString message.(AircraftOperationalStatusSurfaceADSB1_SurfaceCapabilityClass)) ("    "%string)) ++
      (nl ++ "Aircraft Length And Width                ")%string ++ (bds65_fields.LengthWidth_ToString message.(AircraftOperationalStatusSurfaceADSB1_LengthAndWidth)) ++
      (nl ++ "Operational Mode:                        " ++ nl)%string ++ (PrefixMultiLine (bds65_fields.OperationalMode_ToString message.(AircraftOperationalStatusSurfaceADSB1_OperationalMode)) ("    "%string)) ++
      (nl ++ "ADSB Version Number:                     ")%string ++ (bds65_fields.VersionNumber_ToString message.(AircraftOperationalStatusSurfaceADSB1_VersionNumber)) ++
      (nl ++ "NIC Supplement:                          ")%string ++ (bds65_fields.NICSupplementA_ToString message.(AircraftOperationalStatusSurfaceADSB1_NICSupplement)) ++
      (nl ++ "Navigational Accuracy Category Position: ")%string ++ (bds65_fields.NavigationalAccuracyCategoryPositionV1_ToString message.(AircraftOperationalStatusSurfaceADSB1_NavigationalAccuracyCategoryPosition)) ++
      (nl ++ "Surveillance Integrity ReaderLevel:      " ++ nl)%string ++ (PrefixMultiLine (bds65_fields.SurveillanceIntegrityLevel_ToString message.(AircraftOperationalStatusSurfaceADSB1_SurveillanceIntegrityLevel)) ("    "%string)) ++
      (nl ++ "NIC Baro:                                ")%string ++ (bds65_fields.TrackAngleHeading_ToString message.(AircraftOperationalStatusSurfaceADSB1_TrackAngleHeading)) ++
      (nl ++ "Horizontal Reference Direction:          ")%string ++ (bds65_fields.HorizontalReferenceDirection_ToString message.(AircraftOperationalStatusSurfaceADSB1_HorizontalReferenceDirection)))%string.

(* pkg/bds/bds65/aircraft_operational_status_surface_adsb1.go:71-124 *)
Definition ReadAircraftOperationalStatusSurfaceADSB1 (data : list Z) : res AircraftOperationalStatusSurfaceADSB1 :=
  if (negb ((len data) =? 7)) then
    Err ("the data must be 7 bytes long ("%string ++ dec (len data) ++ " given)"%string)%string
  else 
    let* data0 := idx data 0 in
    let formatTypeCode := (Z.shiftr (Z.land data0 0xf8) 3) in
    if (negb (formatTypeCode =? 31)) then
      Err ("the field FormatTypeCode must be 31, got "%string ++ dec formatTypeCode)%string
    else 
      let* r := bds65_fields.ReadSubtype data in
      let subType := r in
      if (negb (subType =? bds65_fields.SubtypeSurface)) then
        Err ("the data are given for subtype "%string ++ (bds65_fields.Subtype_ToString subType) ++ " format and can not be read by ReadAircraftOperationalStatusSurfaceADSB1"%string)%string
      else 
        let* r_1 := bds65_fields.ReadVersionNumber data in
        let detectedADSBLevel := r_1 in
        if (negb (detectedADSBLevel =? bds65_fields.ADSBVersion1)) then
          Err ("the data are given at "%string ++ (bds65_fields.VersionNumber_ToString detectedADSBLevel) ++ " format and can not be read by ReadAircraftOperationalStatusSurfaceADSB1"%string)%string
        else 
          let* data1 := idx data 1 in
          let serviceLevel := (u8 ((Z.shiftr (Z.land data1 0xc0) 4) + (Z.shiftr (Z.land data1 0xc) 2))) in
          if (negb (serviceLevel =? 0)) then
            Err ("the ServiceLevel (field Capability Class) must be 0 ("%string ++ dec serviceLevel ++ " given)"%string)%string
          else 
            let* data3 := idx data 3 in
            let operationalModeFormat := (Z.shiftr (Z.land data3 0xc0) 6) in
            if (negb (operationalModeFormat =? 0)) then
              Err ("the Operational Mode Format (field Operational Mode) must be 0 ("%string ++ dec operationalModeFormat ++ " given)"%string)%string
            else 
              let* data6 := idx data 6 in
              if (negb ((Z.land data6 0xc0) =? 0)) then
                Err ("the bits 49 and 50 must be 0"%string)
              else if (negb ((Z.land data6 3) =? 0)) then
                Err ("the bits 55 and 56 must be 0"%string)
              else 
                let* r_2 := bds65_fields.ReadSurfaceCapabilityClassV1 data in
                let* r_3 := bds65_fields.ReadAircraftLengthAndWidth data in
                let* r_4 := bds65_fields.ReadOperationalMode data in
                let* r_5 := bds65_fields.ReadVersionNumber data in
                let* r_6 := bds65_fields.ReadNICSupplementA data in
                let* r_7 := bds65_fields.ReadNavigationalAccuracyCategoryPositionV1 data in
                let* r_8 := bds65_fields.ReadSurveillanceIntegrityLevel data in
                let* r_9 := bds65_fields.ReadTrackAngleHeading data in
                let* r_10 := bds65_fields.ReadHorizontalReferenceDirection data in
                Ok ({| AircraftOperationalStatusSurfaceADSB1_FormatTypeCode := formatTypeCode;
      AircraftOperationalStatusSurfaceADSB1_Subtype := subType;
      AircraftOperationalStatusSurfaceADSB1_SurfaceCapabilityClass := r_2;
      AircraftOperationalStatusSurfaceADSB1_LengthAndWidth := r_3;
      AircraftOperationalStatusSurfaceADSB1_OperationalMode := r_4;
      AircraftOperationalStatusSurfaceADSB1_VersionNumber := r_5;
      AircraftOperationalStatusSurfaceADSB1_NICSupplement := r_6;
      AircraftOperationalStatusSurfaceADSB1_NavigationalAccuracyCategoryPosition := r_7;
      AircraftOperationalStatusSurfaceADSB1_SurveillanceIntegrityLevel := r_8;
      AircraftOperationalStatusSurfaceADSB1_TrackAngleHeading := r_9;
      AircraftOperationalStatusSurfaceADSB1_HorizontalReferenceDirection := r_10 |}).

(* pkg/bds/bds65/aircraft_operational_status_surface_adsb2.go:30-32 *)
Definition AircraftOperationalStatusSurfaceADSB2_GetADSBLevel (message : AircraftOperationalStatusSurfaceADSB2) : Z :=
  1.

(* pkg/bds/bds65/aircraft_operational_status_surface_adsb2.go:35-37 *)
Definition AircraftOperationalStatusSurfaceADSB2_GetRegister (message : AircraftOperationalStatusSurfaceADSB2) : bds_register.Register :=
  bds_register.BDS65.

(* pkg/bds/bds65/aircraft_operational_status_surface_adsb2.go:40-42 *)
Definition AircraftOperationalStatusSurfaceADSB2_CheckCoherency (message : AircraftOperationalStatusSurfaceADSB2) : res unit :=
  Ok tt.

(* pkg/bds/bds65/aircraft_operational_status_surface_adsb2.go:45-71 *)
Definition AircraftOperationalStatusSurfaceADSB2_ToString (message : AircraftOperationalStatusSurfaceADSB2) : string :=
  ("Message:                                 "%string ++ (bds_register.Register_ToString (AircraftOperationalStatusSurfaceADSB2_GetRegister message)) ++
      (nl ++ "Subtype:                                 ")%string ++ (bds65_fields.Subtype_ToString message.(AircraftOperationalStatusSurfaceADSB2_Subtype)) ++
      (nl ++ "SubtypeAirborne Capability Class:        " ++ nl)%string ++ (PrefixMultiLine (bds65_fields.SurfaceCapabilityClassV2_ToString message.(AircraftOperationalStatusSurfaceADSB2_SurfaceCapabilityClass)) ("    "%string)) ++
      (nl ++ "Aircraft Length And Width                ")%string ++ (bds65_fields.LengthWidth_ToString message.(AircraftOperationalStatusSurfaceADSB2_LengthAndWidth)) ++
      (nl ++ "Operational Mode:                        " ++ nl)%string ++ (PrefixMultiLine (bds65_fields.SurfaceOperationalMode_ToString message.(AircraftOperationalStatusSurfaceADSB2_OperationalMode)) ("    "%string)) ++
      (nl ++ "ADSB Version Number:                     ")%string ++ (bds65_fields.VersionNumber_ToString message.(AircraftOperationalStatusSurfaceADSB2_VersionNumber)) ++
      (nl ++ "NIC Supplement:                          ")%string ++ (bds65_fields.NICSupplementA_ToString message.(AircraftOperationalStatusSurfaceADSB2_NICSupplementA)) ++
      (nl ++ "Navigational Accuracy Category Position: ")%string ++ (bds65_fields.NavigationalAccuracyCategoryPositionV2_ToString message.(AircraftOperationalStatusSurfaceADSB2_NavigationalAccuracyCategoryPosition)) ++
      (nl ++ "Source Integrity ReaderLevel:            ")%string ++ (bds65_fields.SourceIntegrityLevel_ToString message.(AircraftOperationalStatusSurfaceADSB2_SourceIntegrityLevel)) ++
      (nl ++ "Source Integrity ReaderLevel Supplement: ")%string ++ (bds65_fields.SourceIntegrityLevelSupplement_ToString message.(AircraftOperationalStatusSurfaceADSB2_SourceIntegrityLevelSupplement)) ++
      (nl ++ "NIC Baro:                                ")%string ++ (bds65_fields.TrackAngleHeading_ToString message.(AircraftOperationalStatusSurfaceADSB2_TrackAngleHeading)) ++
      (nl ++ "Horizontal Reference Direction:          ")%string ++ (bds65_fields.HorizontalReferenceDirection_ToString message.(AircraftOperationalStatusSurfaceADSB2_HorizontalReferenceDirection)))%string.

(* pkg/bds/bds65/aircraft_operational_status_surface_adsb2.go:74-124 *)
Definition ReadAircraftOperationalStatusSurfaceADSB2 (data : list Z) : res AircraftOperationalStatusSurfaceADSB2 :=
  if (negb ((len data) =? 7)) then
    Err ("the data must be 7 bytes long ("%string ++ dec (len data) ++ " given)"%string)%string
  else 
    let* data0 := idx data 0 in
    let formatTypeCode := (Z.shiftr (Z.land data0 0xf8) 3) in
    if (negb (formatTypeCode =? 31)) then
      Err ("the field FormatTypeCode must be 31, got "%string ++ dec formatTypeCode)%string
    else 
      let* r := bds65_fields.ReadSubtype data in
      let subType := r in
      if (negb (subType =? bds65_fields.SubtypeSurface)) then
        Err ("the data are given for subtype "%string ++ (bds65_fields.Subtype_ToString subType) ++ " format and can not be read by ReadAircraftOperationalStatusSurfaceADSB2"%string)%string
      else 
        let* r_1 := bds65_fields.ReadVersionNumber data in
        let detectedADSBLevel := r_1 in
        if (negb (detectedADSBLevel =? bds65_fields.ADSBVersion2)) then
          Err ("the data are given at at "%string ++ (bds65_fields.VersionNumber_ToString detectedADSBLevel) ++ " format and can not be read by ReadAircraftOperationalStatusSurfaceADSB2"%string)%string
        else 
          let* data1 := idx data 1 in
          let capabilityContent := (Z.shiftr (Z.land data1 0xc0) 6) in
          if (negb (capabilityContent =? 0)) then
            Err ("the Capability Content (field Capability Class) must be 0 ("%string ++ dec capabilityContent ++ " given)"%string)%string
          else 
            let* data3 := idx data 3 in
            let operationalModeFormat := (Z.shiftr (Z.land data3 0xc0) 6) in
            if (negb (operationalModeFormat =? 0)) then
              Err ("the Operational Mode Format (field Operational Mode) must be 0 ("%string ++ dec operationalModeFormat ++ " given)"%string)%string
            else 
              let* data6 := idx data 6 in
              if (negb ((Z.land data6 1) =? 0)) then
                Err ("the bit 56 must be 0"%string)
              else 
                let* r_2 := bds65_fields.ReadSurfaceCapabilityClassV2 data in
                let* r_3 := bds65_fields.ReadAircraftLengthAndWidth data in
                let* r_4 := bds65_fields.ReadSurfaceOperationalMode data in
                let* r_5 := bds65_fields.ReadVersionNumber data in
                let* r_6 := bds65_fields.ReadNICSupplementA data in
                let* r_7 := bds65_fields.ReadNavigationalAccuracyCategoryPositionV2 data in
                let* r_8 := bds65_fields.ReadSourceIntegrityLevel data in
                let* r_9 := bds65_fields.ReadTrackAngleHeading data in
                let* r_10 := bds65_fields.ReadHorizontalReferenceDirection data in
                let* r_11 := bds65_fields.ReadSourceIntegrityLevelSupplement data in
                Ok ({| AircraftOperationalStatusSurfaceADSB2_FormatTypeCode := formatTypeCode;
      AircraftOperationalStatusSurfaceADSB2_Subtype := subType;
      AircraftOperationalStatusSurfaceADSB2_SurfaceCapabilityClass := r_2;
      AircraftOperationalStatusSurfaceADSB2_LengthAndWidth := r_3;
      AircraftOperationalStatusSurfaceADSB2_OperationalMode := r_4;
      AircraftOperationalStatusSurfaceADSB2_VersionNumber := r_5;
      AircraftOperationalStatusSurfaceADSB2_NICSupplementA := r_6;
      AircraftOperationalStatusSurfaceADSB2_NavigationalAccuracyCategoryPosition := r_7;
      AircraftOperationalStatusSurfaceADSB2_SourceIntegrityLevel := r_8;
      AircraftOperationalStatusSurfaceADSB2_TrackAngleHeading := r_9;
      AircraftOperationalStatusSurfaceADSB2_HorizontalReferenceDirection := r_10;
      AircraftOperationalStatusSurfaceADSB2_SourceIntegrityLevelSupplement := r_11 |}).

(* dynamic dispatch of method CheckCoherency of interface AircraftOperationalStatus *)
Definition IAircraftOperationalStatus_CheckCoherency (v : AircraftOperationalStatus) : res unit :=
  match v with
  | IAircraftOperationalStatus_AircraftOperationalStatusADSB0 x => AircraftOperationalStatusADSB0_CheckCoherency x
  | IAircraftOperationalStatus_AircraftOperationalStatusAirborneADSB1 x => AircraftOperationalStatusAirborneADSB1_CheckCoherency x
  | IAircraftOperationalStatus_AircraftOperationalStatusAirborneADSB2 x => AircraftOperationalStatusAirborneADSB2_CheckCoherency x
  | IAircraftOperationalStatus_AircraftOperationalStatusSurfaceADSB1 x => AircraftOperationalStatusSurfaceADSB1_CheckCoherency x
  | IAircraftOperationalStatus_AircraftOperationalStatusSurfaceADSB2 x => AircraftOperationalStatusSurfaceADSB2_CheckCoherency x
  end.

(* dynamic dispatch of method GetADSBLevel of interface AircraftOperationalStatus *)
Definition IAircraftOperationalStatus_GetADSBLevel (v : AircraftOperationalStatus) : Z :=
  match v with
  | IAircraftOperationalStatus_AircraftOperationalStatusADSB0 x => AircraftOperationalStatusADSB0_GetADSBLevel x
  | IAircraftOperationalStatus_AircraftOperationalStatusAirborneADSB1 x => AircraftOperationalStatusAirborneADSB1_GetADSBLevel x
  | IAircraftOperationalStatus_AircraftOperationalStatusAirborneADSB2 x => AircraftOperationalStatusAirborneADSB2_GetADSBLevel x
  | IAircraftOperationalStatus_AircraftOperationalStatusSurfaceADSB1 x => AircraftOperationalStatusSurfaceADSB1_GetADSBLevel x
  | IAircraftOperationalStatus_AircraftOperationalStatusSurfaceADSB2 x => AircraftOperationalStatusSurfaceADSB2_GetADSBLevel x
  end.

(* dynamic dispatch of method GetRegister of interface AircraftOperationalStatus *)
Definition IAircraftOperationalStatus_GetRegister (v : AircraftOperationalStatus) : bds_register.Register :=
  match v with
  | IAircraftOperationalStatus_AircraftOperationalStatusADSB0 x => AircraftOperationalStatusADSB0_GetRegister x
  | IAircraftOperationalStatus_AircraftOperationalStatusAirborneADSB1 x => AircraftOperationalStatusAirborneADSB1_GetRegister x
  | IAircraftOperationalStatus_AircraftOperationalStatusAirborneADSB2 x => AircraftOperationalStatusAirborneADSB2_GetRegister x
  | IAircraftOperationalStatus_AircraftOperationalStatusSurfaceADSB1 x => AircraftOperationalStatusSurfaceADSB1_GetRegister x
  | IAircraftOperationalStatus_AircraftOperationalStatusSurfaceADSB2 x => AircraftOperationalStatusSurfaceADSB2_GetRegister x
  end.

(* dynamic dispatch of method ToString of interface AircraftOperationalStatus *)
Definition IAircraftOperationalStatus_ToString (v : AircraftOperationalStatus) : string :=
  match v with
  | IAircraftOperationalStatus_AircraftOperationalStatusADSB0 x => AircraftOperationalStatusADSB0_ToString x
  | IAircraftOperationalStatus_AircraftOperationalStatusAirborneADSB1 x => AircraftOperationalStatusAirborneADSB1_ToString x
  | IAircraftOperationalStatus_AircraftOperationalStatusAirborneADSB2 x => AircraftOperationalStatusAirborneADSB2_ToString x
  | IAircraftOperationalStatus_AircraftOperationalStatusSurfaceADSB1 x => AircraftOperationalStatusSurfaceADSB1_ToString x
  | IAircraftOperationalStatus_AircraftOperationalStatusSurfaceADSB2 x => AircraftOperationalStatusSurfaceADSB2_ToString x
  end.

(* pkg/bds/bds65/aircraft_operational_status.go:14-52 *)
Definition ReadAircraftOperationalStatus (data : list Z) : res AircraftOperationalStatus :=
  if (negb ((len data) =? 7)) then
    Err ("the data must be 7 bytes long ("%string ++ dec (len data) ++ " given)"%string)%string
  else 
    let* data0 := idx data 0 in
    let formatTypeCode := (Z.shiftr (Z.land data0 0xf8) 3) in
    if (negb (formatTypeCode =? 31)) then
      Err ("the data are given at format "%string ++ dec formatTypeCode ++ " and can not be read by ReadAircraftOperationalStatus"%string)%string
    else 
      let* data5 := idx data 5 in
      let adsbLevel := (Z.shiftr (Z.land data5 0xe0) 5) in
      let subType := (Z.land data0 7) in
      if (adsbLevel =? 0) then
        rmap (fun x__ => (IAircraftOperationalStatus_AircraftOperationalStatusADSB0 x__)) (ReadAircraftOperationalStatusADSB0 data)
      else if (adsbLevel =? 1) then
        if (subType =? 0) then
          rmap (fun x__ => (IAircraftOperationalStatus_AircraftOperationalStatusAirborneADSB1 x__)) (ReadAircraftOperationalStatusAirborneADSB1 data)
        else if (subType =? 1) then
          rmap (fun x__ => (IAircraftOperationalStatus_AircraftOperationalStatusSurfaceADSB1 x__)) (ReadAircraftOperationalStatusSurfaceADSB1 data)
        else 
          Err ("the field SubType must be comprised between 0 and 1 included, got "%string ++ dec subType)%string
      else if (adsbLevel =? 2) then
        if (subType =? 0) then
          rmap (fun x__ => (IAircraftOperationalStatus_AircraftOperationalStatusAirborneADSB2 x__)) (ReadAircraftOperationalStatusAirborneADSB2 data)
        else if (subType =? 1) then
          rmap (fun x__ => (IAircraftOperationalStatus_AircraftOperationalStatusSurfaceADSB2 x__)) (ReadAircraftOperationalStatusSurfaceADSB2 data)
        else 
          Err ("the field SubType must be comprised between 0 and 1 included, got "%string ++ dec subType)%string
      else 
        Err ("the field VersionNumber must be comprised between 0 and 2 included, got "%string ++ dec subType)%string.
