(* GENERATED by tools/go2coq.py from /repo/pkg/bds/bds62 -- do not edit by hand.
   One Gallina definition per Go declaration; each is preceded by the file and lines it models.
   Error values are represented by their text, see DESIGN.md.
*)
From Verif Require Import GoBase.
From Verif.Gen Require bds62_fields bds_register.
Local Open Scope Z_scope.

(* pkg/bds/bds62/target_state_and_status_type_0.go:14-33 *)
Record TargetStateAndStatus0 := mkTargetStateAndStatus0 {
  TargetStateAndStatus0_FormatTypeCode : Z;
  TargetStateAndStatus0_Subtype : bds62_fields.Subtype;
  TargetStateAndStatus0_VerticalDataAvailableSourceIndicator : bds62_fields.VerticalDataAvailableSourceIndicator;
  TargetStateAndStatus0_TargetAltitudeType : bds62_fields.TargetAltitudeType;
  TargetStateAndStatus0_TargetAltitudeCapability : bds62_fields.TargetAltitudeCapability;
  TargetStateAndStatus0_VerticalModeIndicator : bds62_fields.VerticalModeIndicator;
  TargetStateAndStatus0_TargetAltitudeStatus : bds62_fields.NumericValueStatus;
  TargetStateAndStatus0_TargetAltitude : Z;
  TargetStateAndStatus0_HorizontalDataAvailableSourceIndicator : bds62_fields.HorizontalDataAvailableSourceIndicator;
  TargetStateAndStatus0_TargetHeadingTrackAngleStatus : bds62_fields.NumericValueStatus;
  TargetStateAndStatus0_TargetHeadingTrackAngle : Z;
  TargetStateAndStatus0_TargetHeadingTrackIndicator : bds62_fields.TargetHeadingTrackIndicator;
  TargetStateAndStatus0_HorizontalModeIndicator : bds62_fields.HorizontalModeIndicator;
  TargetStateAndStatus0_NavigationalAccuracyCategoryPosition : bds62_fields.NavigationalAccuracyCategoryPositionV1;
  TargetStateAndStatus0_NICBaro : bds62_fields.NICBaro;
  TargetStateAndStatus0_SurveillanceIntegrityLevel : bds62_fields.SurveillanceIntegrityLevel;
  TargetStateAndStatus0_CapabilityModeCode : bds62_fields.CapabilityModeCode;
  TargetStateAndStatus0_EmergencyPriorityStatus : bds62_fields.EmergencyPriorityStatus }.

(* pkg/bds/bds62/target_state_and_status_type_1.go:13-34 *)
Record TargetStateAndStatus1 := mkTargetStateAndStatus1 {
  TargetStateAndStatus1_FormatTypeCode : Z;
  TargetStateAndStatus1_Subtype : bds62_fields.Subtype;
  TargetStateAndStatus1_SourceIntegrityLevelSupplement : bds62_fields.SourceIntegrityLevelSupplement;
  TargetStateAndStatus1_SelectedAltitudeType : bds62_fields.SelectedAltitudeType;
  TargetStateAndStatus1_SelectedAltitudeStatus : bds62_fields.NumericValueStatus;
  TargetStateAndStatus1_SelectedAltitude : Z;
  TargetStateAndStatus1_BarometricPressureSettingStatus : bds62_fields.NumericValueStatus;
  TargetStateAndStatus1_BarometricPressureSetting : f32;
  TargetStateAndStatus1_SelectedHeadingStatus : bds62_fields.SelectedHeadingStatus;
  TargetStateAndStatus1_SelectedHeading : f32;
  TargetStateAndStatus1_NavigationalAccuracyCategoryPosition : bds62_fields.NavigationalAccuracyCategoryPositionV2;
  TargetStateAndStatus1_NICBaro : bds62_fields.NICBaro;
  TargetStateAndStatus1_SourceIntegrityLevel : bds62_fields.SourceIntegrityLevel;
  TargetStateAndStatus1_StatusMCPFCUBits : bds62_fields.StatusMCPFCUBits;
  TargetStateAndStatus1_AutopilotEngaged : bool;
  TargetStateAndStatus1_VNAVModeEngaged : bool;
  TargetStateAndStatus1_AltitudeHoldModeEngaged : bool;
  TargetStateAndStatus1_ApproachModeEngaged : bool;
  TargetStateAndStatus1_TCASACASOperational : bool;
  TargetStateAndStatus1_LNAVModeEngaged : bool }.

(* pkg/bds/bds62/target_state_and_status.go:9-12
   Go interface TargetStateAndStatus, as the sum of the types that implement it *)
Inductive TargetStateAndStatus :=
| ITargetStateAndStatus_TargetStateAndStatus0 (m : TargetStateAndStatus0)
| ITargetStateAndStatus_TargetStateAndStatus1 (m : TargetStateAndStatus1).

(* pkg/bds/bds62/target_state_and_status_type_0.go:35-37 *)
Definition TargetStateAndStatus0_GetSubtype (message : TargetStateAndStatus0) : bds62_fields.Subtype :=
  message.(TargetStateAndStatus0_Subtype).

(* pkg/bds/bds62/target_state_and_status_type_0.go:40-42 *)
Definition TargetStateAndStatus0_GetRegister (message : TargetStateAndStatus0) : bds_register.Register :=
  bds_register.BDS62.

(* pkg/bds/bds62/target_state_and_status_type_0.go:45-47 *)
Definition TargetStateAndStatus0_CheckCoherency (message : TargetStateAndStatus0) : res unit :=
  Ok tt.

(* pkg/bds/bds62/target_state_and_status_type_0.go:50-88 *)
Definition TargetStateAndStatus0_ToString (message : TargetStateAndStatus0) : string :=
  ("Message:                                      "%string ++ (bds_register.Register_ToString (TargetStateAndStatus0_GetRegister message)) ++
      (nl ++ "Subtype:                                      ")%string ++ (bds62_fields.Subtype_ToString (TargetStateAndStatus0_GetSubtype message)) ++
      (nl ++ "Vertical Data Available / Source Indicator:   ")%string ++ (bds62_fields.VerticalDataAvailableSourceIndicator_ToString message.(TargetStateAndStatus0_VerticalDataAvailableSourceIndicator)) ++
      (nl ++ "Target Altitude Type:                         ")%string ++ (bds62_fields.TargetAltitudeType_ToString message.(TargetStateAndStatus0_TargetAltitudeType)) ++
      (nl ++ "Target Altitude Capability:                   ")%string ++ (bds62_fields.TargetAltitudeCapability_ToString message.(TargetStateAndStatus0_TargetAltitudeCapability)) ++
      (nl ++ "Vertical Mode Indicator:                      ")%string ++ (bds62_fields.VerticalModeIndicator_ToString message.(TargetStateAndStatus0_VerticalModeIndicator)) ++
      (nl ++ "Target Altitude Status:                       ")%string ++ (bds62_fields.NumericValueStatus_ToString message.(TargetStateAndStatus0_TargetAltitudeStatus)) ++
      (nl ++ "Target Altitude:                              ")%string ++ dec message.(TargetStateAndStatus0_TargetAltitude) ++
      (nl ++ "Horizontal Data Available / Source Indicator: ")%string ++ (bds62_fields.HorizontalDataAvailableSourceIndicator_ToString message.(TargetStateAndStatus0_HorizontalDataAvailableSourceIndicator)) ++
      (nl ++ "Target Heading / Track Angle Status:          ")%string ++ (bds62_fields.NumericValueStatus_ToString message.(TargetStateAndStatus0_TargetHeadingTrackAngleStatus)) ++
      (nl ++ "Target Heading / Track Angle:                 ")%string ++ dec message.(TargetStateAndStatus0_TargetHeadingTrackAngle) ++
      (nl ++ "Target Heading / Track Indicator:             ")%string ++ (bds62_fields.TargetHeadingTrackIndicator_ToString message.(TargetStateAndStatus0_TargetHeadingTrackIndicator)) ++
      (nl ++ "Horizontal Mode Indicator:                    ")%string ++ (bds62_fields.HorizontalModeIndicator_ToString message.(TargetStateAndStatus0_HorizontalModeIndicator)) ++
      (nl ++ "Navigation Accuracy Category - Position:      ")%string ++ (bds62_fields.NavigationalAccuracyCategoryPositionV1_ToString message.(TargetStateAndStatus0_NavigationalAccuracyCategoryPosition)) ++
      (nl ++ "Navigation Integrity Category - Baro:         ")%string ++ (bds62_fields.NICBaro_ToString message.(TargetStateAndStatus0_NICBaro)) ++
      (nl ++ "Surveillance Integrity ReaderLevel:           ")%string ++ (bds62_fields.SurveillanceIntegrityLevel_ToString message.(TargetStateAndStatus0_SurveillanceIntegrityLevel)) ++
      (nl ++ "Capability / Mode Codes:                      ")%string ++ (bds62_fields.CapabilityModeCode_ToString message.(TargetStateAndStatus0_CapabilityModeCode)) ++
      (nl ++ "Emergency / Priority Status:                  ")%string ++ (bds62_fields.EmergencyPriorityStatus_ToString message.(TargetStateAndStatus0_EmergencyPriorityStatus)))%string.

(* pkg/bds/bds62/target_state_and_status_type_0.go:91-138 *)
Definition ReadTargetStateAndStatus0 (data : list Z) : res TargetStateAndStatus0 :=
  if (negb ((len data) =? 7)) then
    Err ("the data must be 7 bytes long ("%string ++ dec (len data) ++ " given)"%string)%string
  else 
    let* data0 := idx data 0 in
    let formatTypeCode := (Z.shiftr (Z.land data0 0xf8) 3) in
    if (negb (formatTypeCode =? 29)) then
      Err ("the field FormatTypeCode must be 29, got "%string ++ dec formatTypeCode)%string
    else 
      let* r := bds62_fields.ReadSubtype data in
      let subType := r in
      if (negb (subType =? bds62_fields.Subtype0)) then
        Err ("the data are given for subtype "%string ++ (bds62_fields.Subtype_ToString subType) ++ " format and can not be read by ReadTargetStateAndStatus0"%string)%string
      else 
        let* data5 := idx data 5 in
        if (negb ((Z.land data5 3) =? 0)) then
          Err ("the bits 47 to 48 are expected to be 0"%string)
        else 
          let* data6 := idx data 6 in
          if (negb ((Z.land data6 0xe0) =? 0)) then
            Err ("the bits 49 to 51 are expected to be 0"%string)
          else 
            let* '(targetAltitude, targetAltitudeStatus) := bds62_fields.ReadTargetAltitude data in
            let* '(targetHeading, targetHeadingStatus) := bds62_fields.ReadTargetHeadingTrackAngle data in
            let* r_1 := bds62_fields.ReadVerticalDataAvailableSourceIndicator data in
            let* r_2 := bds62_fields.ReadTargetAltitudeType data in
            let* r_3 := bds62_fields.ReadTargetAltitudeCapability data in
            let* r_4 := bds62_fields.ReadVerticalModeIndicator data in
            let* r_5 := bds62_fields.ReadHorizontalDataAvailableSourceIndicator data in
            let* r_6 := bds62_fields.ReadTargetHeadingTrackIndicator data in
            let* r_7 := bds62_fields.ReadHorizontalModeIndicator data in
            let* r_8 := bds62_fields.ReadNavigationalAccuracyCategoryPositionV1 data in
            let* r_9 := bds62_fields.ReadNICBaro data in
            let* r_10 := bds62_fields.ReadSurveillanceIntegrityLevel data in
            let* r_11 := bds62_fields.ReadCapabilityModeCode data in
            let* r_12 := bds62_fields.ReadEmergencyPriorityStatus data in
            Ok ({| TargetStateAndStatus0_FormatTypeCode := formatTypeCode;
      TargetStateAndStatus0_Subtype := subType;
      TargetStateAndStatus0_VerticalDataAvailableSourceIndicator := r_1;
      TargetStateAndStatus0_TargetAltitudeType := r_2;
      TargetStateAndStatus0_TargetAltitudeCapability := r_3;
      TargetStateAndStatus0_VerticalModeIndicator := r_4;
      TargetStateAndStatus0_TargetAltitudeStatus := targetAltitudeStatus;
      TargetStateAndStatus0_TargetAltitude := targetAltitude;
      TargetStateAndStatus0_HorizontalDataAvailableSourceIndicator := r_5;
      TargetStateAndStatus0_TargetHeadingTrackAngleStatus := targetHeadingStatus;
      TargetStateAndStatus0_TargetHeadingTrackAngle := targetHeading;
      TargetStateAndStatus0_TargetHeadingTrackIndicator := r_6;
      TargetStateAndStatus0_HorizontalModeIndicator := r_7;
      TargetStateAndStatus0_NavigationalAccuracyCategoryPosition := r_8;
      TargetStateAndStatus0_NICBaro := r_9;
      TargetStateAndStatus0_SurveillanceIntegrityLevel := r_10;
      TargetStateAndStatus0_CapabilityModeCode := r_11;
      TargetStateAndStatus0_EmergencyPriorityStatus := r_12 |}).

(* pkg/bds/bds62/target_state_and_status_type_1.go:36-38 *)
Definition TargetStateAndStatus1_GetSubtype (message : TargetStateAndStatus1) : bds62_fields.Subtype :=
  message.(TargetStateAndStatus1_Subtype).

(* pkg/bds/bds62/target_state_and_status_type_1.go:41-43 *)
Definition TargetStateAndStatus1_GetRegister (message : TargetStateAndStatus1) : bds_register.Register :=
  bds_register.BDS62.

(* pkg/bds/bds62/target_state_and_status_type_1.go:46-48 *)
Definition TargetStateAndStatus1_CheckCoherency (message : TargetStateAndStatus1) : res unit :=
  Ok tt.

(* pkg/bds/bds62/target_state_and_status_type_1.go:51-93 *)
Definition TargetStateAndStatus1_ToString (ffmt : spec_float -> string) (message : TargetStateAndStatus1) : string :=
  ("Message:                                       "%string ++ (bds_register.Register_ToString (TargetStateAndStatus1_GetRegister message)) ++
      (nl ++ "Subtype:                                       ")%string ++ (bds62_fields.Subtype_ToString (TargetStateAndStatus1_GetSubtype message)) ++
      (nl ++ "Selected Altitude Type:                        ")%string ++ (bds62_fields.SelectedAltitudeType_ToString message.(TargetStateAndStatus1_SelectedAltitudeType)) ++
      (nl ++ "Selected Altitude Status:                      ")%string ++ (bds62_fields.NumericValueStatus_ToString message.(TargetStateAndStatus1_SelectedAltitudeStatus)) ++
      (nl ++ "Selected Altitude:                             ")%string ++ dec message.(TargetStateAndStatus1_SelectedAltitude) ++
      (nl ++ "Barometric Pressure Setting Status:            ")%string ++ (bds62_fields.NumericValueStatus_ToString message.(TargetStateAndStatus1_BarometricPressureSettingStatus)) ++
      (nl ++ "Barometric Pressure Setting:                   ")%string ++ ffmt message.(TargetStateAndStatus1_BarometricPressureSetting) ++
      (nl ++ "Selected Heading Status:                       ")%string ++ (bds62_fields.SelectedHeadingStatus_ToString message.(TargetStateAndStatus1_SelectedHeadingStatus)) ++
      (nl ++ "Selected Heading :                             ")%string ++ ffmt message.(TargetStateAndStatus1_SelectedHeading) ++
      (nl ++ "Navigation Accuracy Category - Position:       ")%string ++ (bds62_fields.NavigationalAccuracyCategoryPositionV2_ToString message.(TargetStateAndStatus1_NavigationalAccuracyCategoryPosition)) ++
      (nl ++ "Navigation Integrity Category - Baro:          ")%string ++ (bds62_fields.NICBaro_ToString message.(TargetStateAndStatus1_NICBaro)) ++
      (nl ++ "Source Integrity ReaderLevel:                  ")%string ++ (bds62_fields.SourceIntegrityLevel_ToString message.(TargetStateAndStatus1_SourceIntegrityLevel)) ++
      (nl ++ "Source Integrity ReaderLevel Supplement:       ")%string ++ (bds62_fields.SourceIntegrityLevelSupplement_ToString message.(TargetStateAndStatus1_SourceIntegrityLevelSupplement)) ++
      (nl ++ "Status of MCP/FPU Mode Bits:                   ")%string ++ (bds62_fields.StatusMCPFCUBits_ToString message.(TargetStateAndStatus1_StatusMCPFCUBits)) ++
      (nl ++ "Autopilot Engaged:                             ")%string ++ bool_str message.(TargetStateAndStatus1_AutopilotEngaged) ++
      (nl ++ "VNAV Mode Engaged:                             ")%string ++ bool_str message.(TargetStateAndStatus1_VNAVModeEngaged) ++
      (nl ++ "Altitude Hold Mode Engaged:                    ")%string ++ bool_str message.(TargetStateAndStatus1_AltitudeHoldModeEngaged) ++
      (nl ++ "Approach Mode Engaged:                         ")%string ++ bool_str message.(TargetStateAndStatus1_ApproachModeEngaged) ++
      (nl ++ "LNAV Mode Engaged:                             ")%string ++ bool_str message.(TargetStateAndStatus1_LNAVModeEngaged) ++
      (nl ++ "TCAS / ACAS Operational :                      ")%string ++ bool_str message.(TargetStateAndStatus1_TCASACASOperational))%string.

(* pkg/bds/bds62/target_state_and_status_type_1.go:96-138 *)
Definition ReadTargetStateAndStatus1 (data : list Z) : res TargetStateAndStatus1 :=
  if (negb ((len data) =? 7)) then
    Err ("the data must be 7 bytes long ("%string ++ dec (len data) ++ " given)"%string)%string
  else 
    let* data0 := idx data 0 in
    let formatTypeCode := (Z.shiftr (Z.land data0 0xf8) 3) in
    if (negb (formatTypeCode =? 29)) then
      Err ("the field FormatTypeCode must be 29, got "%string ++ dec formatTypeCode)%string
    else 
      let* r := bds62_fields.ReadSubtype data in
      let subType := r in
      if (negb (subType =? bds62_fields.Subtype1)) then
        Err ("the data are given for subtype "%string ++ (bds62_fields.Subtype_ToString subType) ++ " format and can not be read by ReadTargetStateAndStatus1"%string)%string
      else 
        let* '(selectedAltitude, selectedAltitudeStatus) := bds62_fields.ReadSelectedAltitude data in
        let* '(barometricPressureSetting, barometricPressureSettingStatus) := bds62_fields.ReadBarometricPressureSetting data in
        let* '(selectedHeading, selectedHeadingStatus) := bds62_fields.ReadSelectedHeading data in
        let* r_1 := bds62_fields.ReadSourceIntegrityLevelSupplement data in
        let* r_2 := bds62_fields.ReadSelectedAltitudeType data in
        let* r_3 := bds62_fields.ReadNavigationalAccuracyCategoryPositionV2 data in
        let* r_4 := bds62_fields.ReadNICBaro data in
        let* r_5 := bds62_fields.ReadSourceIntegrityLevel data in
        let* r_6 := bds62_fields.ReadStatusMCPFCUBits data in
        let* data5 := idx data 5 in
        let* data6 := idx data 6 in
        Ok ({| TargetStateAndStatus1_FormatTypeCode := formatTypeCode;
      TargetStateAndStatus1_Subtype := subType;
      TargetStateAndStatus1_SourceIntegrityLevelSupplement := r_1;
      TargetStateAndStatus1_SelectedAltitudeType := r_2;
      TargetStateAndStatus1_SelectedAltitudeStatus := selectedAltitudeStatus;
      TargetStateAndStatus1_SelectedAltitude := selectedAltitude;
      TargetStateAndStatus1_BarometricPressureSettingStatus := barometricPressureSettingStatus;
      TargetStateAndStatus1_BarometricPressureSetting := barometricPressureSetting;
      TargetStateAndStatus1_SelectedHeadingStatus := selectedHeadingStatus;
      TargetStateAndStatus1_SelectedHeading := selectedHeading;
      TargetStateAndStatus1_NavigationalAccuracyCategoryPosition := r_3;
      TargetStateAndStatus1_NICBaro := r_4;
      TargetStateAndStatus1_SourceIntegrityLevel := r_5;
      TargetStateAndStatus1_StatusMCPFCUBits := r_6;
      TargetStateAndStatus1_AutopilotEngaged := (negb ((Z.land data5 1) =? 0));
      TargetStateAndStatus1_VNAVModeEngaged := (negb ((Z.land data6 0x80) =? 0));
      TargetStateAndStatus1_AltitudeHoldModeEngaged := (negb ((Z.land data6 0x40) =? 0));
      TargetStateAndStatus1_ApproachModeEngaged := (negb ((Z.land data6 0x10) =? 0));
      TargetStateAndStatus1_TCASACASOperational := (negb ((Z.land data6 8) =? 0));
      TargetStateAndStatus1_LNAVModeEngaged := (negb ((Z.land data6 4) =? 0)) |}).

(* dynamic dispatch of method CheckCoherency of interface TargetStateAndStatus *)
Definition ITargetStateAndStatus_CheckCoherency (v : TargetStateAndStatus) : res unit :=
  match v with
  | ITargetStateAndStatus_TargetStateAndStatus0 x => TargetStateAndStatus0_CheckCoherency x
  | ITargetStateAndStatus_TargetStateAndStatus1 x => TargetStateAndStatus1_CheckCoherency x
  end.

(* dynamic dispatch of method GetRegister of interface TargetStateAndStatus *)
Definition ITargetStateAndStatus_GetRegister (v : TargetStateAndStatus) : bds_register.Register :=
  match v with
  | ITargetStateAndStatus_TargetStateAndStatus0 x => TargetStateAndStatus0_GetRegister x
  | ITargetStateAndStatus_TargetStateAndStatus1 x => TargetStateAndStatus1_GetRegister x
  end.

(* dynamic dispatch of method GetSubtype of interface TargetStateAndStatus *)
Definition ITargetStateAndStatus_GetSubtype (v : TargetStateAndStatus) : bds62_fields.Subtype :=
  match v with
  | ITargetStateAndStatus_TargetStateAndStatus0 x => TargetStateAndStatus0_GetSubtype x
  | ITargetStateAndStatus_TargetStateAndStatus1 x => TargetStateAndStatus1_GetSubtype x
  end.

(* dynamic dispatch of method ToString of interface TargetStateAndStatus *)
Definition ITargetStateAndStatus_ToString (ffmt : spec_float -> string) (v : TargetStateAndStatus) : string :=
  match v with
  | ITargetStateAndStatus_TargetStateAndStatus0 x => TargetStateAndStatus0_ToString x
  | ITargetStateAndStatus_TargetStateAndStatus1 x => TargetStateAndStatus1_ToString ffmt x
  end.

(* pkg/bds/bds62/target_state_and_status.go:15-35 *)
Definition ReadTargetStateAndStatus (data : list Z) : res TargetStateAndStatus :=
  if (negb ((len data) =? 7)) then
    Err ("the data must be 7 bytes long ("%string ++ dec (len data) ++ " given)"%string)%string
  else 
    let* data0 := idx data 0 in
    let formatTypeCode := (Z.shiftr (Z.land data0 0xf8) 3) in
    if (negb (formatTypeCode =? 29)) then
      Err ("the data are given at format "%string ++ dec formatTypeCode ++ " and can not be read by ReadTargetStateAndStatus"%string)%string
    else 
      let* r := bds62_fields.ReadSubtype data in
      let subType := r in
      if (subType =? bds62_fields.Subtype0) then
        rmap (fun x__ => (ITargetStateAndStatus_TargetStateAndStatus0 x__)) (ReadTargetStateAndStatus0 data)
      else if (subType =? bds62_fields.Subtype1) then
        rmap (fun x__ => (ITargetStateAndStatus_TargetStateAndStatus1 x__)) (ReadTargetStateAndStatus1 data)
      else 
        Err ("the field SubType must be comprised between 0 and 1 included, got "%string ++ dec subType)%string.
