(* GENERATED by tools/go2coq.py from /repo/pkg/bds/bds40 -- do not edit by hand.
   One Gallina definition per Go declaration; each is preceded by the file and lines it models.
   Error values are represented by their text, see DESIGN.md.
*)
From Verif Require Import GoBase.
From Verif.Gen Require bds40_fields bds_register.
Local Open Scope Z_scope.

(* pkg/bds/bds40/selected_vertical_intention.go:14-27 *)
Record SelectedVerticalIntention := mkSelectedVerticalIntention {
  SelectedVerticalIntention_MCPFCUSelectedAltitudeAvailable : bool;
  SelectedVerticalIntention_MCPFCUSelectedAltitude : Z;
  SelectedVerticalIntention_FMSSelectedAltitudeAvailable : bool;
  SelectedVerticalIntention_FMSSelectedAltitude : Z;
  SelectedVerticalIntention_BarometricPressureSettingAvailable : bool;
  SelectedVerticalIntention_BarometricPressureSetting : f32;
  SelectedVerticalIntention_StatusOfModeBits : bds40_fields.StatusOfModeBits;
  SelectedVerticalIntention_VNAVMode : bool;
  SelectedVerticalIntention_AltitudeHoldMode : bool;
  SelectedVerticalIntention_ApproachMode : bool;
  SelectedVerticalIntention_StatusOfTargetAltitudeSource : bds40_fields.StatusOfTargetAltitudeSource;
  SelectedVerticalIntention_TargetAltitudeSource : bds40_fields.TargetAltitudeSource }.

(* pkg/bds/bds40/selected_vertical_intention.go:30-32 *)
Definition SelectedVerticalIntention_GetRegister (message : SelectedVerticalIntention) : bds_register.Register :=
  bds_register.BDS40.

(* pkg/bds/bds40/selected_vertical_intention.go:35-63 *)
Definition SelectedVerticalIntention_ToString (ffmt : spec_float -> string) (message : SelectedVerticalIntention) : string :=
  ("Message:                               "%string ++ (bds_register.Register_ToString (SelectedVerticalIntention_GetRegister message)) ++
      (nl ++ "MCP/FCU Selected Altitude Available:   ")%string ++ bool_str message.(SelectedVerticalIntention_MCPFCUSelectedAltitudeAvailable) ++
      (nl ++ "MCP/FCU Selected Altitude:             ")%string ++ dec message.(SelectedVerticalIntention_MCPFCUSelectedAltitude) ++
      (nl ++ "FMS Selected Altitude Available:       ")%string ++ bool_str message.(SelectedVerticalIntention_FMSSelectedAltitudeAvailable) ++
      (nl ++ "FMS Selected Altitude:                 ")%string ++ dec message.(SelectedVerticalIntention_FMSSelectedAltitude) ++
      (nl ++ "Barometric Pressure Setting Available: ")%string ++ bool_str message.(SelectedVerticalIntention_BarometricPressureSettingAvailable) ++
      (nl ++ "Barometric Pressure Setting:           ")%string ++ ffmt message.(SelectedVerticalIntention_BarometricPressureSetting) ++
      (nl ++ "Status Of Mode Bits:                   ")%string ++ (bds40_fields.StatusOfModeBits_ToString message.(SelectedVerticalIntention_StatusOfModeBits)) ++
      (nl ++ "VNAV Mode:                             ")%string ++ bool_str message.(SelectedVerticalIntention_VNAVMode) ++
      (nl ++ "Altitude Hold Mode:                    ")%string ++ bool_str message.(SelectedVerticalIntention_AltitudeHoldMode) ++
      (nl ++ "Approach Mode:                         ")%string ++ bool_str message.(SelectedVerticalIntention_ApproachMode) ++
      (nl ++ "Status Of Target Altitude Source:      ")%string ++ (bds40_fields.StatusOfTargetAltitudeSource_ToString message.(SelectedVerticalIntention_StatusOfTargetAltitudeSource)) ++
      (nl ++ "Target Altitude Source:                ")%string ++ (bds40_fields.TargetAltitudeSource_ToString message.(SelectedVerticalIntention_TargetAltitudeSource)))%string.

(* pkg/bds/bds40/selected_vertical_intention.go:66-88 *)
Definition SelectedVerticalIntention_CheckCoherency (message : SelectedVerticalIntention) : res unit :=
  if (((negb message.(SelectedVerticalIntention_MCPFCUSelectedAltitudeAvailable)) && (negb message.(SelectedVerticalIntention_FMSSelectedAltitudeAvailable))) && (negb message.(SelectedVerticalIntention_BarometricPressureSettingAvailable))) then
    Err ("the message does not convey any information"%string)
  else if ((negb message.(SelectedVerticalIntention_MCPFCUSelectedAltitudeAvailable)) && (negb (message.(SelectedVerticalIntention_MCPFCUSelectedAltitude) =? 0))) then
    Err ("the MCP/FCU SelectedAltitude status is set to false, but a MCP/FCU SelectedAltitude value is given"%string)
  else if ((negb message.(SelectedVerticalIntention_FMSSelectedAltitudeAvailable)) && (negb (message.(SelectedVerticalIntention_FMSSelectedAltitude) =? 0))) then
    Err ("the FMS SelectedAltitude status is set to false, but a FMS SelectedAltitude value is given"%string)
  else if ((negb message.(SelectedVerticalIntention_BarometricPressureSettingAvailable)) && (negb (fl_eqb message.(SelectedVerticalIntention_BarometricPressureSetting) (f32_lit 0 1)))) then
    Err ("the BarometricPressureSetting status is set to false, but a BarometricPressureSetting value is given"%string)
  else 
    Ok tt.

(* pkg/bds/bds40/selected_vertical_intention.go:91-127 *)
Definition ReadSelectedVerticalIntention (data : list Z) : res SelectedVerticalIntention :=
  if (negb ((len data) =? 7)) then
    Err ("the data for Comm-B SelectedVerticalIntention message must be 7 bytes long"%string)
  else 
    let* data4 := idx data 4 in
    if (negb ((Z.land data4 1) =? 0)) then
      Err ("the bit 40 must be zero"%string)
    else 
      let* data5 := idx data 5 in
      if (negb ((Z.land data5 0xfe) =? 0)) then
        Err ("the bits 41 to 47 must be zero"%string)
      else 
        let* data6 := idx data 6 in
        if (negb ((Z.land data6 0x18) =? 0)) then
          Err ("the bits 52 to 53 must be zero"%string)
        else 
          let* '(MCPFCUSelectedAltitudeAvailable, MCPFCUSelectedAltitude) := bds40_fields.ReadMCPSelectedAltitude data in
          let* '(FMSSelectedAltitudeAvailable, FMSSelectedAltitude) := bds40_fields.ReadFMSSelectedAltitude data in
          let* '(barometricPressureSettingAvailable, barometricPressureSetting) := bds40_fields.ReadBarometricPressure data in
          let* r := bds40_fields.ReadStatusOfModeBits data in
          let* r_1 := bds40_fields.ReadStatusOfTargetAltitudeSource data in
          let* r_2 := bds40_fields.ReadTargetAltitudeSource data in
          Ok ({| SelectedVerticalIntention_MCPFCUSelectedAltitudeAvailable := MCPFCUSelectedAltitudeAvailable;
      SelectedVerticalIntention_MCPFCUSelectedAltitude := MCPFCUSelectedAltitude;
      SelectedVerticalIntention_FMSSelectedAltitudeAvailable := FMSSelectedAltitudeAvailable;
      SelectedVerticalIntention_FMSSelectedAltitude := FMSSelectedAltitude;
      SelectedVerticalIntention_BarometricPressureSettingAvailable := barometricPressureSettingAvailable;
      SelectedVerticalIntention_BarometricPressureSetting := barometricPressureSetting;
      SelectedVerticalIntention_StatusOfModeBits := r;
      SelectedVerticalIntention_VNAVMode := ((Z.shiftr (Z.land data6 0x80) 7) =? 1);
      SelectedVerticalIntention_AltitudeHoldMode := ((Z.shiftr (Z.land data6 0x40) 6) =? 1);
      SelectedVerticalIntention_ApproachMode := ((Z.shiftr (Z.land data6 0x20) 5) =? 1);
      SelectedVerticalIntention_StatusOfTargetAltitudeSource := r_1;
      SelectedVerticalIntention_TargetAltitudeSource := r_2 |}).
