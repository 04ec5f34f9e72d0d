(* GENERATED by tools/go2coq.py from /repo/pkg/bds/bds45 -- do not edit by hand.
   One Gallina definition per Go declaration; each is preceded by the file and lines it models.
   Error values are represented by their text, see DESIGN.md.
*)
From Verif Require Import GoBase.
From Verif.Gen Require bds45_fields bds_register.
Local Open Scope Z_scope.

(* pkg/bds/bds45/meteorological_hazard_report_v0.go:13-30 *)
Record MeteorologicalHazardReportV0 := mkMeteorologicalHazardReportV0 {
  MeteorologicalHazardReportV0_TurbulenceStatus : bool;
  MeteorologicalHazardReportV0_Turbulence : bds45_fields.HazardLevel;
  MeteorologicalHazardReportV0_WindShearStatus : bool;
  MeteorologicalHazardReportV0_WindShear : bds45_fields.HazardLevel;
  MeteorologicalHazardReportV0_MicroBurstStatus : bool;
  MeteorologicalHazardReportV0_MicroBurst : bds45_fields.HazardLevel;
  MeteorologicalHazardReportV0_IcingStatus : bool;
  MeteorologicalHazardReportV0_Icing : bds45_fields.HazardLevel;
  MeteorologicalHazardReportV0_WakeVortexStatus : bool;
  MeteorologicalHazardReportV0_WakeVortex : bds45_fields.HazardLevel;
  MeteorologicalHazardReportV0_StaticAirTemperatureStatus : bool;
  MeteorologicalHazardReportV0_StaticAirTemperature : f32;
  MeteorologicalHazardReportV0_AverageStaticPressureStatus : bool;
  MeteorologicalHazardReportV0_AverageStaticPressure : Z;
  MeteorologicalHazardReportV0_RadioHeightStatus : bool;
  MeteorologicalHazardReportV0_RadioHeight : Z }.

(* pkg/bds/bds45/meteorological_hazard_report_v1.go:13-32 *)
Record MeteorologicalHazardReportV1 := mkMeteorologicalHazardReportV1 {
  MeteorologicalHazardReportV1_WindShearStatus : bool;
  MeteorologicalHazardReportV1_WindShear : bds45_fields.HazardLevel;
  MeteorologicalHazardReportV1_MicroBurstStatus : bool;
  MeteorologicalHazardReportV1_MicroBurst : bds45_fields.HazardLevel;
  MeteorologicalHazardReportV1_IcingStatus : bool;
  MeteorologicalHazardReportV1_Icing : bds45_fields.HazardLevel;
  MeteorologicalHazardReportV1_WakeVortexStatus : bool;
  MeteorologicalHazardReportV1_WakeVortex : bds45_fields.HazardLevel;
  MeteorologicalHazardReportV1_StaticAirTemperatureStatus : bool;
  MeteorologicalHazardReportV1_StaticAirTemperature : f32;
  MeteorologicalHazardReportV1_AverageStaticPressureStatus : bool;
  MeteorologicalHazardReportV1_AverageStaticPressure : Z;
  MeteorologicalHazardReportV1_RadioHeightStatus : bool;
  MeteorologicalHazardReportV1_RadioHeight : Z;
  MeteorologicalHazardReportV1_TurbulenceStatus : bool;
  MeteorologicalHazardReportV1_TurbulenceAverageEDR : f32;
  MeteorologicalHazardReportV1_TurbulencePeakEDR : f32;
  MeteorologicalHazardReportV1_TurbulencePeakDelayInterval : Z }.

(* pkg/bds/bds45/meteorological_hazard_report.go:9-13
   Go interface MeteorologicalHazardReport, as the sum of the types that implement it *)
Inductive MeteorologicalHazardReport :=
| IMeteorologicalHazardReport_MeteorologicalHazardReportV0 (m : MeteorologicalHazardReportV0)
| IMeteorologicalHazardReport_MeteorologicalHazardReportV1 (m : MeteorologicalHazardReportV1).

(* pkg/bds/bds45/meteorological_hazard_report_v0.go:33-35 *)
Definition MeteorologicalHazardReportV0_GetRegister (message : MeteorologicalHazardReportV0) : bds_register.Register :=
  bds_register.BDS45.

(* pkg/bds/bds45/meteorological_hazard_report_v0.go:37-39 *)
Definition MeteorologicalHazardReportV0_GetTurbulenceStatus (message : MeteorologicalHazardReportV0) : bool :=
  message.(MeteorologicalHazardReportV0_TurbulenceStatus).

(* pkg/bds/bds45/meteorological_hazard_report_v0.go:42-78 *)
Definition MeteorologicalHazardReportV0_ToString (ffmt : spec_float -> string) (message : MeteorologicalHazardReportV0) : string :=
  ("Message:                            "%string ++ (bds_register.Register_ToString (MeteorologicalHazardReportV0_GetRegister message)) ++
      (nl ++ "Turbulence Status:                  ")%string ++ bool_str message.(MeteorologicalHazardReportV0_TurbulenceStatus) ++
      (nl ++ "Turbulence:                         ")%string ++ (bds45_fields.HazardLevel_ToString message.(MeteorologicalHazardReportV0_Turbulence)) ++
      (nl ++ "Wind Shear Status:                  ")%string ++ bool_str message.(MeteorologicalHazardReportV0_WindShearStatus) ++
      (nl ++ "Wind Shear:                         ")%string ++ (bds45_fields.HazardLevel_ToString message.(MeteorologicalHazardReportV0_WindShear)) ++
      (nl ++ "Micro Burst Status:                 ")%string ++ bool_str message.(MeteorologicalHazardReportV0_MicroBurstStatus) ++
      (nl ++ "Micro Burst:                        ")%string ++ (bds45_fields.HazardLevel_ToString message.(MeteorologicalHazardReportV0_MicroBurst)) ++
      (nl ++ "Icing Status:                       ")%string ++ bool_str message.(MeteorologicalHazardReportV0_IcingStatus) ++
      (nl ++ "Icing:                              ")%string ++ (bds45_fields.HazardLevel_ToString message.(MeteorologicalHazardReportV0_Icing)) ++
      (nl ++ "Wake Vortex Status:                 ")%string ++ bool_str message.(MeteorologicalHazardReportV0_WakeVortexStatus) ++
      (nl ++ "Wake Vortex:                        ")%string ++ (bds45_fields.HazardLevel_ToString message.(MeteorologicalHazardReportV0_WakeVortex)) ++
      (nl ++ "Static Air Temperature Status:      ")%string ++ bool_str message.(MeteorologicalHazardReportV0_StaticAirTemperatureStatus) ++
      (nl ++ "Static Air Temperature (degrees C): ")%string ++ ffmt message.(MeteorologicalHazardReportV0_StaticAirTemperature) ++
      (nl ++ "Average Static Pressure Status:     ")%string ++ bool_str message.(MeteorologicalHazardReportV0_AverageStaticPressureStatus) ++
      (nl ++ "Average Static Pressure (hPa):      ")%string ++ dec message.(MeteorologicalHazardReportV0_AverageStaticPressure) ++
      (nl ++ "Radio Height Status:                ")%string ++ bool_str message.(MeteorologicalHazardReportV0_RadioHeightStatus) ++
      (nl ++ "Radio Height (feet):                ")%string ++ dec message.(MeteorologicalHazardReportV0_RadioHeight))%string.

(* pkg/bds/bds45/meteorological_hazard_report_v0.go:81-124 *)
Definition MeteorologicalHazardReportV0_CheckCoherency (message : MeteorologicalHazardReportV0) : res unit :=
  if ((((((((negb message.(MeteorologicalHazardReportV0_TurbulenceStatus)) && (negb message.(MeteorologicalHazardReportV0_WindShearStatus))) && (negb message.(MeteorologicalHazardReportV0_MicroBurstStatus))) && (negb message.(MeteorologicalHazardReportV0_IcingStatus))) && (negb message.(MeteorologicalHazardReportV0_WakeVortexStatus))) && (negb message.(MeteorologicalHazardReportV0_StaticAirTemperatureStatus))) && (negb message.(MeteorologicalHazardReportV0_AverageStaticPressureStatus))) && (negb message.(MeteorologicalHazardReportV0_RadioHeightStatus))) then
    Err ("the message does not convey any information"%string)
  else if ((negb message.(MeteorologicalHazardReportV0_TurbulenceStatus)) && (negb (message.(MeteorologicalHazardReportV0_Turbulence) =? bds45_fields.HLNil))) then
    Err ("the turbulence status is set to false, but a turbulence value is given"%string)
  else if ((negb message.(MeteorologicalHazardReportV0_WindShearStatus)) && (negb (message.(MeteorologicalHazardReportV0_WindShear) =? bds45_fields.HLNil))) then
    Err ("the wind shear status is set to false, but a wind shear value is given"%string)
  else if ((negb message.(MeteorologicalHazardReportV0_MicroBurstStatus)) && (negb (message.(MeteorologicalHazardReportV0_MicroBurst) =? bds45_fields.HLNil))) then
    Err ("the micro burst status is set to false, but a micro burst value is given"%string)
  else if ((negb message.(MeteorologicalHazardReportV0_IcingStatus)) && (negb (message.(MeteorologicalHazardReportV0_Icing) =? bds45_fields.HLNil))) then
    Err ("the icing status is set to false, but a icing value is given"%string)
  else if ((negb message.(MeteorologicalHazardReportV0_WakeVortexStatus)) && (negb (message.(MeteorologicalHazardReportV0_WakeVortex) =? bds45_fields.HLNil))) then
    Err ("the wake vortex status is set to false, but a wake vortex value is given"%string)
  else if ((negb message.(MeteorologicalHazardReportV0_StaticAirTemperatureStatus)) && (negb (fl_eqb message.(MeteorologicalHazardReportV0_StaticAirTemperature) (f32_lit 0 1)))) then
    Err ("the static air temperature status is set to false, but a static air temperature value is given"%string)
  else if ((negb message.(MeteorologicalHazardReportV0_AverageStaticPressureStatus)) && (negb (message.(MeteorologicalHazardReportV0_AverageStaticPressure) =? 0))) then
    Err ("the average static pressure status is set to false, but a average static pressure value is given"%string)
  else if ((negb message.(MeteorologicalHazardReportV0_RadioHeightStatus)) && (negb (message.(MeteorologicalHazardReportV0_RadioHeight) =? 0))) then
    Err ("the radioHeight status is set to false, but a radioHeight value is given"%string)
  else if ((fl_ltb message.(MeteorologicalHazardReportV0_StaticAirTemperature) (f32_lit (-80) 1)) || (fl_ltb (f32_lit 60 1) message.(MeteorologicalHazardReportV0_StaticAirTemperature))) then
    Err ("the static air temperature is to high or to low (-80 <= temp <= 60)"%string)
  else 
    Ok tt.

(* pkg/bds/bds45/meteorological_hazard_report_v0.go:127-164 *)
Definition ReadMeteorologicalHazardReportV0 (data : list Z) : res MeteorologicalHazardReportV0 :=
  if (negb ((len data) =? 7)) then
    Err ("the data for Comm-B MeteorologicalHazardReport message must be 7 bytes long"%string)
  else 
    let* data6 := idx data 6 in
    if (negb ((Z.land data6 0x1f) =? 0)) then
      Err ("the bits 52 to 56 must be zero"%string)
    else 
      let* '(turbulenceStatus, turbulence) := bds45_fields.ReadTurbulenceV0 data in
      let* '(windShearStatus, windShear) := bds45_fields.ReadWindShearV0 data in
      let* '(microBurstStatus, microBurst) := bds45_fields.ReadMicroBurstV0 data in
      let* '(icingStatus, icing) := bds45_fields.ReadIcingV0 data in
      let* '(wakeVortexStatus, wakeVortex) := bds45_fields.ReadWakeVortexV0 data in
      let* '(staticAirTemperatureStatus, staticAirTemperature) := bds45_fields.ReadStaticAirTemperatureV0 data in
      let* '(averageStaticPressureStatus, averageStaticPressure) := bds45_fields.ReadAverageStaticPressure data in
      let* '(radioHeightStatus, radioHeight) := bds45_fields.ReadRadioHeightV0 data in
      Ok ({| MeteorologicalHazardReportV0_TurbulenceStatus := turbulenceStatus;
      MeteorologicalHazardReportV0_Turbulence := turbulence;
      MeteorologicalHazardReportV0_WindShearStatus := windShearStatus;
      MeteorologicalHazardReportV0_WindShear := windShear;
      MeteorologicalHazardReportV0_MicroBurstStatus := microBurstStatus;
      MeteorologicalHazardReportV0_MicroBurst := microBurst;
      MeteorologicalHazardReportV0_IcingStatus := icingStatus;
      MeteorologicalHazardReportV0_Icing := icing;
      MeteorologicalHazardReportV0_WakeVortexStatus := wakeVortexStatus;
      MeteorologicalHazardReportV0_WakeVortex := wakeVortex;
      MeteorologicalHazardReportV0_StaticAirTemperatureStatus := staticAirTemperatureStatus;
      MeteorologicalHazardReportV0_StaticAirTemperature := staticAirTemperature;
      MeteorologicalHazardReportV0_AverageStaticPressureStatus := averageStaticPressureStatus;
      MeteorologicalHazardReportV0_AverageStaticPressure := averageStaticPressure;
      MeteorologicalHazardReportV0_RadioHeightStatus := radioHeightStatus;
      MeteorologicalHazardReportV0_RadioHeight := radioHeight |}).

(* pkg/bds/bds45/meteorological_hazard_report_v1.go:35-37 *)
Definition MeteorologicalHazardReportV1_GetRegister (message : MeteorologicalHazardReportV1) : bds_register.Register :=
  bds_register.BDS45.

(* pkg/bds/bds45/meteorological_hazard_report_v1.go:39-41 *)
Definition MeteorologicalHazardReportV1_GetTurbulenceStatus (message : MeteorologicalHazardReportV1) : bool :=
  message.(MeteorologicalHazardReportV1_TurbulenceStatus).

(* pkg/bds/bds45/meteorological_hazard_report_v1.go:44-84 *)
Definition MeteorologicalHazardReportV1_ToString (ffmt : spec_float -> string) (message : MeteorologicalHazardReportV1) : string :=
  ("Message:                              "%string ++ (bds_register.Register_ToString (MeteorologicalHazardReportV1_GetRegister message)) ++
      (nl ++ "Wind Shear Status:                    ")%string ++ bool_str message.(MeteorologicalHazardReportV1_WindShearStatus) ++
      (nl ++ "Wind Shear:                           ")%string ++ (bds45_fields.HazardLevel_ToString message.(MeteorologicalHazardReportV1_WindShear)) ++
      (nl ++ "Micro Burst Status:                   ")%string ++ bool_str message.(MeteorologicalHazardReportV1_MicroBurstStatus) ++
      (nl ++ "Micro Burst:                          ")%string ++ (bds45_fields.HazardLevel_ToString message.(MeteorologicalHazardReportV1_MicroBurst)) ++
      (nl ++ "Icing Status:                         ")%string ++ bool_str message.(MeteorologicalHazardReportV1_IcingStatus) ++
      (nl ++ "Icing:                                ")%string ++ (bds45_fields.HazardLevel_ToString message.(MeteorologicalHazardReportV1_Icing)) ++
      (nl ++ "Wake Vortex Status:                   ")%string ++ bool_str message.(MeteorologicalHazardReportV1_WakeVortexStatus) ++
      (nl ++ "Wake Vortex:                          ")%string ++ (bds45_fields.HazardLevel_ToString message.(MeteorologicalHazardReportV1_WakeVortex)) ++
      (nl ++ "Static Air Temperature Status:        ")%string ++ bool_str message.(MeteorologicalHazardReportV1_StaticAirTemperatureStatus) ++
      (nl ++ "Static Air Temperature (degrees C):   ")%string ++ ffmt message.(MeteorologicalHazardReportV1_StaticAirTemperature) ++
      (nl ++ "Average Static Pressure Status:       ")%string ++ bool_str message.(MeteorologicalHazardReportV1_AverageStaticPressureStatus) ++
      (nl ++ "Average Static Pressure (hPa):        ")%string ++ dec message.(MeteorologicalHazardReportV1_AverageStaticPressure) ++
      (nl ++ "Radio Height Status:                  ")%string ++ bool_str message.(MeteorologicalHazardReportV1_RadioHeightStatus) ++
      (nl ++ "Radio Height (feet):                  ")%string ++ dec message.(MeteorologicalHazardReportV1_RadioHeight) ++
      (nl ++ "Turbulence Status:                    ")%string ++ bool_str message.(MeteorologicalHazardReportV1_TurbulenceStatus) ++
      (nl ++ "Average Turbulence EDR Metric         ")%string ++ ffmt message.(MeteorologicalHazardReportV1_TurbulenceAverageEDR) ++
      (nl ++ "Peak Turbulence EDR Metric:           ")%string ++ ffmt message.(MeteorologicalHazardReportV1_TurbulencePeakEDR) ++
      (nl ++ "Turbulence Peak Delay Interval (min): ")%string ++ dec message.(MeteorologicalHazardReportV1_TurbulencePeakDelayInterval))%string.

(* pkg/bds/bds45/meteorological_hazard_report_v1.go:87-128 *)
Definition MeteorologicalHazardReportV1_CheckCoherency (message : MeteorologicalHazardReportV1) : res unit :=
  if ((((((((negb message.(MeteorologicalHazardReportV1_TurbulenceStatus)) && (negb message.(MeteorologicalHazardReportV1_WindShearStatus))) && (negb message.(MeteorologicalHazardReportV1_MicroBurstStatus))) && (negb message.(MeteorologicalHazardReportV1_IcingStatus))) && (negb message.(MeteorologicalHazardReportV1_WakeVortexStatus))) && (negb message.(MeteorologicalHazardReportV1_StaticAirTemperatureStatus))) && (negb message.(MeteorologicalHazardReportV1_AverageStaticPressureStatus))) && (negb message.(MeteorologicalHazardReportV1_RadioHeightStatus))) then
    Err ("the message does not convey any information"%string)
  else if ((negb message.(MeteorologicalHazardReportV1_TurbulenceStatus)) && (((negb (fl_eqb message.(MeteorologicalHazardReportV1_TurbulenceAverageEDR) (f32_lit 0 1))) || (negb (fl_eqb message.(MeteorologicalHazardReportV1_TurbulencePeakEDR) (f32_lit 0 1)))) || (negb (message.(MeteorologicalHazardReportV1_TurbulencePeakDelayInterval) =? 0)))) then
    Err ("the turbulence status is set to false, but some turbulence values are given"%string)
  else if ((negb message.(MeteorologicalHazardReportV1_WindShearStatus)) && (negb (message.(MeteorologicalHazardReportV1_WindShear) =? bds45_fields.HLNil))) then
    Err ("the wind shear status is set to false, but a wind shear value is given"%string)
  else if ((negb message.(MeteorologicalHazardReportV1_MicroBurstStatus)) && (negb (message.(MeteorologicalHazardReportV1_MicroBurst) =? bds45_fields.HLNil))) then
    Err ("the micro burst status is set to false, but a micro burst value is given"%string)
  else if ((negb message.(MeteorologicalHazardReportV1_IcingStatus)) && (negb (message.(MeteorologicalHazardReportV1_Icing) =? bds45_fields.HLNil))) then
    Err ("the icing status is set to false, but a icing value is given"%string)
  else if ((negb message.(MeteorologicalHazardReportV1_WakeVortexStatus)) && (negb (message.(MeteorologicalHazardReportV1_WakeVortex) =? bds45_fields.HLNil))) then
    Err ("the wake vortex status is set to false, but a wake vortex value is given"%string)
  else if message.(MeteorologicalHazardReportV1_StaticAirTemperatureStatus) then
    if ((fl_ltb message.(MeteorologicalHazardReportV1_StaticAirTemperature) (f32_lit (-80) 1)) || (fl_ltb (f32_lit 60 1) message.(MeteorologicalHazardReportV1_StaticAirTemperature))) then
      Err ("the static air temperature is to high or to low (-80 <= temp <= 60)"%string)
    else if ((negb message.(MeteorologicalHazardReportV1_AverageStaticPressureStatus)) && (negb (message.(MeteorologicalHazardReportV1_AverageStaticPressure) =? 0))) then
      Err ("the average static pressure status is set to false, but a average static pressure value is given"%string)
    else if ((negb message.(MeteorologicalHazardReportV1_RadioHeightStatus)) && (negb (message.(MeteorologicalHazardReportV1_RadioHeight) =? 0))) then
      Err ("the radioHeight status is set to false, but a radioHeight value is given"%string)
    else 
      Ok tt
  else if ((negb message.(MeteorologicalHazardReportV1_AverageStaticPressureStatus)) && (negb (message.(MeteorologicalHazardReportV1_AverageStaticPressure) =? 0))) then
    Err ("the average static pressure status is set to false, but a average static pressure value is given"%string)
  else if ((negb message.(MeteorologicalHazardReportV1_RadioHeightStatus)) && (negb (message.(MeteorologicalHazardReportV1_RadioHeight) =? 0))) then
    Err ("the radioHeight status is set to false, but a radioHeight value is given"%string)
  else 
    Ok tt.

(* pkg/bds/bds45/meteorological_hazard_report_v1.go:131-167 *)
Definition ReadMeteorologicalHazardReportV1 (data : list Z) : res MeteorologicalHazardReportV1 :=
  if (negb ((len data) =? 7)) then
    Err ("the data for Comm-B MeteorologicalHazardReport message must be 7 bytes long"%string)
  else 
    let* data6 := idx data 6 in
    if (negb ((Z.land data6 3) =? 0)) then
      Err ("the bits 55 to 56 must be zero"%string)
    else 
      let* '(windShearStatus, windShear) := bds45_fields.ReadWindShearV1 data in
      let* '(microBurstStatus, microBurst) := bds45_fields.ReadMicroBurstV1 data in
      let* '(icingStatus, icing) := bds45_fields.ReadIcingV1 data in
      let* '(wakeVortexStatus, wakeVortex) := bds45_fields.ReadWakeVortexV1 data in
      let* '(staticAirTemperatureStatus, staticAirTemperature) := bds45_fields.ReadStaticAirTemperatureV1 data in
      let* '(radioHeightStatus, radioHeight) := bds45_fields.ReadRadioHeightV1 data in
      let* '(turbulenceStatus, turbulenceAverage, turbulencePeak, turbulenceDelay) := bds45_fields.ReadTurbulenceV1 data in
      Ok ({| MeteorologicalHazardReportV1_WindShearStatus := windShearStatus;
      MeteorologicalHazardReportV1_WindShear := windShear;
      MeteorologicalHazardReportV1_MicroBurstStatus := microBurstStatus;
      MeteorologicalHazardReportV1_MicroBurst := microBurst;
      MeteorologicalHazardReportV1_IcingStatus := icingStatus;
      MeteorologicalHazardReportV1_Icing := icing;
      MeteorologicalHazardReportV1_WakeVortexStatus := wakeVortexStatus;
      MeteorologicalHazardReportV1_WakeVortex := wakeVortex;
      MeteorologicalHazardReportV1_StaticAirTemperatureStatus := staticAirTemperatureStatus;
      MeteorologicalHazardReportV1_StaticAirTemperature := staticAirTemperature;
      MeteorologicalHazardReportV1_AverageStaticPressureStatus := false;
      MeteorologicalHazardReportV1_AverageStaticPressure := 0;
      MeteorologicalHazardReportV1_RadioHeightStatus := radioHeightStatus;
      MeteorologicalHazardReportV1_RadioHeight := radioHeight;
      MeteorologicalHazardReportV1_TurbulenceStatus := turbulenceStatus;
      MeteorologicalHazardReportV1_TurbulenceAverageEDR := turbulenceAverage;
      MeteorologicalHazardReportV1_TurbulencePeakEDR := turbulencePeak;
      MeteorologicalHazardReportV1_TurbulencePeakDelayInterval := turbulenceDelay |}).

(* dynamic dispatch of method CheckCoherency of interface MeteorologicalHazardReport *)
Definition IMeteorologicalHazardReport_CheckCoherency (v : MeteorologicalHazardReport) : res unit :=
  match v with
  | IMeteorologicalHazardReport_MeteorologicalHazardReportV0 x => MeteorologicalHazardReportV0_CheckCoherency x
  | IMeteorologicalHazardReport_MeteorologicalHazardReportV1 x => MeteorologicalHazardReportV1_CheckCoherency x
  end.

(* dynamic dispatch of method GetRegister of interface MeteorologicalHazardReport *)
Definition IMeteorologicalHazardReport_GetRegister (v : MeteorologicalHazardReport) : bds_register.Register :=
  match v with
  | IMeteorologicalHazardReport_MeteorologicalHazardReportV0 x => MeteorologicalHazardReportV0_GetRegister x
  | IMeteorologicalHazardReport_MeteorologicalHazardReportV1 x => MeteorologicalHazardReportV1_GetRegister x
  end.

(* dynamic dispatch of method GetTurbulenceStatus of interface MeteorologicalHazardReport *)
Definition IMeteorologicalHazardReport_GetTurbulenceStatus (v : MeteorologicalHazardReport) : bool :=
  match v with
  | IMeteorologicalHazardReport_MeteorologicalHazardReportV0 x => MeteorologicalHazardReportV0_GetTurbulenceStatus x
  | IMeteorologicalHazardReport_MeteorologicalHazardReportV1 x => MeteorologicalHazardReportV1_GetTurbulenceStatus x
  end.

(* dynamic dispatch of method ToString of interface MeteorologicalHazardReport *)
Definition IMeteorologicalHazardReport_ToString (ffmt : spec_float -> string) (v : MeteorologicalHazardReport) : string :=
  match v with
  | IMeteorologicalHazardReport_MeteorologicalHazardReportV0 x => MeteorologicalHazardReportV0_ToString ffmt x
  | IMeteorologicalHazardReport_MeteorologicalHazardReportV1 x => MeteorologicalHazardReportV1_ToString ffmt x
  end.

(* pkg/bds/bds45/meteorological_hazard_report.go:16-33 *)
Definition ReadMeteorologicalHazardReport (data : list Z) : res MeteorologicalHazardReport :=
  if (negb ((len data) =? 7)) then
    Err ("the data must be 7 bytes long ("%string ++ dec (len data) ++ " given)"%string)%string
  else 
    match ReadMeteorologicalHazardReportV1 data with
    | Ok messageV1 =>
      Ok (IMeteorologicalHazardReport_MeteorologicalHazardReportV1 messageV1)
    | Err e =>
      match ReadMeteorologicalHazardReportV0 data with
      | Ok messageV0 =>
        Ok (IMeteorologicalHazardReport_MeteorologicalHazardReportV0 messageV0)
      | Err e_1 =>
        Err e_1
      | Panic => Panic
      end
    | Panic => Panic
    end.
