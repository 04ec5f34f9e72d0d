(* GENERATED by tools/go2coq.py from /repo/pkg/bds/bds44 -- do not edit by hand.
   One Gallina definition per Go declaration; each is preceded by the file and lines it models.
   Error values are represented by their text, see DESIGN.md.
*)
From Verif Require Import GoBase.
From Verif.Gen Require bds44_fields bds_register.
Local Open Scope Z_scope.

(* pkg/bds/bds44/meteorological_routine_air_report_v0.go:14-27 *)
Record MeteorologicalRoutineAirReportV0 := mkMeteorologicalRoutineAirReportV0 {
  MeteorologicalRoutineAirReportV0_Source : bds44_fields.Source;
  MeteorologicalRoutineAirReportV0_WindSpeedStatus : bool;
  MeteorologicalRoutineAirReportV0_WindSpeed : Z;
  MeteorologicalRoutineAirReportV0_WindDirectionStatus : bool;
  MeteorologicalRoutineAirReportV0_WindDirection : f32;
  MeteorologicalRoutineAirReportV0_StaticAirTemperature : f32;
  MeteorologicalRoutineAirReportV0_AverageStaticPressureStatus : bool;
  MeteorologicalRoutineAirReportV0_AverageStaticPressure : Z;
  MeteorologicalRoutineAirReportV0_TurbulenceStatus : bool;
  MeteorologicalRoutineAirReportV0_Turbulence : bds44_fields.TurbulenceLevel;
  MeteorologicalRoutineAirReportV0_HumidityStatus : bool;
  MeteorologicalRoutineAirReportV0_Humidity : f32 }.

(* pkg/bds/bds44/meteorological_routine_air_report_v1.go:14-26 *)
Record MeteorologicalRoutineAirReportV1 := mkMeteorologicalRoutineAirReportV1 {
  MeteorologicalRoutineAirReportV1_WindSpeedStatus : bool;
  MeteorologicalRoutineAirReportV1_WindSpeed : Z;
  MeteorologicalRoutineAirReportV1_WindDirectionStatus : bool;
  MeteorologicalRoutineAirReportV1_WindDirection : f32;
  MeteorologicalRoutineAirReportV1_StaticAirTemperatureStatus : bool;
  MeteorologicalRoutineAirReportV1_StaticAirTemperature : f32;
  MeteorologicalRoutineAirReportV1_AverageStaticPressureStatus : bool;
  MeteorologicalRoutineAirReportV1_AverageStaticPressure : Z;
  MeteorologicalRoutineAirReportV1_TurbulenceFlag : bds44_fields.TurbulenceFlag;
  MeteorologicalRoutineAirReportV1_HumidityStatus : bool;
  MeteorologicalRoutineAirReportV1_Humidity : f32 }.

(* pkg/bds/bds44/meteorological_routine_air_report_v2.go:15-28 *)
Record MeteorologicalRoutineAirReportV2 := mkMeteorologicalRoutineAirReportV2 {
  MeteorologicalRoutineAirReportV2_Source : bds44_fields.Source;
  MeteorologicalRoutineAirReportV2_WindSpeedStatus : bool;
  MeteorologicalRoutineAirReportV2_WindSpeed : Z;
  MeteorologicalRoutineAirReportV2_WindDirectionStatus : bool;
  MeteorologicalRoutineAirReportV2_WindDirection : f32;
  MeteorologicalRoutineAirReportV2_StaticAirTemperatureStatus : bool;
  MeteorologicalRoutineAirReportV2_StaticAirTemperature : f32;
  MeteorologicalRoutineAirReportV2_AverageStaticPressureStatus : bool;
  MeteorologicalRoutineAirReportV2_AverageStaticPressure : Z;
  MeteorologicalRoutineAirReportV2_TurbulenceFlag : bds44_fields.TurbulenceFlag;
  MeteorologicalRoutineAirReportV2_HumidityStatus : bool;
  MeteorologicalRoutineAirReportV2_Humidity : f32 }.

(* pkg/bds/bds44/meteorological_routine_air_report.go:9-12
   Go interface MeteorologicalRoutineAirReport, as the sum of the types that implement it *)
Inductive MeteorologicalRoutineAirReport :=
| IMeteorologicalRoutineAirReport_MeteorologicalRoutineAirReportV0 (m : MeteorologicalRoutineAirReportV0)
| IMeteorologicalRoutineAirReport_MeteorologicalRoutineAirReportV1 (m : MeteorologicalRoutineAirReportV1)
| IMeteorologicalRoutineAirReport_MeteorologicalRoutineAirReportV2 (m : MeteorologicalRoutineAirReportV2).

(* pkg/bds/bds44/meteorological_routine_air_report_v0.go:30-32 *)
Definition MeteorologicalRoutineAirReportV0_GetRegister (message : MeteorologicalRoutineAirReportV0) : bds_register.Register :=
  bds_register.BDS44.

(* pkg/bds/bds44/meteorological_routine_air_report_v0.go:34-36 *)
Definition MeteorologicalRoutineAirReportV0_GetSource (message : MeteorologicalRoutineAirReportV0) : bds44_fields.Source :=
  message.(MeteorologicalRoutineAirReportV0_Source).

(* pkg/bds/bds44/meteorological_routine_air_report_v0.go:39-67 *)
Definition MeteorologicalRoutineAirReportV0_ToString (ffmt : spec_float -> string) (message : MeteorologicalRoutineAirReportV0) : string :=
  ("Message:                            "%string ++ (bds_register.Register_ToString (MeteorologicalRoutineAirReportV0_GetRegister message)) ++
      (nl ++ "Source:                             ")%string ++ (bds44_fields.Source_ToString message.(MeteorologicalRoutineAirReportV0_Source)) ++
      (nl ++ "Wind Speed Status:                  ")%string ++ bool_str message.(MeteorologicalRoutineAirReportV0_WindSpeedStatus) ++
      (nl ++ "Wind Speed (knot):                  ")%string ++ dec message.(MeteorologicalRoutineAirReportV0_WindSpeed) ++
      (nl ++ "Wind Direction Status:              ")%string ++ bool_str message.(MeteorologicalRoutineAirReportV0_WindDirectionStatus) ++
      (nl ++ "Wind Direction (degrees):           ")%string ++ ffmt message.(MeteorologicalRoutineAirReportV0_WindDirection) ++
      (nl ++ "Static Air Temperature (degrees C): ")%string ++ ffmt message.(MeteorologicalRoutineAirReportV0_StaticAirTemperature) ++
      (nl ++ "Average Static Pressure Status:     ")%string ++ bool_str message.(MeteorologicalRoutineAirReportV0_AverageStaticPressureStatus) ++
      (nl ++ "Average Static Pressure (hPa):      ")%string ++ dec message.(MeteorologicalRoutineAirReportV0_AverageStaticPressure) ++
      (nl ++ "Turbulence Status:                  ")%string ++ bool_str message.(MeteorologicalRoutineAirReportV0_TurbulenceStatus) ++
      (nl ++ "Turbulence:                         ")%string ++ (bds44_fields.TurbulenceLevel_ToString message.(MeteorologicalRoutineAirReportV0_Turbulence)) ++
      (nl ++ "Humidity Status:                    ")%string ++ bool_str message.(MeteorologicalRoutineAirReportV0_HumidityStatus) ++
      (nl ++ "Humidity (%):                       ")%string ++ ffmt message.(MeteorologicalRoutineAirReportV0_Humidity))%string.

(* pkg/bds/bds44/meteorological_routine_air_report_v0.go:70-105 *)
Definition MeteorologicalRoutineAirReportV0_CheckCoherency (message : MeteorologicalRoutineAirReportV0) : res unit :=
  if (((((negb message.(MeteorologicalRoutineAirReportV0_WindSpeedStatus)) && (negb message.(MeteorologicalRoutineAirReportV0_WindDirectionStatus))) && (negb message.(MeteorologicalRoutineAirReportV0_AverageStaticPressureStatus))) && (negb message.(MeteorologicalRoutineAirReportV0_TurbulenceStatus))) && (negb message.(MeteorologicalRoutineAirReportV0_HumidityStatus))) then
    Err ("the message does not convey any information"%string)
  else if (message.(MeteorologicalRoutineAirReportV0_Source) >=? 5) then
    Err ("field Source is a Reserved value"%string)
  else if ((negb message.(MeteorologicalRoutineAirReportV0_WindSpeedStatus)) && (negb (message.(MeteorologicalRoutineAirReportV0_WindSpeed) =? 0))) then
    Err ("the wind speed status is set to false, but a wind speed value is given"%string)
  else if ((negb message.(MeteorologicalRoutineAirReportV0_WindDirectionStatus)) && (negb (fl_eqb message.(MeteorologicalRoutineAirReportV0_WindDirection) (f32_lit 0 1)))) then
    Err ("the wind direction status is set to false, but a wind direction value is given"%string)
  else if ((negb message.(MeteorologicalRoutineAirReportV0_AverageStaticPressureStatus)) && (negb (message.(MeteorologicalRoutineAirReportV0_AverageStaticPressure) =? 0))) then
    Err ("the average static pressure status is set to false, but a average static pressure value is given"%string)
  else if ((negb message.(MeteorologicalRoutineAirReportV0_HumidityStatus)) && (negb (fl_eqb message.(MeteorologicalRoutineAirReportV0_Humidity) (f32_lit 0 1)))) then
    Err ("the humidity status is set to false, but a humidity value is given"%string)
  else if (message.(MeteorologicalRoutineAirReportV0_WindSpeed) >? 250) then
    Err ("the wind speed is too high (above 250 knots)"%string)
  else if ((fl_ltb message.(MeteorologicalRoutineAirReportV0_StaticAirTemperature) (f32_lit (-80) 1)) || (fl_ltb (f32_lit 60 1) message.(MeteorologicalRoutineAirReportV0_StaticAirTemperature))) then
    Err ("the static air temperature is to high or to low (-80 <= temp <= 60)"%string)
  else 
    Ok tt.

(* pkg/bds/bds44/meteorological_routine_air_report_v0.go:108-135 *)
Definition ReadMeteorologicalRoutineAirReportV0 (data : list Z) : res MeteorologicalRoutineAirReportV0 :=
  if (negb ((len data) =? 7)) then
    Err ("the data for Comm-B MeteorologicalRoutineAirReport message must be 7 bytes long"%string)
  else 
    let* '(windSpeedStatus, windSpeed) := bds44_fields.ReadWindSpeed data in
    let* '(windDirectionStatus, windDirection) := bds44_fields.ReadWindDirectionV0 data in
    let* r := bds44_fields.ReadStaticAirTemperatureV0 data in
    let staticAirTemperature := r in
    let* '(averageStaticPressureStatus, averageStaticPressure) := bds44_fields.ReadAverageStaticPressureV0 data in
    let* '(turbulenceStatus, turbulence) := bds44_fields.ReadTurbulence data in
    let* '(humidityStatus, humidity) := bds44_fields.ReadHumidityV0 data in
    let* r_1 := bds44_fields.ReadSource data in
    Ok ({| MeteorologicalRoutineAirReportV0_Source := r_1;
      MeteorologicalRoutineAirReportV0_WindSpeedStatus := windSpeedStatus;
      MeteorologicalRoutineAirReportV0_WindSpeed := windSpeed;
      MeteorologicalRoutineAirReportV0_WindDirectionStatus := windDirectionStatus;
      MeteorologicalRoutineAirReportV0_WindDirection := windDirection;
      MeteorologicalRoutineAirReportV0_StaticAirTemperature := staticAirTemperature;
      MeteorologicalRoutineAirReportV0_AverageStaticPressureStatus := averageStaticPressureStatus;
      MeteorologicalRoutineAirReportV0_AverageStaticPressure := averageStaticPressure;
      MeteorologicalRoutineAirReportV0_TurbulenceStatus := turbulenceStatus;
      MeteorologicalRoutineAirReportV0_Turbulence := turbulence;
      MeteorologicalRoutineAirReportV0_HumidityStatus := humidityStatus;
      MeteorologicalRoutineAirReportV0_Humidity := humidity |}).

(* pkg/bds/bds44/meteorological_routine_air_report_v1.go:29-31 *)
Definition MeteorologicalRoutineAirReportV1_GetRegister (message : MeteorologicalRoutineAirReportV1) : bds_register.Register :=
  bds_register.BDS44.

(* pkg/bds/bds44/meteorological_routine_air_report_v1.go:33-35 *)
Definition MeteorologicalRoutineAirReportV1_GetSource (message : MeteorologicalRoutineAirReportV1) : bds44_fields.Source :=
  bds44_fields.SourceInvalid.

(* pkg/bds/bds44/meteorological_routine_air_report_v1.go:38-64 *)
Definition MeteorologicalRoutineAirReportV1_ToString (ffmt : spec_float -> string) (message : MeteorologicalRoutineAirReportV1) : string :=
  ("Message:                            "%string ++ (bds_register.Register_ToString (MeteorologicalRoutineAirReportV1_GetRegister message)) ++
      (nl ++ "Wind Speed Status:                  ")%string ++ bool_str message.(MeteorologicalRoutineAirReportV1_WindSpeedStatus) ++
      (nl ++ "Wind Speed (knot):                  ")%string ++ dec message.(MeteorologicalRoutineAirReportV1_WindSpeed) ++
      (nl ++ "Wind Direction Status:              ")%string ++ bool_str message.(MeteorologicalRoutineAirReportV1_WindDirectionStatus) ++
      (nl ++ "Wind Direction (degrees):           ")%string ++ ffmt message.(MeteorologicalRoutineAirReportV1_WindDirection) ++
      (nl ++ "Static Air Temperature Status:      ")%string ++ bool_str message.(MeteorologicalRoutineAirReportV1_StaticAirTemperatureStatus) ++
      (nl ++ "Static Air Temperature (degrees C): ")%string ++ ffmt message.(MeteorologicalRoutineAirReportV1_StaticAirTemperature) ++
      (nl ++ "Average Static Pressure Status:     ")%string ++ bool_str message.(MeteorologicalRoutineAirReportV1_AverageStaticPressureStatus) ++
      (nl ++ "Average Static Pressure (hPa):      ")%string ++ dec message.(MeteorologicalRoutineAirReportV1_AverageStaticPressure) ++
      (nl ++ "Turbulence Flag:                    ")%string ++ (bds44_fields.TurbulenceFlag_ToString message.(MeteorologicalRoutineAirReportV1_TurbulenceFlag)) ++
      (nl ++ "Humidity Status:                    ")%string ++ bool_str message.(MeteorologicalRoutineAirReportV1_HumidityStatus) ++
      (nl ++ "Humidity (%):                       ")%string ++ ffmt message.(MeteorologicalRoutineAirReportV1_Humidity))%string.

(* pkg/bds/bds44/meteorological_routine_air_report_v1.go:67-102 *)
Definition MeteorologicalRoutineAirReportV1_CheckCoherency (message : MeteorologicalRoutineAirReportV1) : res unit :=
  if (((((negb message.(MeteorologicalRoutineAirReportV1_WindSpeedStatus)) && (negb message.(MeteorologicalRoutineAirReportV1_WindDirectionStatus))) && (negb message.(MeteorologicalRoutineAirReportV1_StaticAirTemperatureStatus))) && (negb message.(MeteorologicalRoutineAirReportV1_AverageStaticPressureStatus))) && (negb message.(MeteorologicalRoutineAirReportV1_HumidityStatus))) then
    Err ("the message does not convey any information"%string)
  else if ((negb message.(MeteorologicalRoutineAirReportV1_WindSpeedStatus)) && (negb (message.(MeteorologicalRoutineAirReportV1_WindSpeed) =? 0))) then
    Err ("the wind speed status is set to false, but a wind speed value is given"%string)
  else if ((negb message.(MeteorologicalRoutineAirReportV1_WindDirectionStatus)) && (negb (fl_eqb message.(MeteorologicalRoutineAirReportV1_WindDirection) (f32_lit 0 1)))) then
    Err ("the wind direction status is set to false, but a wind direction value is given"%string)
  else if ((negb message.(MeteorologicalRoutineAirReportV1_StaticAirTemperatureStatus)) && (negb (fl_eqb message.(MeteorologicalRoutineAirReportV1_StaticAirTemperature) (f32_lit 0 1)))) then
    Err ("the static air temperature status is set to false, but a static air temperature value is given"%string)
  else if ((negb message.(MeteorologicalRoutineAirReportV1_AverageStaticPressureStatus)) && (negb (message.(MeteorologicalRoutineAirReportV1_AverageStaticPressure) =? 0))) then
    Err ("the average static pressure status is set to false, but a average static pressure value is given"%string)
  else if ((negb message.(MeteorologicalRoutineAirReportV1_HumidityStatus)) && (negb (fl_eqb message.(MeteorologicalRoutineAirReportV1_Humidity) (f32_lit 0 1)))) then
    Err ("the humidity status is set to false, but a humidity value is given"%string)
  else if (message.(MeteorologicalRoutineAirReportV1_WindSpeed) >? 250) then
    Err ("the wind speed is too high (above 250 knots)"%string)
  else if ((fl_ltb message.(MeteorologicalRoutineAirReportV1_StaticAirTemperature) (f32_lit (-80) 1)) || (fl_ltb (f32_lit 60 1) message.(MeteorologicalRoutineAirReportV1_StaticAirTemperature))) then
    Err ("the static air temperature is to high or to low (-80 <= temp <= 60)"%string)
  else 
    Ok tt.

(* pkg/bds/bds44/meteorological_routine_air_report_v1.go:105-135 *)
Definition ReadMeteorologicalRoutineAirReportV1 (data : list Z) : res MeteorologicalRoutineAirReportV1 :=
  if (negb ((len data) =? 7)) then
    Err ("the data for Comm-B MeteorologicalRoutineAirReport message must be 7 bytes long"%string)
  else 
    let* data0 := idx data 0 in
    if (negb ((Z.land data0 0xf0) =? 0)) then
      Err ("the bits 1 to 4 must be zero"%string)
    else 
      let* '(windSpeedStatus, windSpeed) := bds44_fields.ReadWindSpeed data in
      let* '(windDirectionStatus, windDirection) := bds44_fields.ReadWindDirectionV1AndV2 data in
      let* '(staticAirTemperatureStatus, staticAirTemperature) := bds44_fields.ReadStaticAirTemperatureV1AndV2 data in
      let* '(averageStaticPressureStatus, averageStaticPressure) := bds44_fields.ReadAverageStaticPressureV1AndV2 data in
      let* r := bds44_fields.ReadTurbulenceFlag data in
      let turbulenceFlag := r in
      let* '(humidityStatus, humidity) := bds44_fields.ReadHumidityV1AndV2 data in
      Ok ({| MeteorologicalRoutineAirReportV1_WindSpeedStatus := windSpeedStatus;
      MeteorologicalRoutineAirReportV1_WindSpeed := windSpeed;
      MeteorologicalRoutineAirReportV1_WindDirectionStatus := windDirectionStatus;
      MeteorologicalRoutineAirReportV1_WindDirection := windDirection;
      MeteorologicalRoutineAirReportV1_StaticAirTemperatureStatus := staticAirTemperatureStatus;
      MeteorologicalRoutineAirReportV1_StaticAirTemperature := staticAirTemperature;
      MeteorologicalRoutineAirReportV1_AverageStaticPressureStatus := averageStaticPressureStatus;
      MeteorologicalRoutineAirReportV1_AverageStaticPressure := averageStaticPressure;
      MeteorologicalRoutineAirReportV1_TurbulenceFlag := turbulenceFlag;
      MeteorologicalRoutineAirReportV1_HumidityStatus := humidityStatus;
      MeteorologicalRoutineAirReportV1_Humidity := humidity |}).

(* pkg/bds/bds44/meteorological_routine_air_report_v2.go:31-33 *)
Definition MeteorologicalRoutineAirReportV2_GetRegister (message : MeteorologicalRoutineAirReportV2) : bds_register.Register :=
  bds_register.BDS44.

(* pkg/bds/bds44/meteorological_routine_air_report_v2.go:35-37 *)
Definition MeteorologicalRoutineAirReportV2_GetSource (message : MeteorologicalRoutineAirReportV2) : bds44_fields.Source :=
  bds44_fields.SourceInvalid.

(* pkg/bds/bds44/meteorological_routine_air_report_v2.go:40-68 *)
Definition MeteorologicalRoutineAirReportV2_ToString (ffmt : spec_float -> string) (message : MeteorologicalRoutineAirReportV2) : string :=
  ("Message:                            "%string ++ (bds_register.Register_ToString (MeteorologicalRoutineAirReportV2_GetRegister message)) ++
      (nl ++ "Source:                             ")%string ++ (bds44_fields.Source_ToString message.(MeteorologicalRoutineAirReportV2_Source)) ++
      (nl ++ "Wind Speed Status:                  ")%string ++ bool_str message.(MeteorologicalRoutineAirReportV2_WindSpeedStatus) ++
      (nl ++ "Wind Speed (knot):                  ")%string ++ dec message.(MeteorologicalRoutineAirReportV2_WindSpeed) ++
      (nl ++ "Wind Direction Status:              ")%string ++ bool_str message.(MeteorologicalRoutineAirReportV2_WindDirectionStatus) ++
      (nl ++ "Wind Direction (degrees):           ")%string ++ ffmt message.(MeteorologicalRoutineAirReportV2_WindDirection) ++
      (nl ++ "Static Air Temperature Status:      ")%string ++ bool_str message.(MeteorologicalRoutineAirReportV2_StaticAirTemperatureStatus) ++
      (nl ++ "Static Air Temperature (degrees C): ")%string ++ ffmt message.(MeteorologicalRoutineAirReportV2_StaticAirTemperature) ++
      (nl ++ "Average Static Pressure Status:     ")%string ++ bool_str message.(MeteorologicalRoutineAirReportV2_AverageStaticPressureStatus) ++
      (nl ++ "Average Static Pressure (hPa):      ")%string ++ dec message.(MeteorologicalRoutineAirReportV2_AverageStaticPressure) ++
      (nl ++ "Turbulence Flag:                    ")%string ++ (bds44_fields.TurbulenceFlag_ToString message.(MeteorologicalRoutineAirReportV2_TurbulenceFlag)) ++
      (nl ++ "Humidity Status:                    ")%string ++ bool_str message.(MeteorologicalRoutineAirReportV2_HumidityStatus) ++
      (nl ++ "Humidity (%):                       ")%string ++ ffmt message.(MeteorologicalRoutineAirReportV2_Humidity))%string.

(* pkg/bds/bds44/meteorological_routine_air_report_v2.go:71-110 *)
Definition MeteorologicalRoutineAirReportV2_CheckCoherency (message : MeteorologicalRoutineAirReportV2) : res unit :=
  if (message.(MeteorologicalRoutineAirReportV2_Source) >=? 5) then
    Err ("field Source is a Reserved value"%string)
  else if (((((negb message.(MeteorologicalRoutineAirReportV2_WindSpeedStatus)) && (negb message.(MeteorologicalRoutineAirReportV2_WindDirectionStatus))) && (negb message.(MeteorologicalRoutineAirReportV2_StaticAirTemperatureStatus))) && (negb message.(MeteorologicalRoutineAirReportV2_AverageStaticPressureStatus))) && (negb message.(MeteorologicalRoutineAirReportV2_HumidityStatus))) then
    Err ("the message does not convey any information"%string)
  else if ((negb message.(MeteorologicalRoutineAirReportV2_WindSpeedStatus)) && (negb (message.(MeteorologicalRoutineAirReportV2_WindSpeed) =? 0))) then
    Err ("the wind speed status is set to false, but a wind speed value is given"%string)
  else if ((negb message.(MeteorologicalRoutineAirReportV2_WindDirectionStatus)) && (negb (fl_eqb message.(MeteorologicalRoutineAirReportV2_WindDirection) (f32_lit 0 1)))) then
    Err ("the wind direction status is set to false, but a wind direction value is given"%string)
  else if ((negb message.(MeteorologicalRoutineAirReportV2_StaticAirTemperatureStatus)) && (negb (fl_eqb message.(MeteorologicalRoutineAirReportV2_StaticAirTemperature) (f32_lit 0 1)))) then
    Err ("the static air temperature status is set to false, but a static air temperature value is given"%string)
  else if ((negb message.(MeteorologicalRoutineAirReportV2_AverageStaticPressureStatus)) && (negb (message.(MeteorologicalRoutineAirReportV2_AverageStaticPressure) =? 0))) then
    Err ("the average static pressure status is set to false, but a average static pressure value is given"%string)
  else if ((negb message.(MeteorologicalRoutineAirReportV2_HumidityStatus)) && (negb (fl_eqb message.(MeteorologicalRoutineAirReportV2_Humidity) (f32_lit 0 1)))) then
    Err ("the humidity status is set to false, but a humidity value is given"%string)
  else if (message.(MeteorologicalRoutineAirReportV2_WindSpeed) >? 250) then
    Err ("the wind speed is too high (above 250 knots)"%string)
  else if ((fl_ltb message.(MeteorologicalRoutineAirReportV2_StaticAirTemperature) (f32_lit (-80) 1)) || (fl_ltb (f32_lit 60 1) message.(MeteorologicalRoutineAirReportV2_StaticAirTemperature))) then
    Err ("the static air temperature is to high or to low (-80 <= temp <= 60)"%string)
  else 
    Ok tt.

(* pkg/bds/bds44/meteorological_routine_air_report_v2.go:113-140 *)
Definition ReadMeteorologicalRoutineAirReportV2 (data : list Z) : res MeteorologicalRoutineAirReportV2 :=
  if (negb ((len data) =? 7)) then
    Err ("the data for Comm-B MeteorologicalRoutineAirReport message must be 7 bytes long"%string)
  else 
    let* '(windSpeedStatus, windSpeed) := bds44_fields.ReadWindSpeed data in
    let* '(windDirectionStatus, windDirection) := bds44_fields.ReadWindDirectionV1AndV2 data in
    let* '(staticAirTemperatureStatus, staticAirTemperature) := bds44_fields.ReadStaticAirTemperatureV1AndV2 data in
    let* '(averageStaticPressureStatus, averageStaticPressure) := bds44_fields.ReadAverageStaticPressureV1AndV2 data in
    let* r := bds44_fields.ReadTurbulenceFlag data in
    let turbulenceFlag := r in
    let* '(humidityStatus, humidity) := bds44_fields.ReadHumidityV1AndV2 data in
    let* r_1 := bds44_fields.ReadSource data in
    Ok ({| MeteorologicalRoutineAirReportV2_Source := r_1;
      MeteorologicalRoutineAirReportV2_WindSpeedStatus := windSpeedStatus;
      MeteorologicalRoutineAirReportV2_WindSpeed := windSpeed;
      MeteorologicalRoutineAirReportV2_WindDirectionStatus := windDirectionStatus;
      MeteorologicalRoutineAirReportV2_WindDirection := windDirection;
      MeteorologicalRoutineAirReportV2_StaticAirTemperatureStatus := staticAirTemperatureStatus;
      MeteorologicalRoutineAirReportV2_StaticAirTemperature := staticAirTemperature;
      MeteorologicalRoutineAirReportV2_AverageStaticPressureStatus := averageStaticPressureStatus;
      MeteorologicalRoutineAirReportV2_AverageStaticPressure := averageStaticPressure;
      MeteorologicalRoutineAirReportV2_TurbulenceFlag := turbulenceFlag;
      MeteorologicalRoutineAirReportV2_HumidityStatus := humidityStatus;
      MeteorologicalRoutineAirReportV2_Humidity := humidity |}).

(* dynamic dispatch of method CheckCoherency of interface MeteorologicalRoutineAirReport *)
Definition IMeteorologicalRoutineAirReport_CheckCoherency (v : MeteorologicalRoutineAirReport) : res unit :=
  match v with
  | IMeteorologicalRoutineAirReport_MeteorologicalRoutineAirReportV0 x => MeteorologicalRoutineAirReportV0_CheckCoherency x
  | IMeteorologicalRoutineAirReport_MeteorologicalRoutineAirReportV1 x => MeteorologicalRoutineAirReportV1_CheckCoherency x
  | IMeteorologicalRoutineAirReport_MeteorologicalRoutineAirReportV2 x => MeteorologicalRoutineAirReportV2_CheckCoherency x
  end.

(* dynamic dispatch of method GetRegister of interface MeteorologicalRoutineAirReport *)
Definition IMeteorologicalRoutineAirReport_GetRegister (v : MeteorologicalRoutineAirReport) : bds_register.Register :=
  match v with
  | IMeteorologicalRoutineAirReport_MeteorologicalRoutineAirReportV0 x => MeteorologicalRoutineAirReportV0_GetRegister x
  | IMeteorologicalRoutineAirReport_MeteorologicalRoutineAirReportV1 x => MeteorologicalRoutineAirReportV1_GetRegister x
  | IMeteorologicalRoutineAirReport_MeteorologicalRoutineAirReportV2 x => MeteorologicalRoutineAirReportV2_GetRegister x
  end.

(* dynamic dispatch of method GetSource of interface MeteorologicalRoutineAirReport *)
Definition IMeteorologicalRoutineAirReport_GetSource (v : MeteorologicalRoutineAirReport) : bds44_fields.Source :=
  match v with
  | IMeteorologicalRoutineAirReport_MeteorologicalRoutineAirReportV0 x => MeteorologicalRoutineAirReportV0_GetSource x
  | IMeteorologicalRoutineAirReport_MeteorologicalRoutineAirReportV1 x => MeteorologicalRoutineAirReportV1_GetSource x
  | IMeteorologicalRoutineAirReport_MeteorologicalRoutineAirReportV2 x => MeteorologicalRoutineAirReportV2_GetSource x
  end.

(* dynamic dispatch of method ToString of interface MeteorologicalRoutineAirReport *)
Definition IMeteorologicalRoutineAirReport_ToString (ffmt : spec_float -> string) (v : MeteorologicalRoutineAirReport) : string :=
  match v with
  | IMeteorologicalRoutineAirReport_MeteorologicalRoutineAirReportV0 x => MeteorologicalRoutineAirReportV0_ToString ffmt x
  | IMeteorologicalRoutineAirReport_MeteorologicalRoutineAirReportV1 x => MeteorologicalRoutineAirReportV1_ToString ffmt x
  | IMeteorologicalRoutineAirReport_MeteorologicalRoutineAirReportV2 x => MeteorologicalRoutineAirReportV2_ToString ffmt x
  end.

(* pkg/bds/bds44/meteorological_routine_air_report.go:15-44 *)
Definition ReadMeteorologicalRoutineAirReport (data : list Z) : res MeteorologicalRoutineAirReport :=
  if (negb ((len data) =? 7)) then
    Err ("the data must be 7 bytes long ("%string ++ dec (len data) ++ " given)"%string)%string
  else 
    let* r := bds44_fields.ReadSource data in
    let source := r in
    if (source =? bds44_fields.SourceINS) || (source =? bds44_fields.SourceGNSS) || (source =? bds44_fields.SourceDMEDME) || (source =? bds44_fields.SourceVORDME) then
      match ReadMeteorologicalRoutineAirReportV2 data with
      | Ok message =>
        Ok (IMeteorologicalRoutineAirReport_MeteorologicalRoutineAirReportV2 message)
      | Err e =>
        rmap (fun x__ => (IMeteorologicalRoutineAirReport_MeteorologicalRoutineAirReportV0 x__)) (ReadMeteorologicalRoutineAirReportV0 data)
      | Panic => Panic
      end
    else if (source =? bds44_fields.SourceInvalid) then
      rmap (fun x__ => (IMeteorologicalRoutineAirReport_MeteorologicalRoutineAirReportV1 x__)) (ReadMeteorologicalRoutineAirReportV1 data)
    else 
      Err ("the field SubType must be comprised between 0 and 1 included, got "%string ++ dec source)%string.
