(* GENERATED by tools/go2coq.py from /repo/pkg/bds/bds17 -- do not edit by hand.
   One Gallina definition per Go declaration; each is preceded by the file and lines it models.
   Error values are represented by their text, see DESIGN.md.
*)
From Verif Require Import GoBase.
From Verif.Gen Require bds_register.
Local Open Scope Z_scope.

(* pkg/bds/bds17/common_usage_gicb_capability_report.go:9-35 *)
Record CommonUsageGICBCapabilityReport := mkCommonUsageGICBCapabilityReport {
  CommonUsageGICBCapabilityReport_ExtendedSquitterAirbornePosition : bool;
  CommonUsageGICBCapabilityReport_ExtendedSquitterSurfacePosition : bool;
  CommonUsageGICBCapabilityReport_ExtendedSquitterStatus : bool;
  CommonUsageGICBCapabilityReport_ExtendedSquitterIdentificationAndCategory : bool;
  CommonUsageGICBCapabilityReport_ExtendedSquitterAirborneVelocityInformation : bool;
  CommonUsageGICBCapabilityReport_ExtendedSquitterEventDrivenInformation : bool;
  CommonUsageGICBCapabilityReport_AircraftIdentification : bool;
  CommonUsageGICBCapabilityReport_AircraftRegistrationNumber : bool;
  CommonUsageGICBCapabilityReport_SelectedVerticalIntention : bool;
  CommonUsageGICBCapabilityReport_NextWaypointIdentifier : bool;
  CommonUsageGICBCapabilityReport_NextWaypointPosition : bool;
  CommonUsageGICBCapabilityReport_NextWaypointInformation : bool;
  CommonUsageGICBCapabilityReport_MeteorologicalRoutineReport : bool;
  CommonUsageGICBCapabilityReport_MeteorologicalHazardReport : bool;
  CommonUsageGICBCapabilityReport_VHFChannelReport : bool;
  CommonUsageGICBCapabilityReport_TrackAndTurnReport : bool;
  CommonUsageGICBCapabilityReport_PositionCoarse : bool;
  CommonUsageGICBCapabilityReport_PositionFine : bool;
  CommonUsageGICBCapabilityReport_AirReferencedStateVector : bool;
  CommonUsageGICBCapabilityReport_Waypoint1 : bool;
  CommonUsageGICBCapabilityReport_Waypoint2 : bool;
  CommonUsageGICBCapabilityReport_Waypoint3 : bool;
  CommonUsageGICBCapabilityReport_QuasiStaticParameterMonitoring : bool;
  CommonUsageGICBCapabilityReport_HeadingAndSpeedReport : bool;
  CommonUsageGICBCapabilityReport_MilitaryApplications : bool }.

(* pkg/bds/bds17/common_usage_gicb_capability_report.go:38-40 *)
Definition CommonUsageGICBCapabilityReport_GetRegister (message : CommonUsageGICBCapabilityReport) : bds_register.Register :=
  bds_register.BDS17.

(* pkg/bds/bds17/common_usage_gicb_capability_report.go:43-97 *)
Definition CommonUsageGICBCapabilityReport_ToString (message : CommonUsageGICBCapabilityReport) : string :=
  ("Message:                                             "%string ++ (bds_register.Register_ToString (CommonUsageGICBCapabilityReport_GetRegister message)) ++
      (nl ++ "0,5 Extended squitter airborne position:             ")%string ++ bool_str message.(CommonUsageGICBCapabilityReport_ExtendedSquitterAirbornePosition) ++
      (nl ++ "0,6 Extended squitter surface position:              ")%string ++ bool_str message.(CommonUsageGICBCapabilityReport_ExtendedSquitterSurfacePosition) ++
      (nl ++ "0,7 Extended squitter status:                        ")%string ++ bool_str message.(CommonUsageGICBCapabilityReport_ExtendedSquitterStatus) ++
      (nl ++ "0,8 Extended squitter identification and category:   ")%string ++ bool_str message.(CommonUsageGICBCapabilityReport_ExtendedSquitterIdentificationAndCategory) ++
      (nl ++ "0,9 Extended squitter airborne velocity information: ")%string ++ bool_str message.(CommonUsageGICBCapabilityReport_ExtendedSquitterAirborneVelocityInformation) ++
      (nl ++ "0,A Extended squitter event-driven information:      ")%string ++ bool_str message.(CommonUsageGICBCapabilityReport_ExtendedSquitterEventDrivenInformation) ++
      (nl ++ "2,0 Aircraft identification:                         ")%string ++ bool_str message.(CommonUsageGICBCapabilityReport_AircraftIdentification) ++
      (nl ++ "2,l Aircraft registration number:                    ")%string ++ bool_str message.(CommonUsageGICBCapabilityReport_AircraftRegistrationNumber) ++
      (nl ++ "4,0 Selected vertical intention:                     ")%string ++ bool_str message.(CommonUsageGICBCapabilityReport_SelectedVerticalIntention) ++
      (nl ++ "4,l Next waypoint identifier:                        ")%string ++ bool_str message.(CommonUsageGICBCapabilityReport_NextWaypointIdentifier) ++
      (nl ++ "4,2 Next waypoint position:                          ")%string ++ bool_str message.(CommonUsageGICBCapabilityReport_NextWaypointPosition) ++
      (nl ++ "4,3 Next waypoint information:                       ")%string ++ bool_str message.(CommonUsageGICBCapabilityReport_NextWaypointInformation) ++
      (nl ++ "4,4 Meteorological routine report:                   ")%string ++ bool_str message.(CommonUsageGICBCapabilityReport_MeteorologicalRoutineReport) ++
      (nl ++ "4,5 Meteorological hazard report:                    ")%string ++ bool_str message.(CommonUsageGICBCapabilityReport_MeteorologicalHazardReport) ++
      (nl ++ "4.8 VHF channel report:                              ")%string ++ bool_str message.(CommonUsageGICBCapabilityReport_VHFChannelReport) ++
      (nl ++ "5,0 Track and turn report:                           ")%string ++ bool_str message.(CommonUsageGICBCapabilityReport_TrackAndTurnReport) ++
      (nl ++ "5,1 Position coarse:                                 ")%string ++ bool_str message.(CommonUsageGICBCapabilityReport_PositionCoarse) ++
      (nl ++ "5,2 Position fine:                                   ")%string ++ bool_str message.(CommonUsageGICBCapabilityReport_PositionFine) ++
      (nl ++ "5,3 Air-referenced state vector:                     ")%string ++ bool_str message.(CommonUsageGICBCapabilityReport_AirReferencedStateVector) ++
      (nl ++ "5,4 Waypoint 1:                                      ")%string ++ bool_str message.(CommonUsageGICBCapabilityReport_Waypoint1) ++
      (nl ++ "5,5 Waypoint 2:                                      ")%string ++ bool_str message.(CommonUsageGICBCapabilityReport_Waypoint2) ++
      (nl ++ "5,6 Waypoint 3:                                      ")%string ++ bool_str message.(CommonUsageGICBCapabilityReport_Waypoint3) ++
      (nl ++ "5,F Quasi-static parameter monitoring:               ")%string ++ bool_str message.(CommonUsageGICBCapabilityReport_QuasiStaticParameterMonitoring) ++
      (nl ++ "6,0 Heading and speed report:                        ")%string ++ bool_str message.(CommonUsageGICBCapabilityReport_HeadingAndSpeedReport) ++
      (nl ++ "F,1 Military applications:                           ")%string ++ bool_str message.(CommonUsageGICBCapabilityReport_MilitaryApplications) ++ nl%string)%string.

(* pkg/bds/bds17/common_usage_gicb_capability_report.go:100-102 *)
Definition CommonUsageGICBCapabilityReport_CheckCoherency (message : CommonUsageGICBCapabilityReport) : res unit :=
  Ok tt.

(* pkg/bds/bds17/common_usage_gicb_capability_report.go:105-149 *)
Definition ReadCommonUsageGICBCapabilityReport (data : list Z) : res CommonUsageGICBCapabilityReport :=
  if (negb ((len data) =? 7)) then
    Err ("the data for Comm-B CommonUsageGICBCapabilityReport message must be 7 bytes long"%string)
  else 
    let* data3 := idx data 3 in
    if (negb ((Z.land data3 7) =? 0)) then
      Err ("the bits 30 to 32 are reserved and must be 0"%string)
    else 
      let* data4 := idx data 4 in
      if (negb (data4 =? 0)) then
        Err ("the bits 33 to 56 are reserved and must be 0"%string)
      else 
        let* data5 := idx data 5 in
        if (negb (data5 =? 0)) then
          Err ("the bits 33 to 56 are reserved and must be 0"%string)
        else 
          let* data6 := idx data 6 in
          if (negb (data6 =? 0)) then
            Err ("the bits 33 to 56 are reserved and must be 0"%string)
          else 
            let* data0 := idx data 0 in
            let* data1 := idx data 1 in
            let* data2 := idx data 2 in
            Ok ({| CommonUsageGICBCapabilityReport_ExtendedSquitterAirbornePosition := (negb ((Z.shiftr (Z.land data0 0x80) 7) =? 0));
      CommonUsageGICBCapabilityReport_ExtendedSquitterSurfacePosition := (negb ((Z.shiftr (Z.land data0 0x40) 6) =? 0));
      CommonUsageGICBCapabilityReport_ExtendedSquitterStatus := (negb ((Z.shiftr (Z.land data0 0x20) 5) =? 0));
      CommonUsageGICBCapabilityReport_ExtendedSquitterIdentificationAndCategory := (negb ((Z.shiftr (Z.land data0 0x10) 4) =? 0));
      CommonUsageGICBCapabilityReport_ExtendedSquitterAirborneVelocityInformation := (negb ((Z.shiftr (Z.land data0 8) 3) =? 0));
      CommonUsageGICBCapabilityReport_ExtendedSquitterEventDrivenInformation := (negb ((Z.shiftr (Z.land data0 4) 2) =? 0));
      CommonUsageGICBCapabilityReport_AircraftIdentification := (negb ((Z.shiftr (Z.land data0 2) 1) =? 0));
      CommonUsageGICBCapabilityReport_AircraftRegistrationNumber := (negb ((Z.shiftr (Z.land data0 1) 0) =? 0));
      CommonUsageGICBCapabilityReport_SelectedVerticalIntention := (negb ((Z.shiftr (Z.land data1 0x80) 7) =? 0));
      CommonUsageGICBCapabilityReport_NextWaypointIdentifier := (negb ((Z.shiftr (Z.land data1 0x40) 6) =? 0));
      CommonUsageGICBCapabilityReport_NextWaypointPosition := (negb ((Z.shiftr (Z.land data1 0x20) 5) =? 0));
      CommonUsageGICBCapabilityReport_NextWaypointInformation := (negb ((Z.shiftr (Z.land data1 0x10) 4) =? 0));
      CommonUsageGICBCapabilityReport_MeteorologicalRoutineReport := (negb ((Z.shiftr (Z.land data1 8) 3) =? 0));
      CommonUsageGICBCapabilityReport_MeteorologicalHazardReport := (negb ((Z.shiftr (Z.land data1 4) 2) =? 0));
      CommonUsageGICBCapabilityReport_VHFChannelReport := (negb ((Z.shiftr (Z.land data1 2) 1) =? 0));
      CommonUsageGICBCapabilityReport_TrackAndTurnReport := (negb ((Z.shiftr (Z.land data1 1) 0) =? 0));
      CommonUsageGICBCapabilityReport_PositionCoarse := (negb ((Z.shiftr (Z.land data2 0x80) 7) =? 0));
      CommonUsageGICBCapabilityReport_PositionFine := (negb ((Z.shiftr (Z.land data2 0x40) 6) =? 0));
      CommonUsageGICBCapabilityReport_AirReferencedStateVector := (negb ((Z.shiftr (Z.land data2 0x20) 5) =? 0));
      CommonUsageGICBCapabilityReport_Waypoint1 := (negb ((Z.shiftr (Z.land data2 0x10) 4) =? 0));
      CommonUsageGICBCapabilityReport_Waypoint2 := (negb ((Z.shiftr (Z.land data2 8) 3) =? 0));
      CommonUsageGICBCapabilityReport_Waypoint3 := (negb ((Z.shiftr (Z.land data2 4) 2) =? 0));
      CommonUsageGICBCapabilityReport_QuasiStaticParameterMonitoring := (negb ((Z.shiftr (Z.land data2 2) 1) =? 0));
      CommonUsageGICBCapabilityReport_HeadingAndSpeedReport := (negb ((Z.shiftr (Z.land data2 1) 0) =? 0));
      CommonUsageGICBCapabilityReport_MilitaryApplications := (negb ((Z.shiftr (Z.land data3 8) 3) =? 0)) |}).
