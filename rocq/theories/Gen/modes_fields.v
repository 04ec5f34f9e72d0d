(* GENERATED by tools/go2coq.py from /repo/pkg/modes/fields -- do not edit by hand.
   One Gallina definition per Go declaration; each is preceded by the file and lines it models.
   Error values are represented by their text, see DESIGN.md.
*)
From Verif Require Import GoBase.
From Verif.Gen Require bitutils modes_common.
Local Open Scope Z_scope.

(* pkg/modes/fields/address_announced.go:19-21 *)
Record AddressAnnounced := mkAddressAnnounced {
  AddressAnnounced_Address : Z }.

(* pkg/modes/fields/altitude_code.go:24 *)
Definition AltitudeReportMethod := Z.

(* pkg/modes/fields/application_field.go:17 *)
Definition ApplicationField := Z.

(* pkg/modes/fields/capability.go:18 *)
Definition Capability := Z.

(* pkg/modes/fields/control_elm.go:17 *)
Definition ControlELM := Z.

(* pkg/modes/fields/control_field.go:17 *)
Definition ControlField := Z.

(* pkg/modes/fields/cross_link_compatibility.go:19 *)
Definition CrossLinkCompatibility := Z.

(* pkg/modes/fields/downlink_request.go:17 *)
Definition DownlinkRequest := Z.

(* pkg/modes/fields/flight_status.go:17 *)
Definition FlightStatus := Z.

(* pkg/modes/fields/identity.go:18-21 *)
Record Identity := mkIdentity {
  Identity_Identity : string }.

(* pkg/modes/fields/message_acas.go:17 *)
Definition MessageACAS := list Z.

(* pkg/modes/fields/message_comm_b.go:17 *)
Definition MessageCommB := list Z.

(* pkg/modes/fields/message_comm_d.go:19 *)
Definition MessageCommD := list Z.

(* pkg/modes/fields/message_extended_squitter.go:19 *)
Definition MessageExtendedSquitter := list Z.

(* pkg/modes/fields/number_of_d_segment.go:17 *)
Definition NumberOfDSegment := Z.

(* pkg/modes/fields/reply_information_air_air.go:22 *)
Definition ReplyInformationAirAir := Z.

(* pkg/modes/fields/sensitivity_level_report.go:18 *)
Definition SensitivityLevelReport := Z.

(* pkg/modes/fields/utility_message.go:29 *)
Definition UtilityMessageIdentifierDesignator := Z.

(* pkg/modes/fields/utility_message.go:17-23 *)
Record UtilityMessage := mkUtilityMessage {
  UtilityMessage_InterrogatorIdentifier : Z;
  UtilityMessage_IdentifierDesignator : UtilityMessageIdentifierDesignator }.

(* pkg/modes/fields/vertical_status.go:17 *)
Definition VerticalStatus := Z.

Definition AltitudeCodeReportNotAvailable : AltitudeReportMethod := 1. (* pkg/modes/fields/altitude_code.go:29 *)

Definition AltitudeCodeReportMetricUnits : AltitudeReportMethod := 2. (* pkg/modes/fields/altitude_code.go:31 *)

Definition AltitudeCodeReport100FootIncrements : AltitudeReportMethod := 3. (* pkg/modes/fields/altitude_code.go:33 *)

Definition AltitudeCodeReport25FootIncrements : AltitudeReportMethod := 4. (* pkg/modes/fields/altitude_code.go:35 *)

Definition ApplicationFieldReserved0 : ApplicationField := 0. (* pkg/modes/fields/application_field.go:21 *)

Definition ApplicationFieldReserved1 : ApplicationField := 1. (* pkg/modes/fields/application_field.go:23 *)

Definition ApplicationFieldReserved2 : ApplicationField := 2. (* pkg/modes/fields/application_field.go:25 *)

Definition ApplicationFieldReserved3 : ApplicationField := 3. (* pkg/modes/fields/application_field.go:27 *)

Definition ApplicationFieldReserved4 : ApplicationField := 4. (* pkg/modes/fields/application_field.go:29 *)

Definition ApplicationFieldReserved5 : ApplicationField := 5. (* pkg/modes/fields/application_field.go:31 *)

Definition ApplicationFieldReserved6 : ApplicationField := 6. (* pkg/modes/fields/application_field.go:33 *)

Definition ApplicationFieldReserved7 : ApplicationField := 7. (* pkg/modes/fields/application_field.go:35 *)

Definition CapabilityLevel1Transponder : Capability := 0. (* pkg/modes/fields/capability.go:23 *)

Definition CapabilityReserved1 : Capability := 1. (* pkg/modes/fields/capability.go:25 *)

Definition CapabilityReserved2 : Capability := 2. (* pkg/modes/fields/capability.go:27 *)

Definition CapabilityReserved3 : Capability := 3. (* pkg/modes/fields/capability.go:29 *)

Definition CapabilityLevel2OnTheGround : Capability := 4. (* pkg/modes/fields/capability.go:31 *)

Definition CapabilityLevel2Airborne : Capability := 5. (* pkg/modes/fields/capability.go:33 *)

Definition CapabilityLevel2OnTheGroundOrAirborne : Capability := 6. (* pkg/modes/fields/capability.go:36 *)

Definition CapabilityFSOrDR : Capability := 7. (* pkg/modes/fields/capability.go:39 *)

Definition DownlinkELMTransmission : ControlELM := 0. (* pkg/modes/fields/control_elm.go:21 *)

Definition UplinkELMAcknowledgement : ControlELM := 1. (* pkg/modes/fields/control_elm.go:23 *)

Definition ControlFieldADSB : ControlField := 0. (* pkg/modes/fields/control_field.go:21 *)

Definition ControlFieldADSBReserved : ControlField := 1. (* pkg/modes/fields/control_field.go:23 *)

Definition ControlFieldTISBFineFormat : ControlField := 2. (* pkg/modes/fields/control_field.go:25 *)

Definition ControlFieldTISBCoarseFormat : ControlField := 3. (* pkg/modes/fields/control_field.go:27 *)

Definition ControlFieldTISBReservedManagement : ControlField := 4. (* pkg/modes/fields/control_field.go:29 *)

Definition ControlFieldTISBRelayADSB : ControlField := 5. (* pkg/modes/fields/control_field.go:31 *)

Definition ControlFieldADSBRebroadcast : ControlField := 6. (* pkg/modes/fields/control_field.go:33 *)

Definition ControlFieldReserved : ControlField := 7. (* pkg/modes/fields/control_field.go:35 *)

Definition CrossLinkCompatibilityNotSupported : CrossLinkCompatibility := 0. (* pkg/modes/fields/cross_link_compatibility.go:23 *)

Definition CrossLinkCompatibilitySupported : CrossLinkCompatibility := 1. (* pkg/modes/fields/cross_link_compatibility.go:25 *)

Definition DownlinkRequestNoDownlinkRequest : DownlinkRequest := 0. (* pkg/modes/fields/downlink_request.go:21 *)

Definition DownlinkRequestToSendCommBMessage : DownlinkRequest := 1. (* pkg/modes/fields/downlink_request.go:23 *)

Definition DownlinkRequestACASMessageAvailable : DownlinkRequest := 2. (* pkg/modes/fields/downlink_request.go:25 *)

Definition DownlinkRequestCommBAndACASMessageAvailable : DownlinkRequest := 3. (* pkg/modes/fields/downlink_request.go:27 *)

Definition DownlinkRequestCommBMessage1Available : DownlinkRequest := 4. (* pkg/modes/fields/downlink_request.go:29 *)

Definition DownlinkRequestCommBMessage2Available : DownlinkRequest := 5. (* pkg/modes/fields/downlink_request.go:31 *)

Definition DownlinkRequestCommBMessage1AndACASMessageAvailable : DownlinkRequest := 6. (* pkg/modes/fields/downlink_request.go:33 *)

Definition DownlinkRequestCommBMessage2AndACASMessageAvailable : DownlinkRequest := 7. (* pkg/modes/fields/downlink_request.go:35 *)

Definition DownlinkRequestNotAssigned8 : DownlinkRequest := 8. (* pkg/modes/fields/downlink_request.go:37 *)

Definition DownlinkRequestNotAssigned9 : DownlinkRequest := 9. (* pkg/modes/fields/downlink_request.go:39 *)

Definition DownlinkRequestNotAssigned10 : DownlinkRequest := 10. (* pkg/modes/fields/downlink_request.go:41 *)

Definition DownlinkRequestNotAssigned11 : DownlinkRequest := 11. (* pkg/modes/fields/downlink_request.go:43 *)

Definition DownlinkRequestNotAssigned12 : DownlinkRequest := 12. (* pkg/modes/fields/downlink_request.go:45 *)

Definition DownlinkRequestNotAssigned13 : DownlinkRequest := 13. (* pkg/modes/fields/downlink_request.go:47 *)

Definition DownlinkRequestNotAssigned14 : DownlinkRequest := 14. (* pkg/modes/fields/downlink_request.go:49 *)

Definition DownlinkRequestNotAssigned15 : DownlinkRequest := 15. (* pkg/modes/fields/downlink_request.go:51 *)

Definition DownlinkRequestELMAvailable1Segments : DownlinkRequest := 16. (* pkg/modes/fields/downlink_request.go:53 *)

Definition DownlinkRequestELMAvailable2Segments : DownlinkRequest := 17. (* pkg/modes/fields/downlink_request.go:55 *)

Definition DownlinkRequestELMAvailable3Segments : DownlinkRequest := 18. (* pkg/modes/fields/downlink_request.go:57 *)

Definition DownlinkRequestELMAvailable4Segments : DownlinkRequest := 19. (* pkg/modes/fields/downlink_request.go:59 *)

Definition DownlinkRequestELMAvailable5Segments : DownlinkRequest := 20. (* pkg/modes/fields/downlink_request.go:61 *)

Definition DownlinkRequestELMAvailable6Segments : DownlinkRequest := 21. (* pkg/modes/fields/downlink_request.go:63 *)

Definition DownlinkRequestELMAvailable7Segments : DownlinkRequest := 22. (* pkg/modes/fields/downlink_request.go:65 *)

Definition DownlinkRequestELMAvailable8Segments : DownlinkRequest := 23. (* pkg/modes/fields/downlink_request.go:67 *)

Definition DownlinkRequestELMAvailable9Segments : DownlinkRequest := 24. (* pkg/modes/fields/downlink_request.go:69 *)

Definition DownlinkRequestELMAvailable10Segments : DownlinkRequest := 25. (* pkg/modes/fields/downlink_request.go:71 *)

Definition DownlinkRequestELMAvailable11Segments : DownlinkRequest := 26. (* pkg/modes/fields/downlink_request.go:73 *)

Definition DownlinkRequestELMAvailable12Segments : DownlinkRequest := 27. (* pkg/modes/fields/downlink_request.go:75 *)

Definition DownlinkRequestELMAvailable13Segments : DownlinkRequest := 28. (* pkg/modes/fields/downlink_request.go:77 *)

Definition DownlinkRequestELMAvailable14Segments : DownlinkRequest := 29. (* pkg/modes/fields/downlink_request.go:79 *)

Definition DownlinkRequestELMAvailable15Segments : DownlinkRequest := 30. (* pkg/modes/fields/downlink_request.go:81 *)

Definition DownlinkRequestELMAvailable16Segments : DownlinkRequest := 31. (* pkg/modes/fields/downlink_request.go:83 *)

Definition FlightStatusNoAlertNoSPIAirborne : FlightStatus := 0. (* pkg/modes/fields/flight_status.go:21 *)

Definition FlightStatusNoAlertNoSPIOnTheGround : FlightStatus := 1. (* pkg/modes/fields/flight_status.go:23 *)

Definition FlightStatusAlertNoSPIAirborne : FlightStatus := 2. (* pkg/modes/fields/flight_status.go:25 *)

Definition FlightStatusAlertNoSPIOnTheGround : FlightStatus := 3. (* pkg/modes/fields/flight_status.go:27 *)

Definition FlightStatusAlertSPIAirborne : FlightStatus := 4. (* pkg/modes/fields/flight_status.go:29 *)

Definition FlightStatusAlertSPIOnTheGround : FlightStatus := 5. (* pkg/modes/fields/flight_status.go:31 *)

Definition FlightStatusReserved : FlightStatus := 6. (* pkg/modes/fields/flight_status.go:33 *)

Definition FlightStatusNotAssigned : FlightStatus := 7. (* pkg/modes/fields/flight_status.go:35 *)

Definition ReplyInformationNoOperatingACAS : ReplyInformationAirAir := 0. (* pkg/modes/fields/reply_information_air_air.go:26 *)

Definition ReplyInformationReservedACAS1 : ReplyInformationAirAir := 1. (* pkg/modes/fields/reply_information_air_air.go:28 *)

Definition ReplyInformationACASResolutionProhibited : ReplyInformationAirAir := 2. (* pkg/modes/fields/reply_information_air_air.go:30 *)

Definition ReplyInformationACASVerticalOnlyResolution : ReplyInformationAirAir := 3. (* pkg/modes/fields/reply_information_air_air.go:32 *)

Definition ReplyInformationACASVerticalAndHorizontalResolution : ReplyInformationAirAir := 4. (* pkg/modes/fields/reply_information_air_air.go:34 *)

Definition ReplyInformationReservedACAS5 : ReplyInformationAirAir := 5. (* pkg/modes/fields/reply_information_air_air.go:36 *)

Definition ReplyInformationReservedACAS6 : ReplyInformationAirAir := 6. (* pkg/modes/fields/reply_information_air_air.go:38 *)

Definition ReplyInformationReservedACAS7 : ReplyInformationAirAir := 7. (* pkg/modes/fields/reply_information_air_air.go:40 *)

Definition ReplyInformationMaximumAirSpeedNotAvailable : ReplyInformationAirAir := 8. (* pkg/modes/fields/reply_information_air_air.go:42 *)

Definition ReplyInformationMaximumAirSpeed0To140 : ReplyInformationAirAir := 9. (* pkg/modes/fields/reply_information_air_air.go:44 *)

Definition ReplyInformationMaximumAirSpeed140To280 : ReplyInformationAirAir := 10. (* pkg/modes/fields/reply_information_air_air.go:47 *)

Definition ReplyInformationMaximumAirSpeed280To560 : ReplyInformationAirAir := 11. (* pkg/modes/fields/reply_information_air_air.go:50 *)

Definition ReplyInformationMaximumAirSpeed560To1110 : ReplyInformationAirAir := 12. (* pkg/modes/fields/reply_information_air_air.go:53 *)

Definition ReplyInformationMaximumAirSpeed1110To2220 : ReplyInformationAirAir := 13. (* pkg/modes/fields/reply_information_air_air.go:56 *)

Definition ReplyInformationMaximumAirSpeedOver2220 : ReplyInformationAirAir := 14. (* pkg/modes/fields/reply_information_air_air.go:58 *)

Definition ReplyInformationNotAssigned : ReplyInformationAirAir := 15. (* pkg/modes/fields/reply_information_air_air.go:60 *)

Definition SensitivityLevelACASInoperative : SensitivityLevelReport := 0. (* pkg/modes/fields/sensitivity_level_report.go:22 *)

Definition SensitivityLevel1 : SensitivityLevelReport := 1. (* pkg/modes/fields/sensitivity_level_report.go:24 *)

Definition SensitivityLevel2 : SensitivityLevelReport := 2. (* pkg/modes/fields/sensitivity_level_report.go:26 *)

Definition SensitivityLevel3 : SensitivityLevelReport := 3. (* pkg/modes/fields/sensitivity_level_report.go:28 *)

Definition SensitivityLevel4 : SensitivityLevelReport := 4. (* pkg/modes/fields/sensitivity_level_report.go:30 *)

Definition SensitivityLevel5 : SensitivityLevelReport := 5. (* pkg/modes/fields/sensitivity_level_report.go:32 *)

Definition SensitivityLevel6 : SensitivityLevelReport := 6. (* pkg/modes/fields/sensitivity_level_report.go:34 *)

Definition SensitivityLevel7 : SensitivityLevelReport := 7. (* pkg/modes/fields/sensitivity_level_report.go:36 *)

Definition UtilityMessageIdentifierDesignatorNoInformation : UtilityMessageIdentifierDesignator := 0. (* pkg/modes/fields/utility_message.go:33 *)

Definition UtilityMessageIdentifierDesignatorCommB : UtilityMessageIdentifierDesignator := 1. (* pkg/modes/fields/utility_message.go:35 *)

Definition UtilityMessageIdentifierDesignatorCommC : UtilityMessageIdentifierDesignator := 2. (* pkg/modes/fields/utility_message.go:37 *)

Definition UtilityMessageIdentifierDesignatorCommD : UtilityMessageIdentifierDesignator := 3. (* pkg/modes/fields/utility_message.go:39 *)

Definition VerticalStatusAirborne : VerticalStatus := 0. (* pkg/modes/fields/vertical_status.go:21 *)

Definition VerticalStatusOnTheGround : VerticalStatus := 1. (* pkg/modes/fields/vertical_status.go:23 *)

(* pkg/modes/fields/address_announced.go:24-29 *)
Definition ReadAddressAnnounced (message : modes_common.MessageData) : res AddressAnnounced :=
  let* Payload0 := idx message.(modes_common.MessageData_Payload) 0 in
  let* Payload1 := idx message.(modes_common.MessageData_Payload) 1 in
  let* Payload2 := idx message.(modes_common.MessageData_Payload) 2 in
  Ok ({| AddressAnnounced_Address := (bitutils.Pack3Bytes Payload0 Payload1 Payload2) |}).

(* pkg/modes/fields/address_announced.go:32-37 *)
Definition AddressAnnounced_ToString (addressAnnounced : AddressAnnounced) : string :=
  (hex2 (u8 (Z.shiftr (Z.land addressAnnounced.(AddressAnnounced_Address) 0xff0000) 16)) ++ " "%string ++ hex2 (u8 (Z.shiftr (Z.land addressAnnounced.(AddressAnnounced_Address) 0xff00) 8)) ++ " "%string ++ hex2 (u8 (Z.land addressAnnounced.(AddressAnnounced_Address) 0xff)))%string.

(* pkg/modes/fields/altitude_code.go:39-104 *)
Definition ReadAltitude (message : modes_common.MessageData) : res (Z * AltitudeReportMethod) :=
  let* Payload1 := idx message.(modes_common.MessageData_Payload) 1 in
  let* Payload2 := idx message.(modes_common.MessageData_Payload) 2 in
  let altitudeCode := (u16 ((u16 (Z.shiftl (Z.land Payload1 0x1f) 8)) + Payload2)) in
  if (altitudeCode =? 0) then
    Ok (0, AltitudeCodeReportNotAvailable)
  else 
    let mBit := (negb ((Z.land altitudeCode 0x40) =? 0)) in
    if mBit then
      Ok (0, AltitudeCodeReportMetricUnits)
    else 
      let qBit := (negb ((Z.land altitudeCode 0x10) =? 0)) in
      if qBit then
        let n := 0 in
        let n := (Z.lor n (Z.shiftr (Z.land altitudeCode 0x1f80) 2)) in
        let n := (Z.lor n (Z.shiftr (Z.land altitudeCode 0x20) 1)) in
        let n := (Z.lor n (Z.land altitudeCode 0xf)) in
        let altitude := (i32 ((i32 (25 * n)) - 1000)) in
        Ok (altitude, AltitudeCodeReport25FootIncrements)
      else 
        let c1 := (negb ((Z.land altitudeCode 0x1000) =? 0)) in
        let a1 := (negb ((Z.land altitudeCode 0x800) =? 0)) in
        let c2 := (negb ((Z.land altitudeCode 0x400) =? 0)) in
        let a2 := (negb ((Z.land altitudeCode 0x200) =? 0)) in
        let c4 := (negb ((Z.land altitudeCode 0x100) =? 0)) in
        let a4 := (negb ((Z.land altitudeCode 0x80) =? 0)) in
        let b1 := (negb ((Z.land altitudeCode 0x20) =? 0)) in
        let b2 := (negb ((Z.land altitudeCode 8) =? 0)) in
        let d2 := (negb ((Z.land altitudeCode 4) =? 0)) in
        let b4 := (negb ((Z.land altitudeCode 2) =? 0)) in
        let d4 := (negb ((Z.land altitudeCode 1) =? 0)) in
        match bitutils.GillhamToAltitude false d2 d4 a1 a2 a4 b1 b2 b4 c1 c2 c4 with
        | Ok altitude =>
          Ok (altitude, AltitudeCodeReport100FootIncrements)
        | Err e =>
          Err ("the Altitude field is malformed"%string)
        | Panic => Panic
        end.

(* pkg/modes/fields/altitude_code.go:107-120 *)
Definition AltitudeReportMethod_ToString (altitudeReportMethod : AltitudeReportMethod) : string :=
  if (altitudeReportMethod =? AltitudeCodeReportNotAvailable) then
    "1 - Not Available"%string
  else if (altitudeReportMethod =? AltitudeCodeReportMetricUnits) then
    "2 - Metric Units"%string
  else if (altitudeReportMethod =? AltitudeCodeReport100FootIncrements) then
    "3 - 100 Foot Increments"%string
  else if (altitudeReportMethod =? AltitudeCodeReport25FootIncrements) then
    "4 - 25 Foot Increments"%string
  else 
    (dec altitudeReportMethod ++ " - Unknown code"%string)%string.

(* pkg/modes/fields/application_field.go:39-42 *)
Definition ReadApplicationField (message : modes_common.MessageData) : ApplicationField :=
  message.(modes_common.MessageData_FirstField).

(* pkg/modes/fields/application_field.go:45-66 *)
Definition ApplicationField_ToString (applicationField : ApplicationField) : string :=
  if (applicationField =? ApplicationFieldReserved0) then
    "0 - Reserved"%string
  else if (applicationField =? ApplicationFieldReserved1) then
    "1 - Reserved"%string
  else if (applicationField =? ApplicationFieldReserved2) then
    "2 - Reserved"%string
  else if (applicationField =? ApplicationFieldReserved3) then
    "3 - Reserved"%string
  else if (applicationField =? ApplicationFieldReserved4) then
    "4 - Reserved"%string
  else if (applicationField =? ApplicationFieldReserved5) then
    "5 - Reserved"%string
  else if (applicationField =? ApplicationFieldReserved6) then
    "6 - Reserved"%string
  else if (applicationField =? ApplicationFieldReserved7) then
    "7 - Reserved"%string
  else 
    (dec applicationField ++ " - Unknown code"%string)%string.

(* pkg/modes/fields/capability.go:43-46 *)
Definition ReadCapability (message : modes_common.MessageData) : Capability :=
  message.(modes_common.MessageData_FirstField).

(* pkg/modes/fields/capability.go:49-70 *)
Definition Capability_ToString (capability : Capability) : string :=
  if (capability =? CapabilityLevel1Transponder) then
    "0 - Level 1 Transponder (surveillance only)"%string
  else if (capability =? CapabilityReserved1) then
    "1 - Reserved"%string
  else if (capability =? CapabilityReserved2) then
    "2 - Reserved"%string
  else if (capability =? CapabilityReserved3) then
    "3 - Reserved"%string
  else if (capability =? CapabilityLevel2OnTheGround) then
    "4 - Level 2 On The Ground"%string
  else if (capability =? CapabilityLevel2Airborne) then
    "5 - Level 2 Airborne"%string
  else if (capability =? CapabilityLevel2OnTheGroundOrAirborne) then
    "6 - Level 2 On The Ground or Airborne"%string
  else if (capability =? CapabilityFSOrDR) then
    "7 - Flight Status (FS) with alert or downlink request (DR)"%string
  else 
    (dec capability ++ " - Unknown code"%string)%string.

(* pkg/modes/fields/control_elm.go:27-32 *)
Definition ReadControlELM (message : modes_common.MessageData) : ControlELM :=
  if (negb ((Z.land message.(modes_common.MessageData_DownLinkFormat) 2) =? 0)) then
    UplinkELMAcknowledgement
  else 
    DownlinkELMTransmission.

(* pkg/modes/fields/control_elm.go:35-44 *)
Definition ControlELM_ToString (controlELM : ControlELM) : string :=
  if (controlELM =? DownlinkELMTransmission) then
    "0 - Downlink ELM Transmission"%string
  else if (controlELM =? UplinkELMAcknowledgement) then
    "1 - Uplink ELM Acknowledgement"%string
  else 
    (dec controlELM ++ " - Unknown code"%string)%string.

(* pkg/modes/fields/control_field.go:39-42 *)
Definition ReadControlField (message : modes_common.MessageData) : ControlField :=
  message.(modes_common.MessageData_FirstField).

(* pkg/modes/fields/control_field.go:45-66 *)
Definition ControlField_ToString (controlField : ControlField) : string :=
  if (controlField =? ControlFieldADSB) then
    "0 - ADSB (ADS-B ES/NT devices that report the ICAO 24-bit address in the AA field)"%string
  else if (controlField =? ControlFieldADSBReserved) then
    "1 - ADSB Reserved (reserved for ADS-B for ES/NT devices that use other addressing techniques in the AA field)"%string
  else if (controlField =? ControlFieldTISBFineFormat) then
    "2 - TISB Fine Format"%string
  else if (controlField =? ControlFieldTISBCoarseFormat) then
    "3 - TISB Coarse Format"%string
  else if (controlField =? ControlFieldTISBReservedManagement) then
    "4 - TISB Reserved Management"%string
  else if (controlField =? ControlFieldTISBRelayADSB) then
    "5 - TISB Relay ADSB"%string
  else if (controlField =? ControlFieldADSBRebroadcast) then
    "6 - ADSB Rebroadcast (ADS-B rebroadcast using the same type codes and message formats as defined for DF = 17 ADS-B messages)"%string
  else if (controlField =? ControlFieldReserved) then
    "7 - Reserved"%string
  else 
    (dec controlField ++ " - Unknown code"%string)%string.

(* pkg/modes/fields/cross_link_compatibility.go:29-34 *)
Definition ReadCrossLinkCompatibility (message : modes_common.MessageData) : CrossLinkCompatibility :=
  if (negb ((Z.land message.(modes_common.MessageData_FirstField) 2) =? 0)) then
    CrossLinkCompatibilitySupported
  else 
    CrossLinkCompatibilityNotSupported.

(* pkg/modes/fields/cross_link_compatibility.go:37-46 *)
Definition CrossLinkCompatibility_ToString (crossLinkCompatibility : CrossLinkCompatibility) : string :=
  if (crossLinkCompatibility =? CrossLinkCompatibilityNotSupported) then
    "0 - Not Supported"%string
  else if (crossLinkCompatibility =? CrossLinkCompatibilitySupported) then
    "1 - Supported"%string
  else 
    (dec crossLinkCompatibility ++ " - Unknown code"%string)%string.

(* pkg/modes/fields/downlink_request.go:87-90 *)
Definition ReadDownlinkRequest (message : modes_common.MessageData) : res DownlinkRequest :=
  let* Payload0 := idx message.(modes_common.MessageData_Payload) 0 in
  Ok (Z.shiftr (Z.land Payload0 0xf8) 3).

(* pkg/modes/fields/downlink_request.go:93-162 *)
Definition DownlinkRequest_ToString (downlinkRequest : DownlinkRequest) : string :=
  if (downlinkRequest =? DownlinkRequestNoDownlinkRequest) then
    "0 - No Downlink Request"%string
  else if (downlinkRequest =? DownlinkRequestToSendCommBMessage) then
    "1 - Request To Send Comm-B Message"%string
  else if (downlinkRequest =? DownlinkRequestACASMessageAvailable) then
    "2 - ACAS message available"%string
  else if (downlinkRequest =? DownlinkRequestCommBAndACASMessageAvailable) then
    "3 - Comm-B message available and ACAS message available"%string
  else if (downlinkRequest =? DownlinkRequestCommBMessage1Available) then
    "4 - Comm-B Message 1 Available"%string
  else if (downlinkRequest =? DownlinkRequestCommBMessage2Available) then
    "5 - Comm-B Message 2 Available"%string
  else if (downlinkRequest =? DownlinkRequestCommBMessage1AndACASMessageAvailable) then
    "6 - Comm-B broadcast message 1 available and ACAS message available"%string
  else if (downlinkRequest =? DownlinkRequestCommBMessage2AndACASMessageAvailable) then
    "7 - Comm-B broadcast message 2 available and ACAS message available"%string
  else if (downlinkRequest =? DownlinkRequestNotAssigned8) then
    "8 - Not Assigned"%string
  else if (downlinkRequest =? DownlinkRequestNotAssigned9) then
    "9 - Not Assigned"%string
  else if (downlinkRequest =? DownlinkRequestNotAssigned10) then
    "10 - Not Assigned"%string
  else if (downlinkRequest =? DownlinkRequestNotAssigned11) then
    "11 - Not Assigned"%string
  else if (downlinkRequest =? DownlinkRequestNotAssigned12) then
    "12 - Not Assigned"%string
  else if (downlinkRequest =? DownlinkRequestNotAssigned13) then
    "13 - Not Assigned"%string
  else if (downlinkRequest =? DownlinkRequestNotAssigned14) then
    "14 - Not Assigned"%string
  else if (downlinkRequest =? DownlinkRequestNotAssigned15) then
    "15 - Not Assigned"%string
  else if (downlinkRequest =? DownlinkRequestELMAvailable1Segments) then
    "16 - ELM Available 1 Segments"%string
  else if (downlinkRequest =? DownlinkRequestELMAvailable2Segments) then
    "17 - ELM Available 2 Segments"%string
  else if (downlinkRequest =? DownlinkRequestELMAvailable3Segments) then
    "18 - ELM Available 3 Segments"%string
  else if (downlinkRequest =? DownlinkRequestELMAvailable4Segments) then
    "19 - ELM Available 4 Segments"%string
  else if (downlinkRequest =? DownlinkRequestELMAvailable5Segments) then
    "20 - ELM Available 5 Segments"%string
  else if (downlinkRequest =? DownlinkRequestELMAvailable6Segments) then
    "21 - ELM Available 6 Segments"%string
  else if (downlinkRequest =? DownlinkRequestELMAvailable7Segments) then
    "22 - ELM Available 7 Segments"%string
  else if (downlinkRequest =? DownlinkRequestELMAvailable8Segments) then
    "23 - ELM Available 8 Segments"%string
  else if (downlinkRequest =? DownlinkRequestELMAvailable9Segments) then
    "24 - ELM Available 9 Segments"%string
  else if (downlinkRequest =? DownlinkRequestELMAvailable10Segments) then
    "25 - ELM Available 10 Segment"%string
  else if (downlinkRequest =? DownlinkRequestELMAvailable11Segments) then
    "26 - ELM Available 11 Segments"%string
  else if (downlinkRequest =? DownlinkRequestELMAvailable12Segments) then
    "27 - ELM Available 12 Segments"%string
  else if (downlinkRequest =? DownlinkRequestELMAvailable13Segments) then
    "28 - ELM Available 13 Segments"%string
  else if (downlinkRequest =? DownlinkRequestELMAvailable14Segments) then
    "29 - ELM Available 14 Segments"%string
  else if (downlinkRequest =? DownlinkRequestELMAvailable15Segments) then
    "30 - ELM Available 15 Segments"%string
  else if (downlinkRequest =? DownlinkRequestELMAvailable16Segments) then
    "31 - ELM Available 16 Segments"%string
  else 
    (dec downlinkRequest ++ " - Unknown code"%string)%string.

(* pkg/modes/fields/flight_status.go:39-42 *)
Definition ReadFlightStatus (message : modes_common.MessageData) : FlightStatus :=
  message.(modes_common.MessageData_FirstField).

(* pkg/modes/fields/flight_status.go:45-66 *)
Definition FlightStatus_ToString (flightStatus : FlightStatus) : string :=
  if (flightStatus =? FlightStatusNoAlertNoSPIAirborne) then
    "0 - No Alert, No SPI, Airborne"%string
  else if (flightStatus =? FlightStatusNoAlertNoSPIOnTheGround) then
    "1 - No Alert, No SPI, On The Ground"%string
  else if (flightStatus =? FlightStatusAlertNoSPIAirborne) then
    "2 - Alert, No SPI, Airborne"%string
  else if (flightStatus =? FlightStatusAlertNoSPIOnTheGround) then
    "3 - Alert, No SPI, On The Ground"%string
  else if (flightStatus =? FlightStatusAlertSPIAirborne) then
    "4 - Alert, SPI, Airborne"%string
  else if (flightStatus =? FlightStatusAlertSPIOnTheGround) then
    "5 - Alert, SPI, On The Ground"%string
  else if (flightStatus =? FlightStatusReserved) then
    "6 - Reserved"%string
  else if (flightStatus =? FlightStatusNotAssigned) then
    "7 - Reserved"%string
  else 
    (dec flightStatus ++ " - Unknown code"%string)%string.

(* pkg/modes/fields/identity.go:25-27 *)
Definition Identity_IsSpecialEmergency (identity : Identity) : bool :=
  (String.eqb identity.(Identity_Identity) "7700"%string).

(* pkg/modes/fields/identity.go:31-33 *)
Definition Identity_IsSpecialRadiocommunicationFailure (identity : Identity) : bool :=
  (String.eqb identity.(Identity_Identity) "7600"%string).

(* pkg/modes/fields/identity.go:37-39 *)
Definition Identity_IsSpecialUnlawfulInterference (identity : Identity) : bool :=
  (String.eqb identity.(Identity_Identity) "7500"%string).

(* pkg/modes/fields/identity.go:43-45 *)
Definition Identity_IsSpecialInstructionNotReceived (identity : Identity) : bool :=
  (String.eqb identity.(Identity_Identity) "2000"%string).

(* pkg/modes/fields/identity.go:48-80 *)
Definition ReadIdentity (message : modes_common.MessageData) : res Identity :=
  let* Payload1 := idx message.(modes_common.MessageData_Payload) 1 in
  let* Payload2 := idx message.(modes_common.MessageData_Payload) 2 in
  let identity := (bitutils.Pack2Bytes (Z.land Payload1 0x1f) Payload2) in
  let c1 := (Z.shiftr (Z.land identity 0x1000) 12) in
  let a1 := (Z.shiftr (Z.land identity 0x800) 11) in
  let c2 := (Z.shiftr (Z.land identity 0x400) 10) in
  let a2 := (Z.shiftr (Z.land identity 0x200) 9) in
  let c4 := (Z.shiftr (Z.land identity 0x100) 8) in
  let a4 := (Z.shiftr (Z.land identity 0x80) 7) in
  let b1 := (Z.shiftr (Z.land identity 0x20) 5) in
  let d1 := (Z.shiftr (Z.land identity 0x10) 4) in
  let b2 := (Z.shiftr (Z.land identity 8) 3) in
  let d2 := (Z.shiftr (Z.land identity 4) 2) in
  let b4 := (Z.shiftr (Z.land identity 2) 1) in
  let d4 := (Z.land identity 1) in
  let a := (Z.lor (Z.lor (u16 (Z.shiftl a4 2)) (u16 (Z.shiftl a2 1))) a1) in
  let b := (Z.lor (Z.lor (u16 (Z.shiftl b4 2)) (u16 (Z.shiftl b2 1))) b1) in
  let c := (Z.lor (Z.lor (u16 (Z.shiftl c4 2)) (u16 (Z.shiftl c2 1))) c1) in
  let d := (Z.lor (Z.lor (u16 (Z.shiftl d4 2)) (u16 (Z.shiftl d2 1))) d1) in
  Ok ({| Identity_Identity := (dec a ++ dec b ++ dec c ++ dec d)%string |}).

(* pkg/modes/fields/identity.go:83-97 *)
Definition Identity_ToString (identity : Identity) : string :=
  let special := ""%string in
  let special := if (Identity_IsSpecialEmergency identity) then
    let special := " [Emergency]"%string in
    special
  else 
    let special := if (Identity_IsSpecialInstructionNotReceived identity) then
      let special := " [Instruction Not Received]"%string in
      special
    else 
      let special := if (Identity_IsSpecialRadiocommunicationFailure identity) then
        let special := " [Radiocommunication Failure]"%string in
        special
      else 
        let special := if (Identity_IsSpecialUnlawfulInterference identity) then
          let special := " [Unlawful Interference]"%string in
          special
        else 
          special in
        special in
      special in
    special in
  (identity.(Identity_Identity) ++ special)%string.

(* pkg/modes/fields/message_acas.go:21-36 *)
Definition ReadMessageACAS (message : modes_common.MessageData) : res MessageACAS :=
  let* elt := idx message.(modes_common.MessageData_Payload) (i64 (0 + 3)) in
  let data0 := elt in
  let* elt_1 := idx message.(modes_common.MessageData_Payload) (i64 (1 + 3)) in
  let data1 := elt_1 in
  let* elt_2 := idx message.(modes_common.MessageData_Payload) (i64 (2 + 3)) in
  let data2 := elt_2 in
  let* elt_3 := idx message.(modes_common.MessageData_Payload) (i64 (3 + 3)) in
  let data3 := elt_3 in
  let* elt_4 := idx message.(modes_common.MessageData_Payload) (i64 (4 + 3)) in
  let data4 := elt_4 in
  let* elt_5 := idx message.(modes_common.MessageData_Payload) (i64 (5 + 3)) in
  let data5 := elt_5 in
  let* elt_6 := idx message.(modes_common.MessageData_Payload) (i64 (6 + 3)) in
  let data6 := elt_6 in
  Ok ([data0; data1; data2; data3; data4; data5; data6]).

(* pkg/modes/fields/message_acas.go:39-41 *)
Definition MessageACAS_ToString (messageACAS : MessageACAS) : string :=
  (bytes_str messageACAS).

(* pkg/modes/fields/message_comm_b.go:20-29 *)
Definition ReadMessageCommB (message : modes_common.MessageData) : res MessageCommB :=
  let* elt := idx message.(modes_common.MessageData_Payload) (i64 (0 + 3)) in
  let data0 := elt in
  let* elt_1 := idx message.(modes_common.MessageData_Payload) (i64 (1 + 3)) in
  let data1 := elt_1 in
  let* elt_2 := idx message.(modes_common.MessageData_Payload) (i64 (2 + 3)) in
  let data2 := elt_2 in
  let* elt_3 := idx message.(modes_common.MessageData_Payload) (i64 (3 + 3)) in
  let data3 := elt_3 in
  let* elt_4 := idx message.(modes_common.MessageData_Payload) (i64 (4 + 3)) in
  let data4 := elt_4 in
  let* elt_5 := idx message.(modes_common.MessageData_Payload) (i64 (5 + 3)) in
  let data5 := elt_5 in
  let* elt_6 := idx message.(modes_common.MessageData_Payload) (i64 (6 + 3)) in
  let data6 := elt_6 in
  Ok ([data0; data1; data2; data3; data4; data5; data6]).

(* pkg/modes/fields/message_comm_b.go:32-41 *)
Definition MessageCommB_ToString (messageCommB : MessageCommB) : res string :=
  let* messageCommB0 := idx messageCommB 0 in
  let* messageCommB1 := idx messageCommB 1 in
  let* messageCommB2 := idx messageCommB 2 in
  let* messageCommB3 := idx messageCommB 3 in
  let* messageCommB4 := idx messageCommB 4 in
  let* messageCommB5 := idx messageCommB 5 in
  let* messageCommB6 := idx messageCommB 6 in
  Ok ((hex2 messageCommB0 ++ " "%string ++ hex2 messageCommB1 ++ " "%string ++ hex2 messageCommB2 ++ " "%string ++ hex2 messageCommB3 ++ " "%string ++ hex2 messageCommB4 ++ " "%string ++ hex2 messageCommB5 ++ " "%string ++ hex2 messageCommB6)%string).

(* pkg/modes/fields/message_comm_d.go:22-31 *)
Definition ReadMessageCommD (message : modes_common.MessageData) : res MessageCommD :=
  let* Payload0 := idx message.(modes_common.MessageData_Payload) 0 in
  let data0 := Payload0 in
  let* Payload1 := idx message.(modes_common.MessageData_Payload) 1 in
  let data1 := Payload1 in
  let* Payload2 := idx message.(modes_common.MessageData_Payload) 2 in
  let data2 := Payload2 in
  let* Payload3 := idx message.(modes_common.MessageData_Payload) 3 in
  let data3 := Payload3 in
  let* Payload4 := idx message.(modes_common.MessageData_Payload) 4 in
  let data4 := Payload4 in
  let* Payload5 := idx message.(modes_common.MessageData_Payload) 5 in
  let data5 := Payload5 in
  let* Payload6 := idx message.(modes_common.MessageData_Payload) 6 in
  let data6 := Payload6 in
  let* Payload7 := idx message.(modes_common.MessageData_Payload) 7 in
  let data7 := Payload7 in
  let* Payload8 := idx message.(modes_common.MessageData_Payload) 8 in
  let data8 := Payload8 in
  let* Payload9 := idx message.(modes_common.MessageData_Payload) 9 in
  let data9 := Payload9 in
  Ok ([data0; data1; data2; data3; data4; data5; data6; data7; data8; data9]).

(* pkg/modes/fields/message_comm_d.go:34-46 *)
Definition MessageCommD_ToString (messageCommD : MessageCommD) : res string :=
  let* messageCommD0 := idx messageCommD 0 in
  let* messageCommD1 := idx messageCommD 1 in
  let* messageCommD2 := idx messageCommD 2 in
  let* messageCommD3 := idx messageCommD 3 in
  let* messageCommD4 := idx messageCommD 4 in
  let* messageCommD5 := idx messageCommD 5 in
  let* messageCommD6 := idx messageCommD 6 in
  let* messageCommD7 := idx messageCommD 7 in
  let* messageCommD8 := idx messageCommD 8 in
  let* messageCommD9 := idx messageCommD 9 in
  Ok ((hex2 messageCommD0 ++ " "%string ++ hex2 messageCommD1 ++ " "%string ++ hex2 messageCommD2 ++ " "%string ++ hex2 messageCommD3 ++ " "%string ++ hex2 messageCommD4 ++ " "%string ++ hex2 messageCommD5 ++ " "%string ++ hex2 messageCommD6 ++ " "%string ++ hex2 messageCommD7 ++ " "%string ++ hex2 messageCommD8 ++ " "%string ++ hex2 messageCommD9)%string).

(* pkg/modes/fields/message_extended_squitter.go:22-31 *)
Definition ReadMessageExtendedSquitter (message : modes_common.MessageData) : res MessageExtendedSquitter :=
  let* elt := idx message.(modes_common.MessageData_Payload) (i64 (0 + 3)) in
  let data0 := elt in
  let* elt_1 := idx message.(modes_common.MessageData_Payload) (i64 (1 + 3)) in
  let data1 := elt_1 in
  let* elt_2 := idx message.(modes_common.MessageData_Payload) (i64 (2 + 3)) in
  let data2 := elt_2 in
  let* elt_3 := idx message.(modes_common.MessageData_Payload) (i64 (3 + 3)) in
  let data3 := elt_3 in
  let* elt_4 := idx message.(modes_common.MessageData_Payload) (i64 (4 + 3)) in
  let data4 := elt_4 in
  let* elt_5 := idx message.(modes_common.MessageData_Payload) (i64 (5 + 3)) in
  let data5 := elt_5 in
  let* elt_6 := idx message.(modes_common.MessageData_Payload) (i64 (6 + 3)) in
  let data6 := elt_6 in
  Ok ([data0; data1; data2; data3; data4; data5; data6]).

(* pkg/modes/fields/message_extended_squitter.go:34-43 *)
Definition MessageExtendedSquitter_ToString (messageExtendedSquitter : MessageExtendedSquitter) : res string :=
  let* messageExtendedSquitter0 := idx messageExtendedSquitter 0 in
  let* messageExtendedSquitter1 := idx messageExtendedSquitter 1 in
  let* messageExtendedSquitter2 := idx messageExtendedSquitter 2 in
  let* messageExtendedSquitter3 := idx messageExtendedSquitter 3 in
  let* messageExtendedSquitter4 := idx messageExtendedSquitter 4 in
  let* messageExtendedSquitter5 := idx messageExtendedSquitter 5 in
  let* messageExtendedSquitter6 := idx messageExtendedSquitter 6 in
  Ok ((hex2 messageExtendedSquitter0 ++ " "%string ++ hex2 messageExtendedSquitter1 ++ " "%string ++ hex2 messageExtendedSquitter2 ++ " "%string ++ hex2 messageExtendedSquitter3 ++ " "%string ++ hex2 messageExtendedSquitter4 ++ " "%string ++ hex2 messageExtendedSquitter5 ++ " "%string ++ hex2 messageExtendedSquitter6)%string).

(* pkg/modes/fields/number_of_d_segment.go:20-23 *)
Definition ReadNumberOfDSegment (message : modes_common.MessageData) : NumberOfDSegment :=
  (Z.lor (u8 (Z.shiftl (Z.land message.(modes_common.MessageData_DownLinkFormat) 1) 3)) message.(modes_common.MessageData_FirstField)).

(* pkg/modes/fields/number_of_d_segment.go:26-28 *)
Definition NumberOfDSegment_ToString (numberOfDSegment : NumberOfDSegment) : string :=
  (dec numberOfDSegment).

(* pkg/modes/fields/reply_information_air_air.go:64-69 *)
Definition ReadReplyInformationAirAir (message : modes_common.MessageData) : res ReplyInformationAirAir :=
  let* Payload0 := idx message.(modes_common.MessageData_Payload) 0 in
  let* Payload1 := idx message.(modes_common.MessageData_Payload) 1 in
  let replyInformation := (Z.lor (u8 (Z.shiftl (Z.land Payload0 7) 1)) (Z.shiftr (Z.land Payload1 0x80) 7)) in
  Ok replyInformation.

(* pkg/modes/fields/reply_information_air_air.go:72-109 *)
Definition ReplyInformationAirAir_ToString (replyInformationAirAir : ReplyInformationAirAir) : string :=
  if (replyInformationAirAir =? ReplyInformationNoOperatingACAS) then
    "0 - No Operating ACAS"%string
  else if (replyInformationAirAir =? ReplyInformationReservedACAS1) then
    "1 - Reserved ACAS"%string
  else if (replyInformationAirAir =? ReplyInformationACASResolutionProhibited) then
    "2 - ACAS with resolution capability inhibited"%string
  else if (replyInformationAirAir =? ReplyInformationACASVerticalOnlyResolution) then
    "3 - ACAS with vertical-only resolution capability"%string
  else if (replyInformationAirAir =? ReplyInformationACASVerticalAndHorizontalResolution) then
    "4 - ACAS with vertical and horizontal resolution capability"%string
  else if (replyInformationAirAir =? ReplyInformationReservedACAS5) then
    "5 - Reserved ACAS"%string
  else if (replyInformationAirAir =? ReplyInformationReservedACAS6) then
    "6 - Reserved ACAS"%string
  else if (replyInformationAirAir =? ReplyInformationReservedACAS7) then
    "7 - Reserved ACAS"%string
  else if (replyInformationAirAir =? ReplyInformationMaximumAirSpeedNotAvailable) then
    "8 - Maximum Air Speed Not Available"%string
  else if (replyInformationAirAir =? ReplyInformationMaximumAirSpeed0To140) then
    "9 - Maximum Air Speed 0 To 140 km/h (75 kt)"%string
  else if (replyInformationAirAir =? ReplyInformationMaximumAirSpeed140To280) then
    "10 - Maximum AirSpeed 140 To 280 km/h (75 and 150 kt)"%string
  else if (replyInformationAirAir =? ReplyInformationMaximumAirSpeed280To560) then
    "11 - Maximum AirSpeed 280 To 560 km/h (150 and 300 kt)"%string
  else if (replyInformationAirAir =? ReplyInformationMaximumAirSpeed560To1110) then
    "12 - Maximum AirSpeed 560 To 1110 km/h (300 and 600 kt)"%string
  else if (replyInformationAirAir =? ReplyInformationMaximumAirSpeed1110To2220) then
    "13 - Maximum AirSpeed 1110 To 2220 km/h (600 and 1 200 kt)"%string
  else if (replyInformationAirAir =? ReplyInformationMaximumAirSpeedOver2220) then
    "14 - Maximum Air Speed Over 2220 km/h (1 200 kt)"%string
  else if (replyInformationAirAir =? ReplyInformationNotAssigned) then
    "15 - Not Assigned"%string
  else 
    (dec replyInformationAirAir ++ " - Unknown code"%string)%string.

(* pkg/modes/fields/sensitivity_level_report.go:40-46 *)
Definition ReadSensitivityLevelReport (message : modes_common.MessageData) : res SensitivityLevelReport :=
  let* Payload0 := idx message.(modes_common.MessageData_Payload) 0 in
  let sensitivity := (Z.shiftr (Z.land Payload0 0xe0) 5) in
  Ok sensitivity.

(* pkg/modes/fields/sensitivity_level_report.go:49-70 *)
Definition SensitivityLevelReport_ToString (sensitivityLevelReport : SensitivityLevelReport) : string :=
  if (sensitivityLevelReport =? SensitivityLevelACASInoperative) then
    "0 - ACAS Inoperative"%string
  else if (sensitivityLevelReport =? SensitivityLevel1) then
    "1 - Level 1"%string
  else if (sensitivityLevelReport =? SensitivityLevel2) then
    "2 - Level 2"%string
  else if (sensitivityLevelReport =? SensitivityLevel3) then
    "3 - Level 3"%string
  else if (sensitivityLevelReport =? SensitivityLevel4) then
    "4 - Level 4"%string
  else if (sensitivityLevelReport =? SensitivityLevel5) then
    "5 - Level 5"%string
  else if (sensitivityLevelReport =? SensitivityLevel6) then
    "6 - Level 6"%string
  else if (sensitivityLevelReport =? SensitivityLevel7) then
    "7 - Level 7"%string
  else 
    (dec sensitivityLevelReport ++ " - Unknown code"%string)%string.

(* pkg/modes/fields/utility_message.go:43-52 *)
Definition ReadUtilityMessage (message : modes_common.MessageData) : res UtilityMessage :=
  let* Payload0 := idx message.(modes_common.MessageData_Payload) 0 in
  let* Payload1 := idx message.(modes_common.MessageData_Payload) 1 in
  let ii := (Z.lor (u8 (Z.shiftl (Z.land Payload0 7) 1)) (Z.shiftr (Z.land Payload1 0x80) 7)) in
  let id := (Z.shiftr (Z.land Payload1 0x60) 5) in
  Ok ({| UtilityMessage_InterrogatorIdentifier := ii; UtilityMessage_IdentifierDesignator := id |}).

(* pkg/modes/fields/utility_message.go:55-68 *)
Definition UtilityMessageIdentifierDesignator_ToString (utilityMessageIdentifierDesignator : UtilityMessageIdentifierDesignator) : string :=
  if (utilityMessageIdentifierDesignator =? UtilityMessageIdentifierDesignatorNoInformation) then
    "0 - No Information"%string
  else if (utilityMessageIdentifierDesignator =? UtilityMessageIdentifierDesignatorCommB) then
    "1 - Designator Comm-B"%string
  else if (utilityMessageIdentifierDesignator =? UtilityMessageIdentifierDesignatorCommC) then
    "2 - Designator Comm-C"%string
  else if (utilityMessageIdentifierDesignator =? UtilityMessageIdentifierDesignatorCommD) then
    "3 - Designator Comm-D"%string
  else 
    (dec utilityMessageIdentifierDesignator ++ " - Unknown code"%string)%string.

(* pkg/modes/fields/utility_message.go:71-73 *)
Definition UtilityMessage_ToString (utilityMessage : UtilityMessage) : string :=
  ("InterrogatorIdentifier: "%string ++ dec utilityMessage.(UtilityMessage_InterrogatorIdentifier) ++ ", Reservation: "%string ++ (UtilityMessageIdentifierDesignator_ToString utilityMessage.(UtilityMessage_IdentifierDesignator)))%string.

(* pkg/modes/fields/vertical_status.go:27-32 *)
Definition ReadVerticalStatus (message : modes_common.MessageData) : VerticalStatus :=
  if (negb ((Z.land message.(modes_common.MessageData_FirstField) 4) =? 0)) then
    VerticalStatusOnTheGround
  else 
    VerticalStatusAirborne.

(* pkg/modes/fields/vertical_status.go:35-44 *)
Definition VerticalStatus_ToString (verticalStatus : VerticalStatus) : string :=
  if (verticalStatus =? VerticalStatusAirborne) then
    "0 - Airborne"%string
  else if (verticalStatus =? VerticalStatusOnTheGround) then
    "1 - On The Ground"%string
  else 
    (dec verticalStatus ++ " - Unknown code"%string)%string.
