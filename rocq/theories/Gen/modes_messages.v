(* GENERATED by tools/go2coq.py from /repo/pkg/modes/messages -- do not edit by hand.
   One Gallina definition per Go declaration; each is preceded by the file and lines it models.
   Error values are represented by their text, see DESIGN.md.
*)
From Verif Require Import GoBase.
From Verif.Gen Require modes_common modes_fields.
Local Open Scope Z_scope.

(* pkg/modes/messages/df0.go:17-25 *)
Record MessageDF0 := mkMessageDF0 {
  MessageDF0_MessageData : modes_common.MessageData;
  MessageDF0_VerticalStatus : modes_fields.VerticalStatus;
  MessageDF0_CrossLinkCapability : modes_fields.CrossLinkCompatibility;
  MessageDF0_SensitivityLevel : modes_fields.SensitivityLevelReport;
  MessageDF0_ReplyInformation : modes_fields.ReplyInformationAirAir;
  MessageDF0_AltitudeReportMethod : modes_fields.AltitudeReportMethod;
  MessageDF0_Altitude : Z }.

(* pkg/modes/messages/df11.go:15-19 *)
Record MessageDF11 := mkMessageDF11 {
  MessageDF11_MessageData : modes_common.MessageData;
  MessageDF11_Capability : modes_fields.Capability;
  MessageDF11_AddressAnnounced : modes_fields.AddressAnnounced }.

(* pkg/modes/messages/df16.go:15-23 *)
Record MessageDF16 := mkMessageDF16 {
  MessageDF16_MessageData : modes_common.MessageData;
  MessageDF16_VerticalStatus : modes_fields.VerticalStatus;
  MessageDF16_SensitivityLevel : modes_fields.SensitivityLevelReport;
  MessageDF16_ReplyInformation : modes_fields.ReplyInformationAirAir;
  MessageDF16_AltitudeReportMethod : modes_fields.AltitudeReportMethod;
  MessageDF16_Altitude : Z;
  MessageDF16_MessageACAS : modes_fields.MessageACAS }.

(* pkg/modes/messages/df17.go:15-20 *)
Record MessageDF17 := mkMessageDF17 {
  MessageDF17_MessageData : modes_common.MessageData;
  MessageDF17_Capability : modes_fields.Capability;
  MessageDF17_AddressAnnounced : modes_fields.AddressAnnounced;
  MessageDF17_MessageExtendedSquitter : modes_fields.MessageExtendedSquitter }.

(* pkg/modes/messages/df18.go:15-20 *)
Record MessageDF18 := mkMessageDF18 {
  MessageDF18_MessageData : modes_common.MessageData;
  MessageDF18_ControlField : modes_fields.ControlField;
  MessageDF18_AddressAnnounced : modes_fields.AddressAnnounced;
  MessageDF18_MessageExtendedSquitter : modes_fields.MessageExtendedSquitter }.

(* pkg/modes/messages/df19.go:15-18 *)
Record MessageDF19 := mkMessageDF19 {
  MessageDF19_MessageData : modes_common.MessageData;
  MessageDF19_ApplicationField : modes_fields.ApplicationField }.

(* pkg/modes/messages/df20.go:15-23 *)
Record MessageDF20 := mkMessageDF20 {
  MessageDF20_MessageData : modes_common.MessageData;
  MessageDF20_FlightStatus : modes_fields.FlightStatus;
  MessageDF20_DownlinkRequest : modes_fields.DownlinkRequest;
  MessageDF20_UtilityMessage : modes_fields.UtilityMessage;
  MessageDF20_AltitudeReportMethod : modes_fields.AltitudeReportMethod;
  MessageDF20_Altitude : Z;
  MessageDF20_MessageCommB : modes_fields.MessageCommB }.

(* pkg/modes/messages/df21.go:15-22 *)
Record MessageDF21 := mkMessageDF21 {
  MessageDF21_MessageData : modes_common.MessageData;
  MessageDF21_FlightStatus : modes_fields.FlightStatus;
  MessageDF21_DownlinkRequest : modes_fields.DownlinkRequest;
  MessageDF21_UtilityMessage : modes_fields.UtilityMessage;
  MessageDF21_Identity : modes_fields.Identity;
  MessageDF21_MessageCommB : modes_fields.MessageCommB }.

(* pkg/modes/messages/df24.go:15-20 *)
Record MessageDF24 := mkMessageDF24 {
  MessageDF24_MessageData : modes_common.MessageData;
  MessageDF24_ControlELM : modes_fields.ControlELM;
  MessageDF24_NumberOfDSegment : modes_fields.NumberOfDSegment;
  MessageDF24_MessageCommD : modes_fields.MessageCommD }.

(* pkg/modes/messages/df4.go:15-22 *)
Record MessageDF4 := mkMessageDF4 {
  MessageDF4_MessageData : modes_common.MessageData;
  MessageDF4_FlightStatus : modes_fields.FlightStatus;
  MessageDF4_DownlinkRequest : modes_fields.DownlinkRequest;
  MessageDF4_UtilityMessage : modes_fields.UtilityMessage;
  MessageDF4_AltitudeReportMethod : modes_fields.AltitudeReportMethod;
  MessageDF4_Altitude : Z }.

(* pkg/modes/messages/df5.go:15-21 *)
Record MessageDF5 := mkMessageDF5 {
  MessageDF5_MessageData : modes_common.MessageData;
  MessageDF5_FlightStatus : modes_fields.FlightStatus;
  MessageDF5_DownlinkRequest : modes_fields.DownlinkRequest;
  MessageDF5_UtilityMessage : modes_fields.UtilityMessage;
  MessageDF5_Identity : modes_fields.Identity }.

(* pkg/modes/messages/df0.go:28-30 *)
Definition MessageDF0_GetName (message : MessageDF0) : string :=
  "Short air-air surveillance (ACAS)"%string.

(* pkg/modes/messages/df0.go:33-35 *)
Definition MessageDF0_GetDownLinkFormat (message : MessageDF0) : Z :=
  0.

(* pkg/modes/messages/df0.go:38-67 *)
Definition ParseDF0 (message : modes_common.MessageData) : res MessageDF0 :=
  if (negb (message.(modes_common.MessageData_DownLinkFormat) =? 0)) then
    Err ("DF0 message must have a DownLinkFormat of 0"%string)
  else if (negb ((len message.(modes_common.MessageData_Payload)) =? 3)) then
    Err ("DF0 message must be 7 bytes long"%string)
  else 
    match modes_fields.ReadAltitude message with
    | Ok (altitude, altitudeReportMethod) =>
      let* r := modes_fields.ReadSensitivityLevelReport message in
      let* r_1 := modes_fields.ReadReplyInformationAirAir message in
      Ok ({| MessageDF0_MessageData := message;
      MessageDF0_VerticalStatus := (modes_fields.ReadVerticalStatus message);
      MessageDF0_CrossLinkCapability := (modes_fields.ReadCrossLinkCompatibility message);
      MessageDF0_SensitivityLevel := r;
      MessageDF0_ReplyInformation := r_1;
      MessageDF0_AltitudeReportMethod := altitudeReportMethod;
      MessageDF0_Altitude := altitude |})
    | Err e =>
      Err ("the field Altitude is not readable"%string)
    | Panic => Panic
    end.

(* pkg/modes/messages/df0.go:70-87 *)
Definition MessageDF0_ToString (message : MessageDF0) : string :=
  ("Downlink format:      "%string ++ dec (MessageDF0_GetDownLinkFormat message) ++ " - "%string ++ (MessageDF0_GetName message) ++
      (nl ++ "VerticalStatus:       ")%string ++ (modes_fields.VerticalStatus_ToString message.(MessageDF0_VerticalStatus)) ++
      (nl ++ "CrossLinkCapability:  ")%string ++ (modes_fields.CrossLinkCompatibility_ToString message.(MessageDF0_CrossLinkCapability)) ++
      (nl ++ "SensitivityLevel:     ")%string ++ (modes_fields.SensitivityLevelReport_ToString message.(MessageDF0_SensitivityLevel)) ++
      (nl ++ "ReplyInformation:     ")%string ++ (modes_fields.ReplyInformationAirAir_ToString message.(MessageDF0_ReplyInformation)) ++
      (nl ++ "AltitudeReportMethod: ")%string ++ (modes_fields.AltitudeReportMethod_ToString message.(MessageDF0_AltitudeReportMethod)) ++
      (nl ++ "Altitude:             ")%string ++ dec message.(MessageDF0_Altitude))%string.

(* pkg/modes/messages/df11.go:22-24 *)
Definition MessageDF11_GetName (message : MessageDF11) : string :=
  "All-call reply"%string.

(* pkg/modes/messages/df11.go:27-29 *)
Definition MessageDF11_GetDownLinkFormat (message : MessageDF11) : Z :=
  11.

(* pkg/modes/messages/df11.go:32-51 *)
Definition ParseDF11 (message : modes_common.MessageData) : res MessageDF11 :=
  if (negb (message.(modes_common.MessageData_DownLinkFormat) =? 11)) then
    Err ("DF11 message must have a DownLinkFormat of 11"%string)
  else if (negb ((len message.(modes_common.MessageData_Payload)) =? 3)) then
    Err ("DF11 message must be 7 bytes long"%string)
  else 
    let* r := modes_fields.ReadAddressAnnounced message in
    Ok ({| MessageDF11_MessageData := message;
      MessageDF11_Capability := (modes_fields.ReadCapability message);
      MessageDF11_AddressAnnounced := r |}).

(* pkg/modes/messages/df11.go:54-62 *)
Definition MessageDF11_ToString (message : MessageDF11) : string :=
  ("Downlink format:  "%string ++ dec (MessageDF11_GetDownLinkFormat message) ++ " - "%string ++ (MessageDF11_GetName message) ++
      (nl ++ "Capability:       ")%string ++ (modes_fields.Capability_ToString message.(MessageDF11_Capability)) ++
      (nl ++ "AddressAnnounced: ")%string ++ (modes_fields.AddressAnnounced_ToString message.(MessageDF11_AddressAnnounced)))%string.

(* pkg/modes/messages/df16.go:26-28 *)
Definition MessageDF16_GetName (message : MessageDF16) : string :=
  "Long air-air surveillance (ACAS)"%string.

(* pkg/modes/messages/df16.go:31-33 *)
Definition MessageDF16_GetDownLinkFormat (message : MessageDF16) : Z :=
  16.

(* pkg/modes/messages/df16.go:36-65 *)
Definition ParseDF16 (message : modes_common.MessageData) : res MessageDF16 :=
  if (negb (message.(modes_common.MessageData_DownLinkFormat) =? 16)) then
    Err ("DF16 message must have a DownLinkFormat of 16"%string)
  else if (negb ((len message.(modes_common.MessageData_Payload)) =? 10)) then
    Err ("DF16 message must be 14 bytes long"%string)
  else 
    match modes_fields.ReadAltitude message with
    | Ok (altitude, altitudeReportMethod) =>
      let* r := modes_fields.ReadSensitivityLevelReport message in
      let* r_1 := modes_fields.ReadReplyInformationAirAir message in
      let* r_2 := modes_fields.ReadMessageACAS message in
      Ok ({| MessageDF16_MessageData := message;
      MessageDF16_VerticalStatus := (modes_fields.ReadVerticalStatus message);
      MessageDF16_SensitivityLevel := r;
      MessageDF16_ReplyInformation := r_1;
      MessageDF16_AltitudeReportMethod := altitudeReportMethod;
      MessageDF16_Altitude := altitude;
      MessageDF16_MessageACAS := r_2 |})
    | Err e =>
      Err ("the field Altitude is not readable"%string)
    | Panic => Panic
    end.

(* pkg/modes/messages/df16.go:68-85 *)
Definition MessageDF16_ToString (message : MessageDF16) : string :=
  ("Downlink format:      "%string ++ dec (MessageDF16_GetDownLinkFormat message) ++ " - "%string ++ (MessageDF16_GetName message) ++
      (nl ++ "VerticalStatus:       ")%string ++ (modes_fields.VerticalStatus_ToString message.(MessageDF16_VerticalStatus)) ++
      (nl ++ "SensitivityLevel:     ")%string ++ (modes_fields.SensitivityLevelReport_ToString message.(MessageDF16_SensitivityLevel)) ++
      (nl ++ "ReplyInformation:     ")%string ++ (modes_fields.ReplyInformationAirAir_ToString message.(MessageDF16_ReplyInformation)) ++
      (nl ++ "AltitudeReportMethod: ")%string ++ (modes_fields.AltitudeReportMethod_ToString message.(MessageDF16_AltitudeReportMethod)) ++
      (nl ++ "Altitude:             ")%string ++ dec message.(MessageDF16_Altitude) ++
      (nl ++ "Message ACAS:         ")%string ++ (modes_fields.MessageACAS_ToString message.(MessageDF16_MessageACAS)))%string.

(* pkg/modes/messages/df17.go:23-25 *)
Definition MessageDF17_GetName (message : MessageDF17) : string :=
  "Extended squitter"%string.

(* pkg/modes/messages/df17.go:28-30 *)
Definition MessageDF17_GetDownLinkFormat (message : MessageDF17) : Z :=
  17.

(* pkg/modes/messages/df17.go:33-53 *)
Definition ParseDF17 (message : modes_common.MessageData) : res MessageDF17 :=
  if (negb (message.(modes_common.MessageData_DownLinkFormat) =? 17)) then
    Err ("DF17 message must have a DownLinkFormat of 17"%string)
  else if (negb ((len message.(modes_common.MessageData_Payload)) =? 10)) then
    Err ("DF17 message must be 14 bytes long"%string)
  else 
    let* r := modes_fields.ReadAddressAnnounced message in
    let* r_1 := modes_fields.ReadMessageExtendedSquitter message in
    Ok ({| MessageDF17_MessageData := message;
      MessageDF17_Capability := (modes_fields.ReadCapability message);
      MessageDF17_AddressAnnounced := r;
      MessageDF17_MessageExtendedSquitter := r_1 |}).

(* pkg/modes/messages/df17.go:56-66 *)
Definition MessageDF17_ToString (message : MessageDF17) : res string :=
  let* r := modes_fields.MessageExtendedSquitter_ToString message.(MessageDF17_MessageExtendedSquitter) in
  Ok (("Downlink format:         "%string ++ dec (MessageDF17_GetDownLinkFormat message) ++ " - "%string ++ (MessageDF17_GetName message) ++
      (nl ++ "Capability:              ")%string ++ (modes_fields.Capability_ToString message.(MessageDF17_Capability)) ++
      (nl ++ "AddressAnnounced:        ")%string ++ (modes_fields.AddressAnnounced_ToString message.(MessageDF17_AddressAnnounced)) ++
      (nl ++ "MessageExtendedSquitter: ")%string ++ r)%string).

(* pkg/modes/messages/df18.go:23-25 *)
Definition MessageDF18_GetName (message : MessageDF18) : string :=
  "Extended squitter/non transponder"%string.

(* pkg/modes/messages/df18.go:28-30 *)
Definition MessageDF18_GetDownLinkFormat (message : MessageDF18) : Z :=
  18.

(* pkg/modes/messages/df18.go:33-53 *)
Definition ParseDF18 (message : modes_common.MessageData) : res MessageDF18 :=
  if (negb (message.(modes_common.MessageData_DownLinkFormat) =? 18)) then
    Err ("DF18 message must have a DownLinkFormat of 18"%string)
  else if (negb ((len message.(modes_common.MessageData_Payload)) =? 10)) then
    Err ("DF18 message must be 14 bytes long"%string)
  else 
    let* r := modes_fields.ReadAddressAnnounced message in
    let* r_1 := modes_fields.ReadMessageExtendedSquitter message in
    Ok ({| MessageDF18_MessageData := message;
      MessageDF18_ControlField := (modes_fields.ReadControlField message);
      MessageDF18_AddressAnnounced := r;
      MessageDF18_MessageExtendedSquitter := r_1 |}).

(* pkg/modes/messages/df18.go:56-66 *)
Definition MessageDF18_ToString (message : MessageDF18) : res string :=
  let* r := modes_fields.MessageExtendedSquitter_ToString message.(MessageDF18_MessageExtendedSquitter) in
  Ok (("Downlink format:         "%string ++ dec (MessageDF18_GetDownLinkFormat message) ++ " - "%string ++ (MessageDF18_GetName message) ++
      (nl ++ "ControlField:            ")%string ++ (modes_fields.ControlField_ToString message.(MessageDF18_ControlField)) ++
      (nl ++ "AddressAnnounced:        ")%string ++ (modes_fields.AddressAnnounced_ToString message.(MessageDF18_AddressAnnounced)) ++
      (nl ++ "MessageExtendedSquitter: ")%string ++ r)%string).

(* pkg/modes/messages/df19.go:21-23 *)
Definition MessageDF19_GetName (message : MessageDF19) : string :=
  "Military extended squitter"%string.

(* pkg/modes/messages/df19.go:26-28 *)
Definition MessageDF19_GetDownLinkFormat (message : MessageDF19) : Z :=
  19.

(* pkg/modes/messages/df19.go:31-49 *)
Definition ParseDF19 (message : modes_common.MessageData) : res MessageDF19 :=
  if (negb (message.(modes_common.MessageData_DownLinkFormat) =? 19)) then
    Err ("DF19 message must have a DownLinkFormat of 19"%string)
  else if (negb ((len message.(modes_common.MessageData_Payload)) =? 10)) then
    Err ("DF19 message must be 14 bytes long"%string)
  else 
    Ok ({| MessageDF19_MessageData := message;
      MessageDF19_ApplicationField := (modes_fields.ReadApplicationField message) |}).

(* pkg/modes/messages/df19.go:52-58 *)
Definition MessageDF19_ToString (message : MessageDF19) : string :=
  ("Downlink format:         "%string ++ dec (MessageDF19_GetDownLinkFormat message) ++ " - "%string ++ (MessageDF19_GetName message) ++
      (nl ++ "ApplicationField:        ")%string ++ (modes_fields.ApplicationField_ToString message.(MessageDF19_ApplicationField)))%string.

(* pkg/modes/messages/df20.go:26-28 *)
Definition MessageDF20_GetName (message : MessageDF20) : string :=
  "Comm-B altitude reply"%string.

(* pkg/modes/messages/df20.go:31-33 *)
Definition MessageDF20_GetDownLinkFormat (message : MessageDF20) : Z :=
  20.

(* pkg/modes/messages/df20.go:36-65 *)
Definition ParseDF20 (message : modes_common.MessageData) : res MessageDF20 :=
  if (negb (message.(modes_common.MessageData_DownLinkFormat) =? 20)) then
    Err ("DF20 message must have a DownLinkFormat of 20"%string)
  else if (negb ((len message.(modes_common.MessageData_Payload)) =? 10)) then
    Err ("DF20 message must be 14 bytes long"%string)
  else 
    match modes_fields.ReadAltitude message with
    | Ok (altitude, altitudeReportMethod) =>
      let* r := modes_fields.ReadDownlinkRequest message in
      let* r_1 := modes_fields.ReadUtilityMessage message in
      let* r_2 := modes_fields.ReadMessageCommB message in
      Ok ({| MessageDF20_MessageData := message;
      MessageDF20_FlightStatus := (modes_fields.ReadFlightStatus message);
      MessageDF20_DownlinkRequest := r;
      MessageDF20_UtilityMessage := r_1;
      MessageDF20_AltitudeReportMethod := altitudeReportMethod;
      MessageDF20_Altitude := altitude;
      MessageDF20_MessageCommB := r_2 |})
    | Err e =>
      Err ("the field Altitude is not readable"%string)
    | Panic => Panic
    end.

(* pkg/modes/messages/df20.go:68-85 *)
Definition MessageDF20_ToString (message : MessageDF20) : res string :=
  let* r := modes_fields.MessageCommB_ToString message.(MessageDF20_MessageCommB) in
  Ok (("Downlink format:      "%string ++ dec (MessageDF20_GetDownLinkFormat message) ++ " - "%string ++ (MessageDF20_GetName message) ++
      (nl ++ "FlightStatus:         ")%string ++ (modes_fields.FlightStatus_ToString message.(MessageDF20_FlightStatus)) ++
      (nl ++ "DownlinkRequest:      ")%string ++ (modes_fields.DownlinkRequest_ToString message.(MessageDF20_DownlinkRequest)) ++
      (nl ++ "UtilityMessage:       ")%string ++ (modes_fields.UtilityMessage_ToString message.(MessageDF20_UtilityMessage)) ++
      (nl ++ "AltitudeReportMethod: ")%string ++ (modes_fields.AltitudeReportMethod_ToString message.(MessageDF20_AltitudeReportMethod)) ++
      (nl ++ "Altitude:             ")%string ++ dec message.(MessageDF20_Altitude) ++
      (nl ++ "MessageCommB:         ")%string ++ r)%string).

(* pkg/modes/messages/df21.go:25-27 *)
Definition MessageDF21_GetName (message : MessageDF21) : string :=
  "Comm-B identify reply"%string.

(* pkg/modes/messages/df21.go:30-32 *)
Definition MessageDF21_GetDownLinkFormat (message : MessageDF21) : Z :=
  21.

(* pkg/modes/messages/df21.go:35-57 *)
Definition ParseDF21 (message : modes_common.MessageData) : res MessageDF21 :=
  if (negb (message.(modes_common.MessageData_DownLinkFormat) =? 21)) then
    Err ("DF21 message must have a DownLinkFormat of 21"%string)
  else if (negb ((len message.(modes_common.MessageData_Payload)) =? 10)) then
    Err ("DF21 message must be 14 bytes long"%string)
  else 
    let* r := modes_fields.ReadDownlinkRequest message in
    let* r_1 := modes_fields.ReadUtilityMessage message in
    let* r_2 := modes_fields.ReadIdentity message in
    let* r_3 := modes_fields.ReadMessageCommB message in
    Ok ({| MessageDF21_MessageData := message;
      MessageDF21_FlightStatus := (modes_fields.ReadFlightStatus message);
      MessageDF21_DownlinkRequest := r;
      MessageDF21_UtilityMessage := r_1;
      MessageDF21_Identity := r_2;
      MessageDF21_MessageCommB := r_3 |}).

(* pkg/modes/messages/df21.go:60-74 *)
Definition MessageDF21_ToString (message : MessageDF21) : res string :=
  let* r := modes_fields.MessageCommB_ToString message.(MessageDF21_MessageCommB) in
  Ok (("Downlink format:  "%string ++ dec (MessageDF21_GetDownLinkFormat message) ++ " - "%string ++ (MessageDF21_GetName message) ++
      (nl ++ "FlightStatus:     ")%string ++ (modes_fields.FlightStatus_ToString message.(MessageDF21_FlightStatus)) ++
      (nl ++ "DownlinkRequest:  ")%string ++ (modes_fields.DownlinkRequest_ToString message.(MessageDF21_DownlinkRequest)) ++
      (nl ++ "UtilityMessage:   ")%string ++ (modes_fields.UtilityMessage_ToString message.(MessageDF21_UtilityMessage)) ++
      (nl ++ "Identity:         ")%string ++ (modes_fields.Identity_ToString message.(MessageDF21_Identity)) ++
      (nl ++ "MessageCommB:     ")%string ++ r)%string).

(* pkg/modes/messages/df24.go:23-25 *)
Definition MessageDF24_GetName (message : MessageDF24) : string :=
  "Comm-D (ELM)"%string.

(* pkg/modes/messages/df24.go:28-30 *)
Definition MessageDF24_GetDownLinkFormat (message : MessageDF24) : Z :=
  24.

(* pkg/modes/messages/df24.go:33-53 *)
Definition ParseDF24 (message : modes_common.MessageData) : res MessageDF24 :=
  if (negb ((Z.land message.(modes_common.MessageData_DownLinkFormat) 0x18) =? 24)) then
    Err ("DF24 message must have a DownLinkFormat of 24"%string)
  else if (negb ((len message.(modes_common.MessageData_Payload)) =? 10)) then
    Err ("DF24 message must be 14 bytes long"%string)
  else 
    let* r := modes_fields.ReadMessageCommD message in
    Ok ({| MessageDF24_MessageData := message;
      MessageDF24_ControlELM := (modes_fields.ReadControlELM message);
      MessageDF24_NumberOfDSegment := (modes_fields.ReadNumberOfDSegment message);
      MessageDF24_MessageCommD := r |}).

(* pkg/modes/messages/df24.go:56-66 *)
Definition MessageDF24_ToString (message : MessageDF24) : res string :=
  let* r := modes_fields.MessageCommD_ToString message.(MessageDF24_MessageCommD) in
  Ok (("Downlink format:  "%string ++ dec (MessageDF24_GetDownLinkFormat message) ++ " - "%string ++ (MessageDF24_GetName message) ++
      (nl ++ "ControlELM:       ")%string ++ (modes_fields.ControlELM_ToString message.(MessageDF24_ControlELM)) ++
      (nl ++ "NumberOfDSegment: ")%string ++ (modes_fields.NumberOfDSegment_ToString message.(MessageDF24_NumberOfDSegment)) ++
      (nl ++ "MessageCommD:     ")%string ++ r)%string).

(* pkg/modes/messages/df4.go:25-27 *)
Definition MessageDF4_GetName (message : MessageDF4) : string :=
  "Surveillance, altitude reply"%string.

(* pkg/modes/messages/df4.go:30-32 *)
Definition MessageDF4_GetDownLinkFormat (message : MessageDF4) : Z :=
  4.

(* pkg/modes/messages/df4.go:35-63 *)
Definition ParseDF4 (message : modes_common.MessageData) : res MessageDF4 :=
  if (negb (message.(modes_common.MessageData_DownLinkFormat) =? 4)) then
    Err ("DF4 message must have a DownLinkFormat of 4"%string)
  else if (negb ((len message.(modes_common.MessageData_Payload)) =? 3)) then
    Err ("DF4 message must be 7 bytes long"%string)
  else 
    match modes_fields.ReadAltitude message with
    | Ok (altitude, altitudeReportMethod) =>
      let* r := modes_fields.ReadDownlinkRequest message in
      let* r_1 := modes_fields.ReadUtilityMessage message in
      Ok ({| MessageDF4_MessageData := message;
      MessageDF4_FlightStatus := (modes_fields.ReadFlightStatus message);
      MessageDF4_DownlinkRequest := r;
      MessageDF4_UtilityMessage := r_1;
      MessageDF4_AltitudeReportMethod := altitudeReportMethod;
      MessageDF4_Altitude := altitude |})
    | Err e =>
      Err ("the field Altitude is not readable"%string)
    | Panic => Panic
    end.

(* pkg/modes/messages/df4.go:66-81 *)
Definition MessageDF4_ToString (message : MessageDF4) : string :=
  ("Downlink format:      "%string ++ dec (MessageDF4_GetDownLinkFormat message) ++ " - "%string ++ (MessageDF4_GetName message) ++
      (nl ++ "FlightStatus:         ")%string ++ (modes_fields.FlightStatus_ToString message.(MessageDF4_FlightStatus)) ++
      (nl ++ "DownlinkRequest:      ")%string ++ (modes_fields.DownlinkRequest_ToString message.(MessageDF4_DownlinkRequest)) ++
      (nl ++ "UtilityMessage:       ")%string ++ (modes_fields.UtilityMessage_ToString message.(MessageDF4_UtilityMessage)) ++
      (nl ++ "AltitudeReportMethod: ")%string ++ (modes_fields.AltitudeReportMethod_ToString message.(MessageDF4_AltitudeReportMethod)) ++
      (nl ++ "Altitude:             ")%string ++ dec message.(MessageDF4_Altitude))%string.

(* pkg/modes/messages/df5.go:24-26 *)
Definition MessageDF5_GetName (message : MessageDF5) : string :=
  "Surveillance, identify reply"%string.

(* pkg/modes/messages/df5.go:29-31 *)
Definition MessageDF5_GetDownLinkFormat (message : MessageDF5) : Z :=
  5.

(* pkg/modes/messages/df5.go:34-55 *)
Definition ParseDF5 (message : modes_common.MessageData) : res MessageDF5 :=
  if (negb (message.(modes_common.MessageData_DownLinkFormat) =? 5)) then
    Err ("DF5 message must have a DownLinkFormat of 5"%string)
  else if (negb ((len message.(modes_common.MessageData_Payload)) =? 3)) then
    Err ("DF5 message must be 7 bytes long"%string)
  else 
    let* r := modes_fields.ReadDownlinkRequest message in
    let* r_1 := modes_fields.ReadUtilityMessage message in
    let* r_2 := modes_fields.ReadIdentity message in
    Ok ({| MessageDF5_MessageData := message;
      MessageDF5_FlightStatus := (modes_fields.ReadFlightStatus message);
      MessageDF5_DownlinkRequest := r;
      MessageDF5_UtilityMessage := r_1;
      MessageDF5_Identity := r_2 |}).

(* pkg/modes/messages/df5.go:58-70 *)
Definition MessageDF5_ToString (message : MessageDF5) : string :=
  ("Downlink format:  "%string ++ dec (MessageDF5_GetDownLinkFormat message) ++ " - "%string ++ (MessageDF5_GetName message) ++
      (nl ++ "FlightStatus:     ")%string ++ (modes_fields.FlightStatus_ToString message.(MessageDF5_FlightStatus)) ++
      (nl ++ "DownlinkRequest:  ")%string ++ (modes_fields.DownlinkRequest_ToString message.(MessageDF5_DownlinkRequest)) ++
      (nl ++ "UtilityMessage:   ")%string ++ (modes_fields.UtilityMessage_ToString message.(MessageDF5_UtilityMessage)) ++
      (nl ++ "Identity:         ")%string ++ (modes_fields.Identity_ToString message.(MessageDF5_Identity)))%string.
