(* A message without its raw part: two messages that differ at most by it. *)
From Verif Require Import GoBase.
From Verif.Gen Require modes_common modes_messages modes_fields.
From Verif.Model Require Import Crc ModesReader.
Local Open Scope Z_scope.

(* every field of the message but the raw part, which is this one *)
Definition with_raw (raw : modes_common.MessageData) (m : ModeSMessage) : ModeSMessage :=
  match m with
  | MDF0 d => MDF0
      {| modes_messages.MessageDF0_MessageData := raw;
         modes_messages.MessageDF0_VerticalStatus := modes_messages.MessageDF0_VerticalStatus d;
         modes_messages.MessageDF0_CrossLinkCapability := modes_messages.MessageDF0_CrossLinkCapability d;
         modes_messages.MessageDF0_SensitivityLevel := modes_messages.MessageDF0_SensitivityLevel d;
         modes_messages.MessageDF0_ReplyInformation := modes_messages.MessageDF0_ReplyInformation d;
         modes_messages.MessageDF0_AltitudeReportMethod := modes_messages.MessageDF0_AltitudeReportMethod d;
         modes_messages.MessageDF0_Altitude := modes_messages.MessageDF0_Altitude d |}
  | MDF4 d => MDF4
      {| modes_messages.MessageDF4_MessageData := raw;
         modes_messages.MessageDF4_FlightStatus := modes_messages.MessageDF4_FlightStatus d;
         modes_messages.MessageDF4_DownlinkRequest := modes_messages.MessageDF4_DownlinkRequest d;
         modes_messages.MessageDF4_UtilityMessage := modes_messages.MessageDF4_UtilityMessage d;
         modes_messages.MessageDF4_AltitudeReportMethod := modes_messages.MessageDF4_AltitudeReportMethod d;
         modes_messages.MessageDF4_Altitude := modes_messages.MessageDF4_Altitude d |}
  | MDF5 d => MDF5
      {| modes_messages.MessageDF5_MessageData := raw;
         modes_messages.MessageDF5_FlightStatus := modes_messages.MessageDF5_FlightStatus d;
         modes_messages.MessageDF5_DownlinkRequest := modes_messages.MessageDF5_DownlinkRequest d;
         modes_messages.MessageDF5_UtilityMessage := modes_messages.MessageDF5_UtilityMessage d;
         modes_messages.MessageDF5_Identity := modes_messages.MessageDF5_Identity d |}
  | MDF11 d => MDF11
      {| modes_messages.MessageDF11_MessageData := raw;
         modes_messages.MessageDF11_Capability := modes_messages.MessageDF11_Capability d;
         modes_messages.MessageDF11_AddressAnnounced := modes_messages.MessageDF11_AddressAnnounced d |}
  | MDF16 d => MDF16
      {| modes_messages.MessageDF16_MessageData := raw;
         modes_messages.MessageDF16_VerticalStatus := modes_messages.MessageDF16_VerticalStatus d;
         modes_messages.MessageDF16_SensitivityLevel := modes_messages.MessageDF16_SensitivityLevel d;
         modes_messages.MessageDF16_ReplyInformation := modes_messages.MessageDF16_ReplyInformation d;
         modes_messages.MessageDF16_AltitudeReportMethod := modes_messages.MessageDF16_AltitudeReportMethod d;
         modes_messages.MessageDF16_Altitude := modes_messages.MessageDF16_Altitude d;
         modes_messages.MessageDF16_MessageACAS := modes_messages.MessageDF16_MessageACAS d |}
  | MDF17 d => MDF17
      {| modes_messages.MessageDF17_MessageData := raw;
         modes_messages.MessageDF17_Capability := modes_messages.MessageDF17_Capability d;
         modes_messages.MessageDF17_AddressAnnounced := modes_messages.MessageDF17_AddressAnnounced d;
         modes_messages.MessageDF17_MessageExtendedSquitter := modes_messages.MessageDF17_MessageExtendedSquitter d |}
  | MDF18 d => MDF18
      {| modes_messages.MessageDF18_MessageData := raw;
         modes_messages.MessageDF18_ControlField := modes_messages.MessageDF18_ControlField d;
         modes_messages.MessageDF18_AddressAnnounced := modes_messages.MessageDF18_AddressAnnounced d;
         modes_messages.MessageDF18_MessageExtendedSquitter := modes_messages.MessageDF18_MessageExtendedSquitter d |}
  | MDF19 d => MDF19
      {| modes_messages.MessageDF19_MessageData := raw;
         modes_messages.MessageDF19_ApplicationField := modes_messages.MessageDF19_ApplicationField d |}
  | MDF20 d => MDF20
      {| modes_messages.MessageDF20_MessageData := raw;
         modes_messages.MessageDF20_FlightStatus := modes_messages.MessageDF20_FlightStatus d;
         modes_messages.MessageDF20_DownlinkRequest := modes_messages.MessageDF20_DownlinkRequest d;
         modes_messages.MessageDF20_UtilityMessage := modes_messages.MessageDF20_UtilityMessage d;
         modes_messages.MessageDF20_AltitudeReportMethod := modes_messages.MessageDF20_AltitudeReportMethod d;
         modes_messages.MessageDF20_Altitude := modes_messages.MessageDF20_Altitude d;
         modes_messages.MessageDF20_MessageCommB := modes_messages.MessageDF20_MessageCommB d |}
  | MDF21 d => MDF21
      {| modes_messages.MessageDF21_MessageData := raw;
         modes_messages.MessageDF21_FlightStatus := modes_messages.MessageDF21_FlightStatus d;
         modes_messages.MessageDF21_DownlinkRequest := modes_messages.MessageDF21_DownlinkRequest d;
         modes_messages.MessageDF21_UtilityMessage := modes_messages.MessageDF21_UtilityMessage d;
         modes_messages.MessageDF21_Identity := modes_messages.MessageDF21_Identity d;
         modes_messages.MessageDF21_MessageCommB := modes_messages.MessageDF21_MessageCommB d |}
  | MDF24 d => MDF24
      {| modes_messages.MessageDF24_MessageData := raw;
         modes_messages.MessageDF24_ControlELM := modes_messages.MessageDF24_ControlELM d;
         modes_messages.MessageDF24_NumberOfDSegment := modes_messages.MessageDF24_NumberOfDSegment d;
         modes_messages.MessageDF24_MessageCommD := modes_messages.MessageDF24_MessageCommD d |}
  end.

(* the same format, and the same value of every decoded field *)
Definition alike (m m' : ModeSMessage) : Prop := forall raw, with_raw raw m = with_raw raw m'.
