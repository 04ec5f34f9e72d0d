(* What a message keeps of the frame it was read from, and the frame its fields make. *)
From Verif Require Import GoBase Bits.
From Verif.Spec Require Import Squitter Reply.
From Verif.Gen Require modes_common modes_messages modes_fields.
From Verif.Model Require Import Crc ModesReader.
Local Open Scope Z_scope.

(* the raw part of a message, whatever its format *)
Definition raw (m : ModeSMessage) : modes_common.MessageData :=
  match m with
  | MDF0 d => modes_messages.MessageDF0_MessageData d
  | MDF4 d => modes_messages.MessageDF4_MessageData d
  | MDF5 d => modes_messages.MessageDF5_MessageData d
  | MDF11 d => modes_messages.MessageDF11_MessageData d
  | MDF16 d => modes_messages.MessageDF16_MessageData d
  | MDF17 d => modes_messages.MessageDF17_MessageData d
  | MDF18 d => modes_messages.MessageDF18_MessageData d
  | MDF19 d => modes_messages.MessageDF19_MessageData d
  | MDF20 d => modes_messages.MessageDF20_MessageData d
  | MDF21 d => modes_messages.MessageDF21_MessageData d
  | MDF24 d => modes_messages.MessageDF24_MessageData d
  end.

(* the bytes it stands for: the format and the first field make the first byte *)
Definition rebuilt (m : ModeSMessage) : list Z :=
  (8 * modes_common.MessageData_DownLinkFormat (raw m) + modes_common.MessageData_FirstField (raw m)) ::
  modes_common.MessageData_Payload (raw m) ++ modes_common.MessageData_Parity (raw m).

(* bytes one after the other, as one field *)
Definition block (l : list Z) : field := (8 * len l, be l).

(* The fields a message stands for, before the parity: those the message gives, at their place, and between them bits it
   does not give (spare bits of the air-air formats, and the code of the altitude or of the squawk, of which the
   message gives the value). *)
Inductive written : ModeSMessage -> list field -> Prop :=
| written_0 d x y z code : written (MDF0 d)
    [(5, 0); (1, modes_messages.MessageDF0_VerticalStatus d); (1, modes_messages.MessageDF0_CrossLinkCapability d); (1, x);
     (3, modes_messages.MessageDF0_SensitivityLevel d); (2, y); (4, modes_messages.MessageDF0_ReplyInformation d); (2, z); (13, code)]
| written_4 d code : written (MDF4 d)
    (surveillance 4 (modes_messages.MessageDF4_FlightStatus d) (modes_messages.MessageDF4_DownlinkRequest d)
       (modes_fields.UtilityMessage_InterrogatorIdentifier (modes_messages.MessageDF4_UtilityMessage d))
       (modes_fields.UtilityMessage_IdentifierDesignator (modes_messages.MessageDF4_UtilityMessage d)) [(13, code)])
| written_5 d code : written (MDF5 d)
    (surveillance 5 (modes_messages.MessageDF5_FlightStatus d) (modes_messages.MessageDF5_DownlinkRequest d)
       (modes_fields.UtilityMessage_InterrogatorIdentifier (modes_messages.MessageDF5_UtilityMessage d))
       (modes_fields.UtilityMessage_IdentifierDesignator (modes_messages.MessageDF5_UtilityMessage d)) [(13, code)])
| written_11 d : written (MDF11 d)
    (all_call (modes_messages.MessageDF11_Capability d) (modes_fields.AddressAnnounced_Address (modes_messages.MessageDF11_AddressAnnounced d)))
| written_16 d x y z code : written (MDF16 d)
    [(5, 16); (1, modes_messages.MessageDF16_VerticalStatus d); (2, x); (3, modes_messages.MessageDF16_SensitivityLevel d); (2, y);
     (4, modes_messages.MessageDF16_ReplyInformation d); (2, z); (13, code); block (modes_messages.MessageDF16_MessageACAS d)]
| written_17 d : written (MDF17 d)
    (header (modes_messages.MessageDF17_Capability d) (modes_fields.AddressAnnounced_Address (modes_messages.MessageDF17_AddressAnnounced d)) ++
     [block (modes_messages.MessageDF17_MessageExtendedSquitter d)])
| written_18 d : written (MDF18 d)
    [(5, 18); (3, modes_messages.MessageDF18_ControlField d);
     (24, modes_fields.AddressAnnounced_Address (modes_messages.MessageDF18_AddressAnnounced d));
     block (modes_messages.MessageDF18_MessageExtendedSquitter d)]
| written_19 d x : written (MDF19 d) [(5, 19); (3, modes_messages.MessageDF19_ApplicationField d); (80, x)]
| written_20 d code : written (MDF20 d)
    (surveillance 20 (modes_messages.MessageDF20_FlightStatus d) (modes_messages.MessageDF20_DownlinkRequest d)
       (modes_fields.UtilityMessage_InterrogatorIdentifier (modes_messages.MessageDF20_UtilityMessage d))
       (modes_fields.UtilityMessage_IdentifierDesignator (modes_messages.MessageDF20_UtilityMessage d)) [(13, code)] ++
     [block (modes_messages.MessageDF20_MessageCommB d)])
| written_21 d code : written (MDF21 d)
    (surveillance 21 (modes_messages.MessageDF21_FlightStatus d) (modes_messages.MessageDF21_DownlinkRequest d)
       (modes_fields.UtilityMessage_InterrogatorIdentifier (modes_messages.MessageDF21_UtilityMessage d))
       (modes_fields.UtilityMessage_IdentifierDesignator (modes_messages.MessageDF21_UtilityMessage d)) [(13, code)] ++
     [block (modes_messages.MessageDF21_MessageCommB d)])
| written_24 d x : written (MDF24 d)
    [(2, 3); (1, x); (1, modes_messages.MessageDF24_ControlELM d); (4, modes_messages.MessageDF24_NumberOfDSegment d);
     block (modes_messages.MessageDF24_MessageCommD d)].

(* the address a squitter announces *)
Definition announced (m : ModeSMessage) : option Z :=
  match m with
  | MDF17 d => Some (modes_fields.AddressAnnounced_Address (modes_messages.MessageDF17_AddressAnnounced d))
  | MDF18 d => Some (modes_fields.AddressAnnounced_Address (modes_messages.MessageDF18_AddressAnnounced d))
  | _ => None
  end.
