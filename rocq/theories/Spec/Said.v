(* What an aircraft said last of itself in its squitters: its callsign, its emergency, its velocity; and a receiver that
   keeps these for each address. *)
From Verif Require Import GoBase Bits.
From Verif.Spec Require Import Squitter.
From Verif.Gen Require modes_messages bds08 bds09 bds61 adsb_aircraft_identification_and_category adsb_aircraft_status adsb_airborne_velocity.
From Verif.Model Require Import Crc ModesReader AdsbReader.
From Coq Require Import List.
Local Open Scope Z_scope.

(* ---- what is sent ---- *)

(* after these frames, the last squitter of the aircraft that is about the subject *)
Inductive last_sent (about : list Z -> Prop) (icao : Z) : list (list Z) -> option (list Z) -> Prop :=
| sent_nothing : last_sent about icao [] None
| sent_about frames frame before capability payload :
    last_sent about icao frames before -> Squitter capability icao payload frame -> about (message payload) ->
    last_sent about icao (frames ++ [frame]) (Some (message payload))
| sent_other frames frame before :
    last_sent about icao frames before -> bytes frame ->
    (forall capability payload, Squitter capability icao payload frame -> ~ about (message payload)) ->
    last_sent about icao (frames ++ [frame]) before.

(* the subjects: identification (types 1 to 4), emergency (type 28, subtype 1, whose last 32 bits are reserved and 0),
   velocity (type 19, subtypes 1 to 4) *)
Definition about_callsign (data : list Z) : Prop := 1 <= bits 1 5 data <= 4.
Definition about_emergency (data : list Z) : Prop := bits 1 5 data = 28 /\ bits 6 8 data = 1 /\ bits 25 56 data = 0.
Definition about_velocity (data : list Z) : Prop := bits 1 5 data = 19 /\ 1 <= bits 6 8 data <= 4.

(* ---- the receiver ---- *)

Definition callsign_of (m : AdsbReader.Message) : option string :=
  match m with
  | AIdentification x =>
      Some (bds08.AircraftIdentificationAndCategory_Identification
        (adsb_aircraft_identification_and_category.AircraftIdentificationAndCategory_AircraftIdentificationAndCategory x))
  | _ => None
  end.
Definition emergency_of (m : AdsbReader.Message) : option (Z * Z) :=
  match m with
  | AStatus x =>
      match adsb_aircraft_status.AircraftStatus_AircraftStatus x with
      | bds61.IAircraftStatus_AircraftStatusEmergency e =>
          Some (bds61.AircraftStatusEmergency_EmergencyPriorityStatus e, bds61.AircraftStatusEmergency_ModeACode e)
      | _ => None
      end
  | _ => None
  end.
Definition velocity_of_message (m : AdsbReader.Message) : option bds09.AirborneVelocity :=
  match m with
  | AVelocity x => Some (adsb_airborne_velocity.AirborneVelocity_AirborneVelocity x)
  | _ => None
  end.

(* on each frame: it is read and checked, and what is looked for in the message is kept under the address *)
Definition note {A : Type} (pick : AdsbReader.Message -> option A) (version : Z) (nicA nicC : bool) (table : Z -> option A) (frame : list Z) : Z -> option A :=
  match ReadMessage frame with
  | Ok (MDF17 d) =>
      match CheckCRC (MDF17 d) frame [] [] with
      | Ok address =>
          match ReadADSBMessage version nicA nicC (modes_messages.MessageDF17_MessageExtendedSquitter d) with
          | Ok m => match pick m with
                    | Some x => fun icao => if icao =? address then Some x else table icao
                    | None => table
                    end
          | _ => table
          end
      | _ => table
      end
  | _ => table
  end.

Definition noted {A : Type} (pick : AdsbReader.Message -> option A) (version : Z) (nicA nicC : bool) (frames : list (list Z)) : Z -> option A :=
  fold_left (note pick version nicA nicC) frames (fun _ => None).
