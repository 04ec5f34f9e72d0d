(* The registers that an aircraft answers to Comm-B interrogations, and a receiver that keeps, for each aircraft it knows,
   the last register of a kind. *)
From Verif Require Import GoBase Bits.
From Verif.Spec Require Import Altitude ModeS Crc Squitter Reply Adsb Identification CommB.
From Verif.Gen Require modes_messages bds20 bds50 bds60.
From Verif.Model Require Import Crc ModesReader CommbReader.
From Coq Require Import List.
Local Open Scope Z_scope.

(* ---- what an aircraft answers ---- *)

(* a Comm-B reply: with an altitude (which means one: otherwise the frame is refused as a whole) or with a squawk; the
   register it carries is in its octets 5 to 11 *)
Definition commb_reply (frame : list Z) : Prop :=
  len frame = 14 /\ (bits 1 5 frame = 20 /\ (exists coding feet, Altitude13 frame coding feet) \/ bits 1 5 frame = 21).
Definition register_of (frame : list Z) : list Z := octets 5 11 frame.

(* After these frames: whether the aircraft is known (it was at the start, or a squitter told its address), and the last
   register about the subject that it answered since then *)
Inductive last_answer (about : list Z -> Prop) (icao : Z) (start : bool) : list (list Z) -> bool -> option (list Z) -> Prop :=
| answer_nothing : last_answer about icao start [] start None
| answer_address frames frame known before capability payload :
    last_answer about icao start frames known before -> Squitter capability icao payload frame ->
    last_answer about icao start (frames ++ [frame]) true before
| answer_register frames frame known before fields :
    last_answer about icao start frames known before ->
    Reply fields icao frame -> commb_reply frame -> about (register_of frame) ->
    last_answer about icao start (frames ++ [frame]) known (if known then Some (register_of frame) else before)
| answer_other frames frame known before :
    last_answer about icao start frames known before -> bytes frame ->
    (forall capability payload, ~ Squitter capability icao payload frame) ->
    (forall fields, Reply fields icao frame -> commb_reply frame -> ~ about (register_of frame)) ->
    last_answer about icao start (frames ++ [frame]) known before.

(* A reply does not say which register it carries. The subjects, by what the registers look like: a callsign; a track
   and turn report or a heading and speed report, when the field is neither empty nor a status (0,7) nor a callsign *)
Definition about_identity (data : list Z) : Prop := recognised_20 data /\ legal_characters data.
Definition taken (data : list Z) : Prop :=
  bits 1 56 data = 0 \/ (bits 4 6 data = 0 /\ bits 9 56 data = 0 /\ coherent_07 data) \/ about_identity data.
Definition about_track (data : list Z) : Prop := coherent_50 data /\ ~ taken data.
Definition about_heading (data : list Z) : Prop := coherent_60 data /\ ~ taken data.

(* ---- the receiver ---- *)

Definition identity_of (m : CommbReader.Message) : option string :=
  match m with B20 x => Some (bds20.AircraftIdentification_Identification x) | _ => None end.
Definition track_of_register (m : CommbReader.Message) : option bds50.TrackAndTurnReport :=
  match m with B50 x => Some x | _ => None end.
Definition heading_of_register (m : CommbReader.Message) : option bds60.HeadingAndTrackReport :=
  match m with B60 x => Some x | _ => None end.

(* the first of the candidates in which there is what is looked for *)
Fixpoint first {A : Type} (pick : CommbReader.Message -> option A) (l : list CommbReader.Message) : option A :=
  match l with
  | [] => None
  | m :: rest => match pick m with Some x => Some x | None => first pick rest end
  end.

(* on each frame: it is read, and its parity checked with the addresses known so far *)
Definition keep_first {A : Type} (pick : CommbReader.Message -> option A) (address : Z) (data : list Z) (table : Z -> option A) : Z -> option A :=
  match ReadCommBMessage data with
  | Ok l => match first pick l with
            | Some x => fun icao => if icao =? address then Some x else table icao
            | None => table
            end
  | _ => table
  end.
Definition listen {A : Type} (pick : CommbReader.Message -> option A) (r : list (Z * bool) * (Z -> option A)) (frame : list Z)
  : list (Z * bool) * (Z -> option A) :=
  match ReadMessage frame with
  | Ok m =>
      match CheckCRC m frame (fst r) [] with
      | Ok address =>
          match m with
          | MDF17 _ => ((address, true) :: fst r, snd r)
          | MDF20 d => (fst r, keep_first pick address (modes_messages.MessageDF20_MessageCommB d) (snd r))
          | MDF21 d => (fst r, keep_first pick address (modes_messages.MessageDF21_MessageCommB d) (snd r))
          | _ => r
          end
      | _ => r
      end
  | _ => r
  end.
Definition listened {A : Type} (pick : CommbReader.Message -> option A) (addresses : list (Z * bool)) (frames : list (list Z))
  : list (Z * bool) * (Z -> option A) :=
  fold_left (listen pick) frames (addresses, fun _ => None).
