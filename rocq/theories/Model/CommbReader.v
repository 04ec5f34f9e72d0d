(* Model of pkg/commb/reader.go and of the interface bds.Message
   (pkg/bds/message.go:9-17), restricted to the registers Comm-B uses. *)
From Verif Require Import GoBase.
From Verif.Gen Require bds_register bds00 bds07 bds10 bds17 bds20 bds30 bds40 bds44 bds45 bds50 bds60.
Local Open Scope Z_scope.

Inductive Message : Type :=
| B00 (m : bds00.NoMessageAvailable)
| B07 (m : bds07.Status)
| B10 (m : bds10.DataLinkCapabilityReport)
| B17 (m : bds17.CommonUsageGICBCapabilityReport)
| B20 (m : bds20.AircraftIdentification)
| B30 (m : bds30.ACASResolutionAdvisory)
| B40 (m : bds40.SelectedVerticalIntention)
| B44 (m : bds44.MeteorologicalRoutineAirReport)
| B45 (m : bds45.MeteorologicalHazardReport)
| B50 (m : bds50.TrackAndTurnReport)
| B60 (m : bds60.HeadingAndTrackReport).

(* dynamic dispatch of the methods of the interface *)
Definition Message_CheckCoherency (message : Message) : res unit :=
  match message with
  | B00 m => bds00.NoMessageAvailable_CheckCoherency m
  | B07 m => bds07.Status_CheckCoherency m
  | B10 m => bds10.DataLinkCapabilityReport_CheckCoherency m
  | B17 m => bds17.CommonUsageGICBCapabilityReport_CheckCoherency m
  | B20 m => bds20.AircraftIdentification_CheckCoherency m
  | B30 m => bds30.ACASResolutionAdvisory_CheckCoherency m
  | B40 m => bds40.SelectedVerticalIntention_CheckCoherency m
  | B44 m => bds44.IMeteorologicalRoutineAirReport_CheckCoherency m
  | B45 m => bds45.IMeteorologicalHazardReport_CheckCoherency m
  | B50 m => bds50.TrackAndTurnReport_CheckCoherency m
  | B60 m => bds60.HeadingAndTrackReport_CheckCoherency m
  end.

Definition Message_GetRegister (message : Message) : bds_register.Register :=
  match message with
  | B00 m => bds00.NoMessageAvailable_GetRegister m
  | B07 m => bds07.Status_GetRegister m
  | B10 m => bds10.DataLinkCapabilityReport_GetRegister m
  | B17 m => bds17.CommonUsageGICBCapabilityReport_GetRegister m
  | B20 m => bds20.AircraftIdentification_GetRegister m
  | B30 m => bds30.ACASResolutionAdvisory_GetRegister m
  | B40 m => bds40.SelectedVerticalIntention_GetRegister m
  | B44 m => bds44.IMeteorologicalRoutineAirReport_GetRegister m
  | B45 m => bds45.IMeteorologicalHazardReport_GetRegister m
  | B50 m => bds50.TrackAndTurnReport_GetRegister m
  | B60 m => bds60.HeadingAndTrackReport_GetRegister m
  end.

Definition Message_ToString (ffmt : spec_float -> string) (message : Message) : res string :=
  match message with
  | B00 m => Ok (bds00.NoMessageAvailable_ToString m)
  | B07 m => Ok (bds07.Status_ToString m)
  | B10 m => Ok (bds10.DataLinkCapabilityReport_ToString m)
  | B17 m => Ok (bds17.CommonUsageGICBCapabilityReport_ToString m)
  | B20 m => Ok (bds20.AircraftIdentification_ToString m)
  | B30 m => bds30.ACASResolutionAdvisory_ToString ffmt m
  | B40 m => Ok (bds40.SelectedVerticalIntention_ToString ffmt m)
  | B44 m => Ok (bds44.IMeteorologicalRoutineAirReport_ToString ffmt m)
  | B45 m => Ok (bds45.IMeteorologicalHazardReport_ToString ffmt m)
  | B50 m => Ok (bds50.TrackAndTurnReport_ToString ffmt m)
  | B60 m => Ok (bds60.HeadingAndTrackReport_ToString ffmt m)
  end.

(* "message, err = read(data); if err == nil { messages = append(messages, message) }":
   a panic of the reader is a panic of the caller *)
Definition tryAppend {A : Type} (inj : A -> Message) (r : res A) (messages : list Message)
  : res (list Message) :=
  match r with
  | Ok m => Ok (messages ++ [inj m])%list
  | Err _ => Ok messages
  | Panic => Panic
  end.

(* pkg/commb/reader.go:97-102: the loop keeping the coherent messages *)
Fixpoint keepCoherent (messages : list Message) : res (list Message) :=
  match messages with
  | [] => Ok []
  | m :: rest =>
      match Message_CheckCoherency m with
      | Ok _ => let* r := keepCoherent rest in Ok (m :: r)
      | Err _ => keepCoherent rest
      | Panic => Panic
      end
  end.

(* "message, err = read(data); if err == nil && message.CheckCoherency() == nil
   { return only message }, otherwise k" *)
Definition exclusively {A : Type} (inj : A -> Message) (r : res A) (k : res (list Message))
  : res (list Message) :=
  match r with
  | Ok m => match Message_CheckCoherency (inj m) with
            | Ok _ => Ok [inj m]
            | Err _ => k
            | Panic => Panic
            end
  | Err _ => k
  | Panic => Panic
  end.

(* pkg/commb/reader.go:26-105 ReadCommBMessage *)
Definition ReadCommBMessage (data : list Z) : res (list Message) :=
  if negb (len data =? 7) then
    Err "the data for Comm-B message must be 7 bytes long"%string
  else
    match bds00.ReadNoMessageAvailable data with
    | Ok m => Ok [B00 m]
    | Panic => Panic
    | Err _ =>
        exclusively B07 (bds07.ReadStatus data) (
        exclusively B20 (bds20.ReadAircraftIdentification data) (
        let messages := [] in
        let* messages := tryAppend B10 (bds10.ReadDataLinkCapabilityReport data) messages in
        let* messages := tryAppend B17 (bds17.ReadCommonUsageGICBCapabilityReport data) messages in
        let* messages := tryAppend B30 (bds30.ReadACASResolutionAdvisory data) messages in
        let* messages := tryAppend B40 (bds40.ReadSelectedVerticalIntention data) messages in
        let* messages := tryAppend B44 (bds44.ReadMeteorologicalRoutineAirReport data) messages in
        let* messages := tryAppend B45 (bds45.ReadMeteorologicalHazardReport data) messages in
        let* messages := tryAppend B50 (bds50.ReadTrackAndTurnReport data) messages in
        let* messages := tryAppend B60 (bds60.ReadHeadingAndSpeedReport data) messages in
        keepCoherent messages))
    end.
