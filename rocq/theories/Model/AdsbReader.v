(* Model of pkg/adsb/reader/reader.go and of the interface adsb.Message
   (pkg/adsb/messages.go:8-16). *)
From Verif Require Import GoBase.
From Verif.Gen Require adsb adsb_airborne_position adsb_airborne_velocity
  adsb_aircraft_identification_and_category adsb_aircraft_operational_status
  adsb_aircraft_status adsb_no_position_information adsb_surface_position
  adsb_target_state_and_status.
Local Open Scope Z_scope.

(* The interface is the sum of the types that ReadADSBMessage can return. *)
Inductive Message : Type :=
| ANoPosition (m : adsb_no_position_information.NoPositionInformation)
| AAirborneType0 (m : adsb_airborne_position.AirbornePositionType0)
| AIdentification (m : adsb_aircraft_identification_and_category.AircraftIdentificationAndCategory)
| ASurface (m : adsb_surface_position.Message)
| AAirborne (m : adsb_airborne_position.Message)
| AVelocity (m : adsb_airborne_velocity.AirborneVelocity)
| AStatus (m : adsb_aircraft_status.AircraftStatus)
| ATarget (m : adsb_target_state_and_status.TargetStateAndStatus)
| AOperational (m : adsb_aircraft_operational_status.AircraftOperationalStatus).

(* pkg/adsb/reader/reader.go:33-105 ReadADSBMessage *)
Definition ReadADSBMessage (adsbLevel : adsb.ADSBVersion) (nicSupplementA nicSupplementC : bool)
    (data : list Z) : res Message :=
  if negb (len data =? 7) then
    Err "the data for ADSB message must be 7 bytes long"%string
  else
    let* d0 := idx data 0 in
    let formatTypeCode := Z.shiftr (Z.land d0 0xF8) 3 in
    if formatTypeCode =? 0 then
      (* every index below is evaluated lazily by && in Go; data has 7 bytes *)
      let* d2 := idx data 2 in
      let* d3 := idx data 3 in
      let* d4 := idx data 4 in
      let* d5 := idx data 5 in
      let* d6 := idx data 6 in
      if (Z.land d2 0x0F =? 0) && (d3 =? 0) && (d4 =? 0) && (d5 =? 0) && (d6 =? 0) then
        rmap ANoPosition (adsb_no_position_information.ReadNoPositionInformation adsbLevel data)
      else
        rmap AAirborneType0 (adsb_airborne_position.ReadAirbornePositionType0 adsbLevel data)
    else if (formatTypeCode =? 1) || (formatTypeCode =? 2) || (formatTypeCode =? 3) || (formatTypeCode =? 4) then
      rmap AIdentification
        (adsb_aircraft_identification_and_category.ReadAircraftIdentificationAndCategory adsbLevel data)
    else if (formatTypeCode =? 5) || (formatTypeCode =? 6) || (formatTypeCode =? 7) || (formatTypeCode =? 8) then
      rmap ASurface (adsb_surface_position.ReadSurfacePosition adsbLevel data nicSupplementA nicSupplementC)
    else if (formatTypeCode =? 9) || (formatTypeCode =? 10) || (formatTypeCode =? 11) || (formatTypeCode =? 12)
         || (formatTypeCode =? 13) || (formatTypeCode =? 14) || (formatTypeCode =? 15) || (formatTypeCode =? 16)
         || (formatTypeCode =? 17) || (formatTypeCode =? 18) || (formatTypeCode =? 20) || (formatTypeCode =? 21)
         || (formatTypeCode =? 22) then
      rmap AAirborne (adsb_airborne_position.ReadAirbornePosition adsbLevel data nicSupplementA)
    else if formatTypeCode =? 19 then
      rmap AVelocity (adsb_airborne_velocity.ReadAirborneVelocity adsbLevel data)
    else if formatTypeCode =? 28 then
      rmap AStatus (adsb_aircraft_status.ReadAircraftStatus adsbLevel data)
    else if formatTypeCode =? 29 then
      rmap ATarget (adsb_target_state_and_status.ReadTargetStateAndStatus adsbLevel data)
    else if formatTypeCode =? 31 then
      rmap AOperational (adsb_aircraft_operational_status.ReadAircraftOperationalStatus adsbLevel data)
    else Err ("the formatTypeCode " ++ dec formatTypeCode ++ " is not supported")%string.

(* dynamic dispatch of the three methods of the interface *)
Definition Message_GetADSBVersion (message : Message) : adsb.ADSBVersion :=
  match message with
  | ANoPosition m => adsb_no_position_information.NoPositionInformation_GetADSBVersion m
  | AAirborneType0 m => adsb_airborne_position.AirbornePositionType0_GetADSBVersion m
  | AIdentification m =>
      adsb_aircraft_identification_and_category.AircraftIdentificationAndCategory_GetADSBVersion m
  | ASurface m => adsb_surface_position.IMessage_GetADSBVersion m
  | AAirborne m => adsb_airborne_position.IMessage_GetADSBVersion m
  | AVelocity m => adsb_airborne_velocity.AirborneVelocity_GetADSBVersion m
  | AStatus m => adsb_aircraft_status.AircraftStatus_GetADSBVersion m
  | ATarget m => adsb_target_state_and_status.TargetStateAndStatus_GetADSBVersion m
  | AOperational m => adsb_aircraft_operational_status.AircraftOperationalStatus_GetADSBVersion m
  end.

Definition Message_CheckCoherency (message : Message) : res unit :=
  match message with
  | ANoPosition m => adsb_no_position_information.NoPositionInformation_CheckCoherency m
  | AAirborneType0 m => adsb_airborne_position.AirbornePositionType0_CheckCoherency m
  | AIdentification m =>
      adsb_aircraft_identification_and_category.AircraftIdentificationAndCategory_CheckCoherency m
  | ASurface m => adsb_surface_position.IMessage_CheckCoherency m
  | AAirborne m => adsb_airborne_position.IMessage_CheckCoherency m
  | AVelocity m => adsb_airborne_velocity.AirborneVelocity_CheckCoherency m
  | AStatus m => adsb_aircraft_status.AircraftStatus_CheckCoherency m
  | ATarget m => adsb_target_state_and_status.TargetStateAndStatus_CheckCoherency m
  | AOperational m => adsb_aircraft_operational_status.AircraftOperationalStatus_CheckCoherency m
  end.

Definition Message_ToString (ffmt : spec_float -> string) (matan2 : f64 -> f64 -> f64)
    (message : Message) : res string :=
  match message with
  | ANoPosition m => Ok (adsb_no_position_information.NoPositionInformation_ToString m)
  | AAirborneType0 m => Ok (adsb_airborne_position.AirbornePositionType0_ToString m)
  | AIdentification m =>
      Ok (adsb_aircraft_identification_and_category.AircraftIdentificationAndCategory_ToString m)
  | ASurface m => Ok (adsb_surface_position.IMessage_ToString ffmt m)
  | AAirborne m => Ok (adsb_airborne_position.IMessage_ToString m)
  | AVelocity m => adsb_airborne_velocity.AirborneVelocity_ToString ffmt matan2 m
  | AStatus m => adsb_aircraft_status.AircraftStatus_ToString ffmt m
  | ATarget m => Ok (adsb_target_state_and_status.TargetStateAndStatus_ToString ffmt m)
  | AOperational m => Ok (adsb_aircraft_operational_status.AircraftOperationalStatus_ToString m)
  end.
