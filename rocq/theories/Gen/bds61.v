(* GENERATED by tools/go2coq.py from /repo/pkg/bds/bds61 -- do not edit by hand.
   One Gallina definition per Go declaration; each is preceded by the file and lines it models.
   Error values are represented by their text, see DESIGN.md.
*)
From Verif Require Import GoBase.
From Verif.Gen Require acas_ra bds61_fields bds_register bitutils.
Local Open Scope Z_scope.

(* pkg/bds/bds61/aircraft_status_no_information.go:12-16 *)
Record AircraftStatusNoInformation := mkAircraftStatusNoInformation {
  AircraftStatusNoInformation_FormatTypeCode : Z;
  AircraftStatusNoInformation_Subtype : bds61_fields.Subtype;
  AircraftStatusNoInformation_EmergencyPriorityStatus : bds61_fields.EmergencyPriorityStatus }.

(* pkg/bds/bds61/aircraft_status_emergency.go:12-17 *)
Record AircraftStatusEmergency := mkAircraftStatusEmergency {
  AircraftStatusEmergency_FormatTypeCode : Z;
  AircraftStatusEmergency_Subtype : bds61_fields.Subtype;
  AircraftStatusEmergency_EmergencyPriorityStatus : bds61_fields.EmergencyPriorityStatus;
  AircraftStatusEmergency_ModeACode : Z }.

(* pkg/bds/bds61/aircraft_status_acas.go:12-16 *)
Record AircraftStatusACAS := mkAircraftStatusACAS {
  AircraftStatusACAS_FormatTypeCode : Z;
  AircraftStatusACAS_Subtype : bds61_fields.Subtype;
  AircraftStatusACAS_ResolutionAdvisory : acas_ra.ResolutionAdvisory }.

(* pkg/bds/bds61/aircraft_status.go:9-12
   Go interface AircraftStatus, as the sum of the types that implement it *)
Inductive AircraftStatus :=
| IAircraftStatus_AircraftStatusNoInformation (m : AircraftStatusNoInformation)
| IAircraftStatus_AircraftStatusEmergency (m : AircraftStatusEmergency)
| IAircraftStatus_AircraftStatusACAS (m : AircraftStatusACAS).

(* pkg/bds/bds61/aircraft_status_acas.go:18-20 *)
Definition AircraftStatusACAS_GetSubtype (message : AircraftStatusACAS) : bds61_fields.Subtype :=
  message.(AircraftStatusACAS_Subtype).

(* pkg/bds/bds61/aircraft_status_acas.go:23-25 *)
Definition AircraftStatusACAS_GetRegister (message : AircraftStatusACAS) : bds_register.Register :=
  bds_register.BDS61.

(* pkg/bds/bds61/aircraft_status_acas.go:28-30 *)
Definition AircraftStatusACAS_CheckCoherency (message : AircraftStatusACAS) : res unit :=
  Ok tt.

(* pkg/bds/bds61/aircraft_status_acas.go:33-41 *)
Definition AircraftStatusACAS_ToString (ffmt : spec_float -> string) (message : AircraftStatusACAS) : res string :=
  let* r := acas_ra.ResolutionAdvisory_ToString ffmt message.(AircraftStatusACAS_ResolutionAdvisory) in
  Ok (("Message:                   "%string ++ (bds_register.Register_ToString (AircraftStatusACAS_GetRegister message)) ++
      (nl ++ "Subtype:                   ")%string ++ (bds61_fields.Subtype_ToString message.(AircraftStatusACAS_Subtype)) ++
      (nl ++ "ACAS Data:                 " ++ nl)%string ++ r)%string).

(* pkg/bds/bds61/aircraft_status_acas.go:44-70 *)
Definition ReadAircraftStatusACAS (data : list Z) : res AircraftStatusACAS :=
  if (negb ((len data) =? 7)) then
    Err ("the data must be 7 bytes long ("%string ++ dec (len data) ++ " given)"%string)%string
  else 
    let* data0 := idx data 0 in
    let formatTypeCode := (Z.shiftr (Z.land data0 0xf8) 3) in
    if (negb (formatTypeCode =? 28)) then
      Err ("the field FormatTypeCode must be 28, got "%string ++ dec formatTypeCode)%string
    else 
      let* r := bds61_fields.ReadSubtype data in
      let subType := r in
      if (negb (subType =? bds61_fields.SubtypeRABroadcast)) then
        Err ("the data are given for subtype "%string ++ (bds61_fields.Subtype_ToString subType) ++ " format and can not be read by ReadAircraftStatusACAS"%string)%string
      else 
        let* sub := slice data 1 (len data) in
        match acas_ra.ReadResolutionAdvisory sub with
        | Ok resolutionAdvisory =>
          Ok ({| AircraftStatusACAS_FormatTypeCode := formatTypeCode;
      AircraftStatusACAS_Subtype := subType;
      AircraftStatusACAS_ResolutionAdvisory := resolutionAdvisory |})
        | Err e =>
          Err e
        | Panic => Panic
        end.

(* pkg/bds/bds61/aircraft_status_emergency.go:19-21 *)
Definition AircraftStatusEmergency_GetSubtype (message : AircraftStatusEmergency) : bds61_fields.Subtype :=
  message.(AircraftStatusEmergency_Subtype).

(* pkg/bds/bds61/aircraft_status_emergency.go:24-26 *)
Definition AircraftStatusEmergency_GetRegister (message : AircraftStatusEmergency) : bds_register.Register :=
  bds_register.BDS61.

(* pkg/bds/bds61/aircraft_status_emergency.go:29-36 *)
Definition AircraftStatusEmergency_CheckCoherency (message : AircraftStatusEmergency) : res unit :=
  if (message.(AircraftStatusEmergency_EmergencyPriorityStatus) >? 5) then
    Err ("field EmergencyPriorityStatus is a Reserved value"%string)
  else 
    Ok tt.

(* pkg/bds/bds61/aircraft_status_emergency.go:39-47 *)
Definition AircraftStatusEmergency_ToString (message : AircraftStatusEmergency) : string :=
  ("Message:                   "%string ++ (bds_register.Register_ToString (AircraftStatusEmergency_GetRegister message)) ++
      (nl ++ "Subtype:                   ")%string ++ (bds61_fields.Subtype_ToString message.(AircraftStatusEmergency_Subtype)) ++
      (nl ++ "Emergeny State:            ")%string ++ (bds61_fields.EmergencyPriorityStatus_ToString message.(AircraftStatusEmergency_EmergencyPriorityStatus)))%string.

(* pkg/bds/bds61/aircraft_status_emergency.go:50-81 *)
Definition ReadAircraftStatusEmergency (data : list Z) : res AircraftStatusEmergency :=
  if (negb ((len data) =? 7)) then
    Err ("the data must be 7 bytes long ("%string ++ dec (len data) ++ " given)"%string)%string
  else 
    let* data0 := idx data 0 in
    let formatTypeCode := (Z.shiftr (Z.land data0 0xf8) 3) in
    if (negb (formatTypeCode =? 28)) then
      Err ("the field FormatTypeCode must be 28, got "%string ++ dec formatTypeCode)%string
    else 
      let* r := bds61_fields.ReadSubtype data in
      let subType := r in
      if (negb (subType =? bds61_fields.SubtypeEmergencyPriorityStatus)) then
        Err ("the data are given for subtype "%string ++ (bds61_fields.Subtype_ToString subType) ++ " format and can not be read by ReadAircraftStatusEmergency"%string)%string
      else 
        let* data1 := idx data 1 in
        let byte1 := (Z.land data1 0x1f) in
        let* data2 := idx data 2 in
        let byte2 := data2 in
        let* data3 := idx data 3 in
        if (negb (data3 =? 0)) then
          Err ("the bits 25 to 56 are expected to be 0"%string)
        else 
          let* data4 := idx data 4 in
          if (negb (data4 =? 0)) then
            Err ("the bits 25 to 56 are expected to be 0"%string)
          else 
            let* data5 := idx data 5 in
            if (negb (data5 =? 0)) then
              Err ("the bits 25 to 56 are expected to be 0"%string)
            else 
              let* data6 := idx data 6 in
              if (negb (data6 =? 0)) then
                Err ("the bits 25 to 56 are expected to be 0"%string)
              else 
                let* r_1 := bds61_fields.ReadEmergencyPriorityStatus data in
                Ok ({| AircraftStatusEmergency_FormatTypeCode := formatTypeCode;
      AircraftStatusEmergency_Subtype := subType;
      AircraftStatusEmergency_EmergencyPriorityStatus := r_1;
      AircraftStatusEmergency_ModeACode := (bitutils.Pack2Bytes byte1 byte2) |}).

(* pkg/bds/bds61/aircraft_status_no_information.go:18-20 *)
Definition AircraftStatusNoInformation_GetSubtype (message : AircraftStatusNoInformation) : bds61_fields.Subtype :=
  message.(AircraftStatusNoInformation_Subtype).

(* pkg/bds/bds61/aircraft_status_no_information.go:23-25 *)
Definition AircraftStatusNoInformation_GetRegister (message : AircraftStatusNoInformation) : bds_register.Register :=
  bds_register.BDS61.

(* pkg/bds/bds61/aircraft_status_no_information.go:28-35 *)
Definition AircraftStatusNoInformation_CheckCoherency (message : AircraftStatusNoInformation) : res unit :=
  if (negb (message.(AircraftStatusNoInformation_EmergencyPriorityStatus) =? bds61_fields.EPSNoEmergency)) then
    Err ("field EmergencyPriorityStatus is expected to be NoEmergency"%string)
  else 
    Ok tt.

(* pkg/bds/bds61/aircraft_status_no_information.go:38-46 *)
Definition AircraftStatusNoInformation_ToString (message : AircraftStatusNoInformation) : string :=
  ("Message:                   "%string ++ (bds_register.Register_ToString (AircraftStatusNoInformation_GetRegister message)) ++
      (nl ++ "Subtype:                   ")%string ++ (bds61_fields.Subtype_ToString message.(AircraftStatusNoInformation_Subtype)) ++
      (nl ++ "Emergency State:           ")%string ++ (bds61_fields.EmergencyPriorityStatus_ToString message.(AircraftStatusNoInformation_EmergencyPriorityStatus)))%string.

(* pkg/bds/bds61/aircraft_status_no_information.go:49-80 *)
Definition ReadAircraftStatusNoInformation (data : list Z) : res AircraftStatusNoInformation :=
  if (negb ((len data) =? 7)) then
    Err ("the data must be 7 bytes long ("%string ++ dec (len data) ++ " given)"%string)%string
  else 
    let* data0 := idx data 0 in
    let formatTypeCode := (Z.shiftr (Z.land data0 0xf8) 3) in
    if (negb (formatTypeCode =? 28)) then
      Err ("the field FormatTypeCode must be 28, got "%string ++ dec formatTypeCode)%string
    else 
      let* r := bds61_fields.ReadSubtype data in
      let subType := r in
      if (negb (subType =? bds61_fields.SubtypeNoInformation)) then
        Err ("the data are given for subtype "%string ++ (bds61_fields.Subtype_ToString subType) ++ " format and can not be read by ReadAircraftStatusNoInformation"%string)%string
      else 
        let* data1 := idx data 1 in
        if (negb ((Z.land data1 0x1f) =? 0)) then
          Err ("the bits 12 to 16 are expected to be 0"%string)
        else if (negb ((Z.land data1 0x1f) =? 0)) then
          Err ("the bits 17 to 56 are expected to be 0"%string)
        else if (negb ((Z.land data1 0x1f) =? 0)) then
          Err ("the bits 17 to 56 are expected to be 0"%string)
        else if (negb ((Z.land data1 0x1f) =? 0)) then
          Err ("the bits 17 to 56 are expected to be 0"%string)
        else if (negb ((Z.land data1 0x1f) =? 0)) then
          Err ("the bits 17 to 56 are expected to be 0"%string)
        else if (negb ((Z.land data1 0x1f) =? 0)) then
          Err ("the bits 17 to 56 are expected to be 0"%string)
        else 
          let* r_1 := bds61_fields.ReadEmergencyPriorityStatus data in
          Ok ({| AircraftStatusNoInformation_FormatTypeCode := formatTypeCode;
      AircraftStatusNoInformation_Subtype := subType;
      AircraftStatusNoInformation_EmergencyPriorityStatus := r_1 |}).

(* dynamic dispatch of method CheckCoherency of interface AircraftStatus *)
Definition IAircraftStatus_CheckCoherency (v : AircraftStatus) : res unit :=
  match v with
  | IAircraftStatus_AircraftStatusNoInformation x => AircraftStatusNoInformation_CheckCoherency x
  | IAircraftStatus_AircraftStatusEmergency x => AircraftStatusEmergency_CheckCoherency x
  | IAircraftStatus_AircraftStatusACAS x => AircraftStatusACAS_CheckCoherency x
  end.

(* dynamic dispatch of method GetRegister of interface AircraftStatus *)
Definition IAircraftStatus_GetRegister (v : AircraftStatus) : bds_register.Register :=
  match v with
  | IAircraftStatus_AircraftStatusNoInformation x => AircraftStatusNoInformation_GetRegister x
  | IAircraftStatus_AircraftStatusEmergency x => AircraftStatusEmergency_GetRegister x
  | IAircraftStatus_AircraftStatusACAS x => AircraftStatusACAS_GetRegister x
  end.

(* dynamic dispatch of method GetSubtype of interface AircraftStatus *)
Definition IAircraftStatus_GetSubtype (v : AircraftStatus) : bds61_fields.Subtype :=
  match v with
  | IAircraftStatus_AircraftStatusNoInformation x => AircraftStatusNoInformation_GetSubtype x
  | IAircraftStatus_AircraftStatusEmergency x => AircraftStatusEmergency_GetSubtype x
  | IAircraftStatus_AircraftStatusACAS x => AircraftStatusACAS_GetSubtype x
  end.

(* dynamic dispatch of method ToString of interface AircraftStatus *)
Definition IAircraftStatus_ToString (ffmt : spec_float -> string) (v : AircraftStatus) : res string :=
  match v with
  | IAircraftStatus_AircraftStatusNoInformation x => Ok (AircraftStatusNoInformation_ToString x)
  | IAircraftStatus_AircraftStatusEmergency x => Ok (AircraftStatusEmergency_ToString x)
  | IAircraftStatus_AircraftStatusACAS x => AircraftStatusACAS_ToString ffmt x
  end.

(* pkg/bds/bds61/aircraft_status.go:15-37 *)
Definition ReadAircraftStatus (data : list Z) : res AircraftStatus :=
  if (negb ((len data) =? 7)) then
    Err ("the data must be 7 bytes long ("%string ++ dec (len data) ++ " given)"%string)%string
  else 
    let* data0 := idx data 0 in
    let formatTypeCode := (Z.shiftr (Z.land data0 0xf8) 3) in
    if (negb (formatTypeCode =? 28)) then
      Err ("the data are given at format "%string ++ dec formatTypeCode ++ " and can not be read by ReadAircraftStatus"%string)%string
    else 
      let* r := bds61_fields.ReadSubtype data in
      let subType := r in
      if (subType =? bds61_fields.SubtypeNoInformation) then
        rmap (fun x__ => (IAircraftStatus_AircraftStatusNoInformation x__)) (ReadAircraftStatusNoInformation data)
      else if (subType =? bds61_fields.SubtypeEmergencyPriorityStatus) then
        rmap (fun x__ => (IAircraftStatus_AircraftStatusEmergency x__)) (ReadAircraftStatusEmergency data)
      else if (subType =? bds61_fields.SubtypeRABroadcast) then
        rmap (fun x__ => (IAircraftStatus_AircraftStatusACAS x__)) (ReadAircraftStatusACAS data)
      else 
        Err ("the field SubType must be comprised between 0 and 2 included, got "%string ++ dec subType)%string.
