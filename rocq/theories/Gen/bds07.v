(* GENERATED by tools/go2coq.py from /repo/pkg/bds/bds07 -- do not edit by hand.
   One Gallina definition per Go declaration; each is preceded by the file and lines it models.
   Error values are represented by their text, see DESIGN.md.
*)
From Verif Require Import GoBase.
From Verif.Gen Require bds07_fields bds_register.
Local Open Scope Z_scope.

(* pkg/bds/bds07/status.go:14-17 *)
Record Status := mkStatus {
  Status_TransmissionRateSubfield : bds07_fields.TransmissionRateSubfield;
  Status_AltitudeTypeSubfield : bds07_fields.AltitudeTypeSubfield }.

(* pkg/bds/bds07/status.go:20-22 *)
Definition Status_GetRegister (message : Status) : bds_register.Register :=
  bds_register.BDS07.

(* pkg/bds/bds07/status.go:25-31 *)
Definition Status_CheckCoherency (message : Status) : res unit :=
  if (message.(Status_TransmissionRateSubfield) >=? 3) then
    Err ("field TransmissionRateSubfield is a Reserved value"%string)
  else 
    Ok tt.

(* pkg/bds/bds07/status.go:34-42 *)
Definition Status_ToString (message : Status) : string :=
  ("Message:                                 "%string ++ (bds_register.Register_ToString (Status_GetRegister message)) ++
      (nl ++ "Transmission Rate Subfield:              ")%string ++ (bds07_fields.TransmissionRateSubfield_ToString message.(Status_TransmissionRateSubfield)) ++
      (nl ++ "Altitude Type Subfield                   ")%string ++ (bds07_fields.AltitudeTypeSubfield_ToString message.(Status_AltitudeTypeSubfield)) ++ nl%string)%string.

(* pkg/bds/bds07/status.go:45-66 *)
Definition ReadStatus (data : list Z) : res Status :=
  if (negb ((len data) =? 7)) then
    Err ("the data for Comm-B Status message must be 7 bytes long"%string)
  else 
    let* data0 := idx data 0 in
    if (negb ((Z.land data0 0x1c) =? 0)) then
      Err ("the bits 4 to 8 are reserved and must be 0"%string)
    else 
      let* data1 := idx data 1 in
      if (negb (data1 =? 0)) then
        Err ("the bits 9 to 56 are reserved and must be 0"%string)
      else 
        let* data2 := idx data 2 in
        if (negb (data2 =? 0)) then
          Err ("the bits 9 to 56 are reserved and must be 0"%string)
        else 
          let* data3 := idx data 3 in
          if (negb (data3 =? 0)) then
            Err ("the bits 9 to 56 are reserved and must be 0"%string)
          else 
            let* data4 := idx data 4 in
            if (negb (data4 =? 0)) then
              Err ("the bits 9 to 56 are reserved and must be 0"%string)
            else 
              let* data5 := idx data 5 in
              if (negb (data5 =? 0)) then
                Err ("the bits 9 to 56 are reserved and must be 0"%string)
              else 
                let* data6 := idx data 6 in
                if (negb (data6 =? 0)) then
                  Err ("the bits 9 to 56 are reserved and must be 0"%string)
                else 
                  let* r := bds07_fields.ReadTransmissionRateSubfield data in
                  let* r_1 := bds07_fields.ReadAltitudeTypeSubfield data in
                  Ok ({| Status_TransmissionRateSubfield := r; Status_AltitudeTypeSubfield := r_1 |}).
