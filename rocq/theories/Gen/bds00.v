(* GENERATED by tools/go2coq.py from /repo/pkg/bds/bds00 -- do not edit by hand.
   One Gallina definition per Go declaration; each is preceded by the file and lines it models.
   Error values are represented by their text, see DESIGN.md.
*)
From Verif Require Import GoBase.
From Verif.Gen Require bds_register.
Local Open Scope Z_scope.

(* pkg/bds/bds00/no_message_available.go:14-15 *)
Inductive NoMessageAvailable := mkNoMessageAvailable.

(* pkg/bds/bds00/no_message_available.go:18-20 *)
Definition NoMessageAvailable_GetRegister (message : NoMessageAvailable) : bds_register.Register :=
  bds_register.BDS00.

(* pkg/bds/bds00/no_message_available.go:23-27 *)
Definition NoMessageAvailable_ToString (message : NoMessageAvailable) : string :=
  ("Message:                   "%string ++ (bds_register.Register_ToString (NoMessageAvailable_GetRegister message)))%string.

(* pkg/bds/bds00/no_message_available.go:30-32 *)
Definition NoMessageAvailable_CheckCoherency (message : NoMessageAvailable) : res unit :=
  Ok tt.

(* pkg/bds/bds00/no_message_available.go:35-48 *)
Definition ReadNoMessageAvailable (data : list Z) : res NoMessageAvailable :=
  if (negb ((len data) =? 7)) then
    Err ("the data for Comm-B NoMessageAvailable message must be 7 bytes long"%string)
  else 
    let* data0 := idx data 0 in
    if (negb (data0 =? 0)) then
      Err ("bits 1 to 56 must be zero"%string)
    else 
      let* data1 := idx data 1 in
      if (negb (data1 =? 0)) then
        Err ("bits 1 to 56 must be zero"%string)
      else 
        let* data2 := idx data 2 in
        if (negb (data2 =? 0)) then
          Err ("bits 1 to 56 must be zero"%string)
        else 
          let* data3 := idx data 3 in
          if (negb (data3 =? 0)) then
            Err ("bits 1 to 56 must be zero"%string)
          else 
            let* data4 := idx data 4 in
            if (negb (data4 =? 0)) then
              Err ("bits 1 to 56 must be zero"%string)
            else 
              let* data5 := idx data 5 in
              if (negb (data5 =? 0)) then
                Err ("bits 1 to 56 must be zero"%string)
              else 
                let* data6 := idx data 6 in
                if (negb (data6 =? 0)) then
                  Err ("bits 1 to 56 must be zero"%string)
                else 
                  Ok mkNoMessageAvailable.
