(* GENERATED by tools/go2coq.py from /repo/pkg/bds/bds30 -- do not edit by hand.
   One Gallina definition per Go declaration; each is preceded by the file and lines it models.
   Error values are represented by their text, see DESIGN.md.
*)
From Verif Require Import GoBase.
From Verif.Gen Require acas_ra bds_register.
Local Open Scope Z_scope.

(* pkg/bds/bds30/acas_resolution_advisory.go:13-15 *)
Record ACASResolutionAdvisory := mkACASResolutionAdvisory {
  ACASResolutionAdvisory_ResolutionAdvisory : acas_ra.ResolutionAdvisory }.

(* pkg/bds/bds30/acas_resolution_advisory.go:18-20 *)
Definition ACASResolutionAdvisory_GetRegister (message : ACASResolutionAdvisory) : bds_register.Register :=
  bds_register.BDS30.

(* pkg/bds/bds30/acas_resolution_advisory.go:23-29 *)
Definition ACASResolutionAdvisory_ToString (ffmt : spec_float -> string) (message : ACASResolutionAdvisory) : res string :=
  let* r := acas_ra.ResolutionAdvisory_ToString ffmt message.(ACASResolutionAdvisory_ResolutionAdvisory) in
  Ok (("Message:                   "%string ++ (bds_register.Register_ToString (ACASResolutionAdvisory_GetRegister message)) ++
      (nl ++ "ACAS Data:                 " ++ nl)%string ++ r)%string).

(* pkg/bds/bds30/acas_resolution_advisory.go:32-34 *)
Definition ACASResolutionAdvisory_CheckCoherency (message : ACASResolutionAdvisory) : res unit :=
  Ok tt.

(* pkg/bds/bds30/acas_resolution_advisory.go:37-56 *)
Definition ReadACASResolutionAdvisory (data : list Z) : res ACASResolutionAdvisory :=
  if (negb ((len data) =? 7)) then
    Err ("the data for Comm-B ACASResolutionAdvisory message must be 7 bytes long"%string)
  else 
    let* data0 := idx data 0 in
    if (negb (data0 =? 48)) then
      Err ("the first byte of data is not 0x20"%string)
    else 
      let* sub := slice data 1 (len data) in
      match acas_ra.ReadResolutionAdvisory sub with
      | Ok resolutionAdvisory =>
        Ok ({| ACASResolutionAdvisory_ResolutionAdvisory := resolutionAdvisory |})
      | Err e =>
        Err e
      | Panic => Panic
      end.
