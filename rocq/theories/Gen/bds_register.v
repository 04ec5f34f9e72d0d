(* GENERATED by tools/go2coq.py from /repo/pkg/bds/register -- do not edit by hand.
   One Gallina definition per Go declaration; each is preceded by the file and lines it models.
   Error values are represented by their text, see DESIGN.md.
*)
From Verif Require Import GoBase.
Local Open Scope Z_scope.

(* pkg/bds/register/register_reference.go:10-13 *)
Record Register := mkRegister {
  Register_id : string;
  Register_description : string }.

(* pkg/bds/register/register_reference.go:38-41 *)
Definition BDS00 : Register := {| Register_id := "BDS 0,0"%string;
      Register_description := "No message waiting for transmission"%string |}.

(* pkg/bds/register/register_reference.go:44-47 *)
Definition BDS05 : Register := {| Register_id := "BDS 0,5"%string;
      Register_description := "Extended squitter airborne position"%string |}.

(* pkg/bds/register/register_reference.go:50-53 *)
Definition BDS06 : Register := {| Register_id := "BDS 0,6"%string;
      Register_description := "Extended squitter surface position"%string |}.

(* pkg/bds/register/register_reference.go:56-59 *)
Definition BDS07 : Register := {| Register_id := "BDS 0,7"%string;
      Register_description := " Extended squitter status"%string |}.

(* pkg/bds/register/register_reference.go:62-65 *)
Definition BDS08 : Register := {| Register_id := "BDS 0,8"%string;
      Register_description := "Extended squitter aircraft identification and category"%string |}.

(* pkg/bds/register/register_reference.go:68-71 *)
Definition BDS09 : Register := {| Register_id := "BDS 0,9"%string;
      Register_description := "Extended squitter airborne velocity"%string |}.

(* pkg/bds/register/register_reference.go:74-77 *)
Definition BDS10 : Register := {| Register_id := "BDS 1,0"%string;
      Register_description := "Data link capability report"%string |}.

(* pkg/bds/register/register_reference.go:80-83 *)
Definition BDS17 : Register := {| Register_id := "BDS 1,7"%string;
      Register_description := "Common usage GICB capability report"%string |}.

(* pkg/bds/register/register_reference.go:86-89 *)
Definition BDS20 : Register := {| Register_id := "BDS 2,0"%string;
      Register_description := "Aircraft identification"%string |}.

(* pkg/bds/register/register_reference.go:92-95 *)
Definition BDS30 : Register := {| Register_id := "BDS 3,0"%string;
      Register_description := "ACAS active resolution advisory"%string |}.

(* pkg/bds/register/register_reference.go:98-101 *)
Definition BDS40 : Register := {| Register_id := "BDS 4,0"%string;
      Register_description := "Selected vertical intention"%string |}.

(* pkg/bds/register/register_reference.go:104-107 *)
Definition BDS44 : Register := {| Register_id := "BDS 4,4"%string;
      Register_description := "Meteorological routine air report"%string |}.

(* pkg/bds/register/register_reference.go:110-113 *)
Definition BDS45 : Register := {| Register_id := "BDS 4,5"%string;
      Register_description := "Meteorological hazard report"%string |}.

(* pkg/bds/register/register_reference.go:116-119 *)
Definition BDS50 : Register := {| Register_id := "BDS 5,0"%string;
      Register_description := "Track and turn report"%string |}.

(* pkg/bds/register/register_reference.go:122-125 *)
Definition BDS60 : Register := {| Register_id := "BDS 6,0"%string;
      Register_description := "Heading and speed report"%string |}.

(* pkg/bds/register/register_reference.go:128-131 *)
Definition BDS61 : Register := {| Register_id := "BDS 6,1"%string;
      Register_description := "Extended squitter emergency/priority status"%string |}.

(* pkg/bds/register/register_reference.go:134-137 *)
Definition BDS62 : Register := {| Register_id := "BDS 6,2"%string;
      Register_description := "Target state and status information"%string |}.

(* pkg/bds/register/register_reference.go:140-143 *)
Definition BDS65 : Register := {| Register_id := "BDS 6,5"%string;
      Register_description := "Extended squitter aircraft operational status"%string |}.

(* pkg/bds/register/register_reference.go:16-18 *)
Definition Register_GetId (register : Register) : string :=
  register.(Register_id).

(* pkg/bds/register/register_reference.go:21-23 *)
Definition Register_GetDescription (register : Register) : string :=
  register.(Register_description).

(* pkg/bds/register/register_reference.go:26-29 *)
Definition Register_ToString (register : Register) : string :=
  (register.(Register_id) ++ " - "%string ++ register.(Register_description))%string.
