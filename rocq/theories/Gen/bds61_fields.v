(* GENERATED by tools/go2coq.py from /repo/pkg/bds/bds61/fields -- do not edit by hand.
   One Gallina definition per Go declaration; each is preceded by the file and lines it models.
   Error values are represented by their text, see DESIGN.md.
*)
From Verif Require Import GoBase.
Local Open Scope Z_scope.

(* pkg/bds/bds61/fields/emergency_status.go:8 *)
Definition EmergencyPriorityStatus := Z.

(* pkg/bds/bds61/fields/subtype.go:10 *)
Definition Subtype := Z.

Definition EPSNoEmergency : EmergencyPriorityStatus := 0. (* pkg/bds/bds61/fields/emergency_status.go:12 *)

Definition EPSGeneralEmergency : EmergencyPriorityStatus := 1. (* pkg/bds/bds61/fields/emergency_status.go:14 *)

Definition EPSLifeguardMedical : EmergencyPriorityStatus := 2. (* pkg/bds/bds61/fields/emergency_status.go:16 *)

Definition EPSMinimumFuel : EmergencyPriorityStatus := 3. (* pkg/bds/bds61/fields/emergency_status.go:18 *)

Definition EPSNoCommunication : EmergencyPriorityStatus := 4. (* pkg/bds/bds61/fields/emergency_status.go:20 *)

Definition EPSUnlawfulInterference : EmergencyPriorityStatus := 5. (* pkg/bds/bds61/fields/emergency_status.go:22 *)

Definition EPSDownedAircraft : EmergencyPriorityStatus := 6. (* pkg/bds/bds61/fields/emergency_status.go:24 *)

Definition EPSReserved7 : EmergencyPriorityStatus := 7. (* pkg/bds/bds61/fields/emergency_status.go:26 *)

Definition SubtypeNoInformation : Subtype := 0. (* pkg/bds/bds61/fields/subtype.go:14 *)

Definition SubtypeEmergencyPriorityStatus : Subtype := 1. (* pkg/bds/bds61/fields/subtype.go:16 *)

Definition SubtypeRABroadcast : Subtype := 2. (* pkg/bds/bds61/fields/subtype.go:18 *)

Definition SubtypeReserved3 : Subtype := 3. (* pkg/bds/bds61/fields/subtype.go:20 *)

Definition SubtypeReserved4 : Subtype := 4. (* pkg/bds/bds61/fields/subtype.go:22 *)

Definition SubtypeReserved5 : Subtype := 5. (* pkg/bds/bds61/fields/subtype.go:24 *)

Definition SubtypeReserved6 : Subtype := 6. (* pkg/bds/bds61/fields/subtype.go:26 *)

Definition SubtypeReserved7 : Subtype := 7. (* pkg/bds/bds61/fields/subtype.go:28 *)

(* pkg/bds/bds61/fields/emergency_status.go:30-52 *)
Definition EmergencyPriorityStatus_ToString (capability : EmergencyPriorityStatus) : string :=
  if (capability =? EPSNoEmergency) then
    "0 - no emergency"%string
  else if (capability =? EPSGeneralEmergency) then
    "1 - general emergency"%string
  else if (capability =? EPSLifeguardMedical) then
    "2 - lifeguard/medical emergency"%string
  else if (capability =? EPSMinimumFuel) then
    "3 - minimum fuel"%string
  else if (capability =? EPSNoCommunication) then
    "4 - no communications"%string
  else if (capability =? EPSUnlawfulInterference) then
    "5 - unlawful interference"%string
  else if (capability =? EPSDownedAircraft) then
    "6 - downed aircraft"%string
  else if (capability =? EPSReserved7) then
    "7 - reserved"%string
  else 
    (dec capability ++ " - Unknown code"%string)%string.

(* pkg/bds/bds61/fields/emergency_status.go:55-58 *)
Definition ReadEmergencyPriorityStatus (data : list Z) : res EmergencyPriorityStatus :=
  let* data1 := idx data 1 in
  let bits := (Z.shiftr (Z.land data1 0xe0) 5) in
  Ok bits.

(* pkg/bds/bds61/fields/subtype.go:32-46 *)
Definition Subtype_ToString (subtype : Subtype) : string :=
  if (subtype =? SubtypeNoInformation) then
    "0 - no information"%string
  else if (subtype =? SubtypeEmergencyPriorityStatus) then
    "1 - emergency/priority status"%string
  else if (subtype =? SubtypeRABroadcast) then
    "2 - TCAS/ACAS RA Broadcast"%string
  else if (subtype =? SubtypeReserved3) || (subtype =? SubtypeReserved4) || (subtype =? SubtypeReserved5) || (subtype =? SubtypeReserved6) || (subtype =? SubtypeReserved7) then
    (dec subtype ++ " - reserved"%string)%string
  else 
    (dec subtype ++ " - Unknown code"%string)%string.

(* pkg/bds/bds61/fields/subtype.go:49-52 *)
Definition ReadSubtype (data : list Z) : res Subtype :=
  let* data0 := idx data 0 in
  let bits := (Z.land data0 7) in
  Ok bits.
