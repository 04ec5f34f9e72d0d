(* GENERATED by tools/go2coq.py from /repo/pkg/bds/bds08/fields -- do not edit by hand.
   One Gallina definition per Go declaration; each is preceded by the file and lines it models.
   Error values are represented by their text, see DESIGN.md.
*)
From Verif Require Import GoBase.
Local Open Scope Z_scope.

(* pkg/bds/bds08/fields/aircraft_category_set_a.go:8 *)
Definition AircraftCategorySetA := Z.

(* pkg/bds/bds08/fields/aircraft_category_set_b.go:8 *)
Definition AircraftCategorySetB := Z.

(* pkg/bds/bds08/fields/aircraft_category_set_c.go:11 *)
Definition AircraftCategorySetC := Z.

(* pkg/bds/bds08/fields/aircraft_category_set_d.go:11 *)
Definition AircraftCategorySetD := Z.

(* pkg/bds/bds08/fields/aircraft_category.go:6-13
   Go interface AircraftCategory, as the sum of the types that implement it *)
Inductive AircraftCategory :=
| IAircraftCategory_AircraftCategorySetA (m : AircraftCategorySetA)
| IAircraftCategory_AircraftCategorySetB (m : AircraftCategorySetB)
| IAircraftCategory_AircraftCategorySetC (m : AircraftCategorySetC)
| IAircraftCategory_AircraftCategorySetD (m : AircraftCategorySetD).

Definition ACSANoCategory : AircraftCategorySetA := 0. (* pkg/bds/bds08/fields/aircraft_category_set_a.go:12 *)

Definition ACSALight : AircraftCategorySetA := 1. (* pkg/bds/bds08/fields/aircraft_category_set_a.go:14 *)

Definition ACSAMedium1 : AircraftCategorySetA := 2. (* pkg/bds/bds08/fields/aircraft_category_set_a.go:16 *)

Definition ACSAMedium2 : AircraftCategorySetA := 3. (* pkg/bds/bds08/fields/aircraft_category_set_a.go:18 *)

Definition ACSAHighVortex : AircraftCategorySetA := 4. (* pkg/bds/bds08/fields/aircraft_category_set_a.go:20 *)

Definition ACSAHeavy : AircraftCategorySetA := 5. (* pkg/bds/bds08/fields/aircraft_category_set_a.go:22 *)

Definition ACSAHighPerformance : AircraftCategorySetA := 6. (* pkg/bds/bds08/fields/aircraft_category_set_a.go:24 *)

Definition ACSARotorCraft : AircraftCategorySetA := 7. (* pkg/bds/bds08/fields/aircraft_category_set_a.go:26 *)

Definition ACSBNoCategory : AircraftCategorySetB := 0. (* pkg/bds/bds08/fields/aircraft_category_set_b.go:12 *)

Definition ACSBGliderSailplane : AircraftCategorySetB := 1. (* pkg/bds/bds08/fields/aircraft_category_set_b.go:14 *)

Definition ACSBLighterThanAir : AircraftCategorySetB := 2. (* pkg/bds/bds08/fields/aircraft_category_set_b.go:16 *)

Definition ACSBParachutistSkydiver : AircraftCategorySetB := 3. (* pkg/bds/bds08/fields/aircraft_category_set_b.go:18 *)

Definition ACSBUltralightParaglider : AircraftCategorySetB := 4. (* pkg/bds/bds08/fields/aircraft_category_set_b.go:20 *)

Definition ACSBReserved : AircraftCategorySetB := 5. (* pkg/bds/bds08/fields/aircraft_category_set_b.go:22 *)

Definition ACSBUnmannedAerialVehicle : AircraftCategorySetB := 6. (* pkg/bds/bds08/fields/aircraft_category_set_b.go:24 *)

Definition ACSBSpace : AircraftCategorySetB := 7. (* pkg/bds/bds08/fields/aircraft_category_set_b.go:26 *)

Definition ACSCNoCategory : AircraftCategorySetC := 0. (* pkg/bds/bds08/fields/aircraft_category_set_c.go:15 *)

Definition ACSCSurfaceEmergency : AircraftCategorySetC := 1. (* pkg/bds/bds08/fields/aircraft_category_set_c.go:17 *)

Definition ACSCSurfaceService : AircraftCategorySetC := 2. (* pkg/bds/bds08/fields/aircraft_category_set_c.go:19 *)

Definition ACSCFixedOrObstruction : AircraftCategorySetC := 3. (* pkg/bds/bds08/fields/aircraft_category_set_c.go:21 *)

Definition ACSCReserved1 : AircraftCategorySetC := 4. (* pkg/bds/bds08/fields/aircraft_category_set_c.go:23 *)

Definition ACSCReserved2 : AircraftCategorySetC := 5. (* pkg/bds/bds08/fields/aircraft_category_set_c.go:25 *)

Definition ACSCReserved3 : AircraftCategorySetC := 6. (* pkg/bds/bds08/fields/aircraft_category_set_c.go:27 *)

Definition ACSCReserved4 : AircraftCategorySetC := 7. (* pkg/bds/bds08/fields/aircraft_category_set_c.go:29 *)

Definition ACSDReserved0 : AircraftCategorySetD := 0. (* pkg/bds/bds08/fields/aircraft_category_set_d.go:15 *)

Definition ACSDReserved1 : AircraftCategorySetD := 1. (* pkg/bds/bds08/fields/aircraft_category_set_d.go:17 *)

Definition ACSDReserved2 : AircraftCategorySetD := 2. (* pkg/bds/bds08/fields/aircraft_category_set_d.go:19 *)

Definition ACSDReserved3 : AircraftCategorySetD := 3. (* pkg/bds/bds08/fields/aircraft_category_set_d.go:21 *)

Definition ACSDReserved4 : AircraftCategorySetD := 4. (* pkg/bds/bds08/fields/aircraft_category_set_d.go:23 *)

Definition ACSDReserved5 : AircraftCategorySetD := 5. (* pkg/bds/bds08/fields/aircraft_category_set_d.go:25 *)

Definition ACSDReserved6 : AircraftCategorySetD := 6. (* pkg/bds/bds08/fields/aircraft_category_set_d.go:27 *)

Definition ACSDReserved7 : AircraftCategorySetD := 7. (* pkg/bds/bds08/fields/aircraft_category_set_d.go:29 *)

(* pkg/bds/bds08/fields/aircraft_category_set_a.go:30-32 *)
Definition AircraftCategorySetA_GetCategorySetName (category : AircraftCategorySetA) : string :=
  "Set A"%string.

(* pkg/bds/bds08/fields/aircraft_category_set_a.go:35-57 *)
Definition AircraftCategorySetA_ToString (category : AircraftCategorySetA) : string :=
  if (category =? ACSANoCategory) then
    "0 - No aircraft category information"%string
  else if (category =? ACSALight) then
    "1 - Light (< 15_500 lbs or 7_031 kg)"%string
  else if (category =? ACSAMedium1) then
    "2 - Medium 1 (>15_500 to 75_000 lbs, or 7_031 to 34_019 kg)"%string
  else if (category =? ACSAMedium2) then
    "3 - Medium 2 (>75_000 to 300_000 lbs, or 34_019 to 136_078 kg)"%string
  else if (category =? ACSAHighVortex) then
    "4 - High vortex aircraft"%string
  else if (category =? ACSAHeavy) then
    "5 - Heavy (> 300_000 lbs or 136_078 kg)"%string
  else if (category =? ACSAHighPerformance) then
    "6 - High performance (> 5g acceleration) and high speed (> 400 kt)"%string
  else if (category =? ACSARotorCraft) then
    "7 - Rotorcraft"%string
  else 
    (dec category ++ " - Unknown code"%string)%string.

(* pkg/bds/bds08/fields/aircraft_category_set_a.go:60-62 *)
Definition AircraftCategorySetA_CheckCoherency (category : AircraftCategorySetA) : res unit :=
  Ok tt.

(* pkg/bds/bds08/fields/aircraft_category_set_b.go:30-32 *)
Definition AircraftCategorySetB_GetCategorySetName (category : AircraftCategorySetB) : string :=
  "Set B"%string.

(* pkg/bds/bds08/fields/aircraft_category_set_b.go:35-57 *)
Definition AircraftCategorySetB_ToString (category : AircraftCategorySetB) : string :=
  if (category =? ACSBNoCategory) then
    "0 - No aircraft category information"%string
  else if (category =? ACSBGliderSailplane) then
    "1 - Glider / sailplane"%string
  else if (category =? ACSBLighterThanAir) then
    "2 - Lighter-than-air"%string
  else if (category =? ACSBParachutistSkydiver) then
    "3 - Parachutist / skydiver"%string
  else if (category =? ACSBUltralightParaglider) then
    "4 - Ultralight / hang-glider / paraglider"%string
  else if (category =? ACSBReserved) then
    "5 - Reserved"%string
  else if (category =? ACSBUnmannedAerialVehicle) then
    "6 - Unmanned aerial vehicle"%string
  else if (category =? ACSBSpace) then
    "7 - Space / transatmospheric vehicle"%string
  else 
    (dec category ++ " - Unknown code"%string)%string.

(* pkg/bds/bds08/fields/aircraft_category_set_b.go:60-62 *)
Definition AircraftCategorySetB_CheckCoherency (category : AircraftCategorySetB) : res unit :=
  Ok tt.

(* pkg/bds/bds08/fields/aircraft_category_set_c.go:33-35 *)
Definition AircraftCategorySetC_GetCategorySetName (category : AircraftCategorySetC) : string :=
  "Set C"%string.

(* pkg/bds/bds08/fields/aircraft_category_set_c.go:38-60 *)
Definition AircraftCategorySetC_ToString (category : AircraftCategorySetC) : string :=
  if (category =? ACSCNoCategory) then
    "0 - No aircraft category information"%string
  else if (category =? ACSCSurfaceEmergency) then
    "1 - Surface vehicle - emergency vehicle"%string
  else if (category =? ACSCSurfaceService) then
    "2 - Surface vehicle - service vehicle"%string
  else if (category =? ACSCFixedOrObstruction) then
    "3 - Fixed ground or tethered obstruction"%string
  else if (category =? ACSCReserved1) then
    "4 - Reserved"%string
  else if (category =? ACSCReserved2) then
    "5 - Reserved"%string
  else if (category =? ACSCReserved3) then
    "6 - Reserved"%string
  else if (category =? ACSCReserved4) then
    "7 - Reserved"%string
  else 
    (dec category ++ " - Unknown code"%string)%string.

(* pkg/bds/bds08/fields/aircraft_category_set_c.go:63-70 *)
Definition AircraftCategorySetC_CheckCoherency (category : AircraftCategorySetC) : res unit :=
  if (category >? 3) then
    Err ("field FormatTypeCode is 2 (Category set C) and the Category is Reserved"%string)
  else 
    Ok tt.

(* pkg/bds/bds08/fields/aircraft_category_set_d.go:33-35 *)
Definition AircraftCategorySetD_GetCategorySetName (category : AircraftCategorySetD) : string :=
  "Set D (Reserved)"%string.

(* pkg/bds/bds08/fields/aircraft_category_set_d.go:38-60 *)
Definition AircraftCategorySetD_ToString (category : AircraftCategorySetD) : string :=
  if (category =? ACSDReserved0) then
    "0 - Reserved"%string
  else if (category =? ACSDReserved1) then
    "1 - Reserved"%string
  else if (category =? ACSDReserved2) then
    "2 - Reserved"%string
  else if (category =? ACSDReserved3) then
    "3 - Reserved"%string
  else if (category =? ACSDReserved4) then
    "4 - Reserved"%string
  else if (category =? ACSDReserved5) then
    "5 - Reserved"%string
  else if (category =? ACSDReserved6) then
    "6 - Reserved"%string
  else if (category =? ACSDReserved7) then
    "7 - Reserved"%string
  else 
    (dec category ++ " - Unknown code"%string)%string.

(* pkg/bds/bds08/fields/aircraft_category_set_d.go:63-66 *)
Definition AircraftCategorySetD_CheckCoherency (category : AircraftCategorySetD) : res unit :=
  Err ("field FormatTypeCode is 1 (Category set D) which is a reserved Category set"%string).

(* dynamic dispatch of method CheckCoherency of interface AircraftCategory *)
Definition IAircraftCategory_CheckCoherency (v : AircraftCategory) : res unit :=
  match v with
  | IAircraftCategory_AircraftCategorySetA x => AircraftCategorySetA_CheckCoherency x
  | IAircraftCategory_AircraftCategorySetB x => AircraftCategorySetB_CheckCoherency x
  | IAircraftCategory_AircraftCategorySetC x => AircraftCategorySetC_CheckCoherency x
  | IAircraftCategory_AircraftCategorySetD x => AircraftCategorySetD_CheckCoherency x
  end.

(* dynamic dispatch of method GetCategorySetName of interface AircraftCategory *)
Definition IAircraftCategory_GetCategorySetName (v : AircraftCategory) : string :=
  match v with
  | IAircraftCategory_AircraftCategorySetA x => AircraftCategorySetA_GetCategorySetName x
  | IAircraftCategory_AircraftCategorySetB x => AircraftCategorySetB_GetCategorySetName x
  | IAircraftCategory_AircraftCategorySetC x => AircraftCategorySetC_GetCategorySetName x
  | IAircraftCategory_AircraftCategorySetD x => AircraftCategorySetD_GetCategorySetName x
  end.

(* dynamic dispatch of method ToString of interface AircraftCategory *)
Definition IAircraftCategory_ToString (v : AircraftCategory) : string :=
  match v with
  | IAircraftCategory_AircraftCategorySetA x => AircraftCategorySetA_ToString x
  | IAircraftCategory_AircraftCategorySetB x => AircraftCategorySetB_ToString x
  | IAircraftCategory_AircraftCategorySetC x => AircraftCategorySetC_ToString x
  | IAircraftCategory_AircraftCategorySetD x => AircraftCategorySetD_ToString x
  end.
