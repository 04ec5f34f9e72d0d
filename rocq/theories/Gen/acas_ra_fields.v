(* GENERATED by tools/go2coq.py from /repo/pkg/acas/ra/fields -- do not edit by hand.
   One Gallina definition per Go declaration; each is preceded by the file and lines it models.
   Error values are represented by their text, see DESIGN.md.
*)
From Verif Require Import GoBase.
From Verif.Gen Require bitutils.
Local Open Scope Z_scope.

(* pkg/acas/ra/fields/active_resolution_advisory.go:4 *)
Definition RAType := Z.

(* pkg/acas/ra/fields/active_resolution_advisory_multiple_threats.go:8-15 *)
Record ActiveRAMultipleThreatsDifferentSeparation := mkActiveRAMultipleThreatsDifferentSeparation {
  ActiveRAMultipleThreatsDifferentSeparation_RequiresCorrectionUpwardSense : bool;
  ActiveRAMultipleThreatsDifferentSeparation_RequiresPositiveClimb : bool;
  ActiveRAMultipleThreatsDifferentSeparation_RequiresCorrectionDownwardSense : bool;
  ActiveRAMultipleThreatsDifferentSeparation_RequiresPositiveDescend : bool;
  ActiveRAMultipleThreatsDifferentSeparation_RequiresCrossing : bool;
  ActiveRAMultipleThreatsDifferentSeparation_IsSenseReversal : bool }.

(* pkg/acas/ra/fields/active_resolution_advisory_one_or_same_separation.go:89 *)
Definition ActiveRAPreventiveCorrective := Z.

(* pkg/acas/ra/fields/active_resolution_advisory_one_or_same_separation.go:111 *)
Definition ActiveRASense := Z.

(* pkg/acas/ra/fields/active_resolution_advisory_one_or_same_separation.go:133 *)
Definition ActiveRAVerticalSpeedLimitOrPositive := Z.

(* pkg/acas/ra/fields/active_resolution_advisory_one_or_same_separation.go:8-15 *)
Record ActiveRAOneThreatOrSameSeparation := mkActiveRAOneThreatOrSameSeparation {
  ActiveRAOneThreatOrSameSeparation_PreventiveCorrective : ActiveRAPreventiveCorrective;
  ActiveRAOneThreatOrSameSeparation_Sense : ActiveRASense;
  ActiveRAOneThreatOrSameSeparation_IsIncreasedRate : bool;
  ActiveRAOneThreatOrSameSeparation_IsSenseReversal : bool;
  ActiveRAOneThreatOrSameSeparation_IsAltitudeCrossing : bool;
  ActiveRAOneThreatOrSameSeparation_VerticalSpeedLimitOrPositive : ActiveRAVerticalSpeedLimitOrPositive }.

(* pkg/acas/ra/fields/active_resolution_advisory_no.go:6 *)
Inductive ActiveRANoVerticalRAGenerated := mkActiveRANoVerticalRAGenerated.

(* pkg/acas/ra/fields/active_resolution_advisory.go:18-23
   Go interface ActiveResolutionAdvisory, as the sum of the types that implement it *)
Inductive ActiveResolutionAdvisory :=
| IActiveResolutionAdvisory_ActiveRAMultipleThreatsDifferentSeparation (m : ActiveRAMultipleThreatsDifferentSeparation)
| IActiveResolutionAdvisory_ActiveRAOneThreatOrSameSeparation (m : ActiveRAOneThreatOrSameSeparation)
| IActiveResolutionAdvisory_ActiveRANoVerticalRAGenerated (m : ActiveRANoVerticalRAGenerated).

(* pkg/acas/ra/fields/multiple_threat_encounter.go:9 *)
Definition MultipleThreatEncounter := Z.

(* pkg/acas/ra/fields/resolution_advisory_complement.go:6-15 *)
Record RAComplement := mkRAComplement {
  RAComplement_DoNotPassBelow : bool;
  RAComplement_DoNotPassAbove : bool;
  RAComplement_DoNotTurnLeft : bool;
  RAComplement_DoNotTurnRight : bool }.

(* pkg/acas/ra/fields/resolution_advisory_terminated.go:8 *)
Definition RATerminatedIndicator := Z.

(* pkg/acas/ra/fields/threat_identity_address.go:10 *)
Definition ThreatIdentityAddress := Z.

(* pkg/acas/ra/fields/threat_identity_altitude.go:10 *)
Definition AltitudeStatus := Z.

(* pkg/acas/ra/fields/threat_identity_altitude.go:20-23 *)
Record ThreatIdentityAltitude := mkThreatIdentityAltitude {
  ThreatIdentityAltitude_AltitudeStatus : AltitudeStatus;
  ThreatIdentityAltitude_AltitudeInFeet : Z }.

(* pkg/acas/ra/fields/threat_identity_bearing.go:9 *)
Definition ThreatIdentityBearing := Z.

(* pkg/acas/ra/fields/threat_identity_range.go:9 *)
Definition ThreatIdentityRange := Z.

(* pkg/acas/ra/fields/threat_type_indicator.go:8 *)
Definition ThreatTypeIndicator := Z.

Definition OneThreatOrSameSeparation : RAType := 0. (* pkg/acas/ra/fields/active_resolution_advisory.go:9 *)

Definition MultipleThreatDifferentSeparation : RAType := 1. (* pkg/acas/ra/fields/active_resolution_advisory.go:12 *)

Definition NoVerticalRAGenerated : RAType := 2. (* pkg/acas/ra/fields/active_resolution_advisory.go:14 *)

Definition ActiveRAPreventive : ActiveRAPreventiveCorrective := 0. (* pkg/acas/ra/fields/active_resolution_advisory_one_or_same_separation.go:93 *)

Definition ActiveRACorrective : ActiveRAPreventiveCorrective := 1. (* pkg/acas/ra/fields/active_resolution_advisory_one_or_same_separation.go:95 *)

Definition ActiveRASenseUpward : ActiveRASense := 0. (* pkg/acas/ra/fields/active_resolution_advisory_one_or_same_separation.go:115 *)

Definition ActiveRASenseDownward : ActiveRASense := 1. (* pkg/acas/ra/fields/active_resolution_advisory_one_or_same_separation.go:117 *)

Definition ActiveRAVerticalSpeedLimit : ActiveRAVerticalSpeedLimitOrPositive := 0. (* pkg/acas/ra/fields/active_resolution_advisory_one_or_same_separation.go:137 *)

Definition ActiveRAPositive : ActiveRAVerticalSpeedLimitOrPositive := 1. (* pkg/acas/ra/fields/active_resolution_advisory_one_or_same_separation.go:139 *)

Definition MTEOneOrZero : MultipleThreatEncounter := 0. (* pkg/acas/ra/fields/multiple_threat_encounter.go:13 *)

Definition MTETwoOrMore : MultipleThreatEncounter := 1. (* pkg/acas/ra/fields/multiple_threat_encounter.go:15 *)

Definition RATCurrent : RATerminatedIndicator := 0. (* pkg/acas/ra/fields/resolution_advisory_terminated.go:12 *)

Definition RATTerminated : RATerminatedIndicator := 1. (* pkg/acas/ra/fields/resolution_advisory_terminated.go:14 *)

Definition AltitudeInvalid : AltitudeStatus := 0. (* pkg/acas/ra/fields/threat_identity_altitude.go:14 *)

Definition AltitudeValid : AltitudeStatus := 1. (* pkg/acas/ra/fields/threat_identity_altitude.go:16 *)

Definition ThreatTypeNoIdentity : ThreatTypeIndicator := 0. (* pkg/acas/ra/fields/threat_type_indicator.go:12 *)

Definition ThreatTypeModeS : ThreatTypeIndicator := 1. (* pkg/acas/ra/fields/threat_type_indicator.go:14 *)

Definition ThreatTypeAltitudeRangeBearing : ThreatTypeIndicator := 2. (* pkg/acas/ra/fields/threat_type_indicator.go:16 *)

Definition ThreatTypeReserved3 : ThreatTypeIndicator := 3. (* pkg/acas/ra/fields/threat_type_indicator.go:18 *)

(* pkg/acas/ra/fields/active_resolution_advisory_multiple_threats.go:18-20 *)
Definition ActiveRAMultipleThreatsDifferentSeparation_GetType (multipleThreatsDifferentSeparation : ActiveRAMultipleThreatsDifferentSeparation) : RAType :=
  MultipleThreatDifferentSeparation.

(* pkg/acas/ra/fields/active_resolution_advisory_multiple_threats.go:23-37 *)
Definition ActiveRAMultipleThreatsDifferentSeparation_ToString (multipleThreatsDifferentSeparation : ActiveRAMultipleThreatsDifferentSeparation) : string :=
  (("Type: Multiple threats with separation in different directions" ++ nl ++ "Require a correction in the upward sense: ")%string ++ bool_str multipleThreatsDifferentSeparation.(ActiveRAMultipleThreatsDifferentSeparation_RequiresCorrectionUpwardSense) ++
      (nl ++ "Requires a positive climb: ")%string ++ bool_str multipleThreatsDifferentSeparation.(ActiveRAMultipleThreatsDifferentSeparation_RequiresPositiveClimb) ++
      (nl ++ "Requires a correction in the downward sense: ")%string ++ bool_str multipleThreatsDifferentSeparation.(ActiveRAMultipleThreatsDifferentSeparation_RequiresCorrectionDownwardSense) ++
      (nl ++ "Requires a positive descend: ")%string ++ bool_str multipleThreatsDifferentSeparation.(ActiveRAMultipleThreatsDifferentSeparation_RequiresPositiveDescend) ++
      (nl ++ "Requires a crossing: ")%string ++ bool_str multipleThreatsDifferentSeparation.(ActiveRAMultipleThreatsDifferentSeparation_RequiresCrossing) ++
      (nl ++ "Is a sense reversal: ")%string ++ bool_str multipleThreatsDifferentSeparation.(ActiveRAMultipleThreatsDifferentSeparation_IsSenseReversal))%string.

(* pkg/acas/ra/fields/active_resolution_advisory_multiple_threats.go:40-80 *)
Definition ReadARAMultipleThreatsDifferentSeparation (data : list Z) : res ActiveRAMultipleThreatsDifferentSeparation :=
  let requiresCorrectionUpwardSense := false in
  let* data0 := idx data 0 in
  let requiresCorrectionUpwardSense := if (negb ((Z.land data0 0x40) =? 0)) then
    let requiresCorrectionUpwardSense := true in
    requiresCorrectionUpwardSense
  else 
    requiresCorrectionUpwardSense in
  let requiresPositiveClimb := false in
  let requiresPositiveClimb := if (negb ((Z.land data0 0x20) =? 0)) then
    let requiresPositiveClimb := true in
    requiresPositiveClimb
  else 
    requiresPositiveClimb in
  let requiresCorrectionDownwardSense := false in
  let requiresCorrectionDownwardSense := if (negb ((Z.land data0 0x10) =? 0)) then
    let requiresCorrectionDownwardSense := true in
    requiresCorrectionDownwardSense
  else 
    requiresCorrectionDownwardSense in
  let requiresPositiveDescend := false in
  let requiresPositiveDescend := if (negb ((Z.land data0 8) =? 0)) then
    let requiresPositiveDescend := true in
    requiresPositiveDescend
  else 
    requiresPositiveDescend in
  let requiresCrossing := false in
  let requiresCrossing := if (negb ((Z.land data0 4) =? 0)) then
    let requiresCrossing := true in
    requiresCrossing
  else 
    requiresCrossing in
  let isSenseReversal := false in
  let isSenseReversal := if (negb ((Z.land data0 2) =? 0)) then
    let isSenseReversal := true in
    isSenseReversal
  else 
    isSenseReversal in
  Ok ({| ActiveRAMultipleThreatsDifferentSeparation_RequiresCorrectionUpwardSense := requiresCorrectionUpwardSense;
      ActiveRAMultipleThreatsDifferentSeparation_RequiresPositiveClimb := requiresPositiveClimb;
      ActiveRAMultipleThreatsDifferentSeparation_RequiresCorrectionDownwardSense := requiresCorrectionDownwardSense;
      ActiveRAMultipleThreatsDifferentSeparation_RequiresPositiveDescend := requiresPositiveDescend;
      ActiveRAMultipleThreatsDifferentSeparation_RequiresCrossing := requiresCrossing;
      ActiveRAMultipleThreatsDifferentSeparation_IsSenseReversal := isSenseReversal |}).

(* pkg/acas/ra/fields/active_resolution_advisory_no.go:9-11 *)
Definition ActiveRANoVerticalRAGenerated_GetType (noVerticalRAGenerated : ActiveRANoVerticalRAGenerated) : RAType :=
  NoVerticalRAGenerated.

(* pkg/acas/ra/fields/active_resolution_advisory_no.go:14-16 *)
Definition ActiveRANoVerticalRAGenerated_ToString (noVerticalRAGenerated : ActiveRANoVerticalRAGenerated) : string :=
  ("Type: no Resolution Advisory has been generated"%string).

(* pkg/acas/ra/fields/active_resolution_advisory_one_or_same_separation.go:18-20 *)
Definition ActiveRAOneThreatOrSameSeparation_GetType (oneThreatOrSameSeparation : ActiveRAOneThreatOrSameSeparation) : RAType :=
  OneThreatOrSameSeparation.

(* pkg/acas/ra/fields/active_resolution_advisory_one_or_same_separation.go:40-80 *)
Definition ReadARAOneThreatOrSameSeparation (data : list Z) : res ActiveRAOneThreatOrSameSeparation :=
  let preventiveCorrective := ActiveRAPreventive in
  let* data0 := idx data 0 in
  let preventiveCorrective := if (negb ((Z.land data0 0x40) =? 0)) then
    let preventiveCorrective := ActiveRACorrective in
    preventiveCorrective
  else 
    preventiveCorrective in
  let sense := ActiveRASenseUpward in
  let sense := if (negb ((Z.land data0 0x20) =? 0)) then
    let sense := ActiveRASenseDownward in
    sense
  else 
    sense in
  let isIncreasedRate := false in
  let isIncreasedRate := if (negb ((Z.land data0 0x10) =? 0)) then
    let isIncreasedRate := true in
    isIncreasedRate
  else 
    isIncreasedRate in
  let isSenseReversal := false in
  let isSenseReversal := if (negb ((Z.land data0 8) =? 0)) then
    let isSenseReversal := true in
    isSenseReversal
  else 
    isSenseReversal in
  let isAltitudeCrossing := false in
  let isAltitudeCrossing := if (negb ((Z.land data0 4) =? 0)) then
    let isAltitudeCrossing := true in
    isAltitudeCrossing
  else 
    isAltitudeCrossing in
  let verticalSpeedLimitOrPositive := ActiveRAVerticalSpeedLimit in
  let verticalSpeedLimitOrPositive := if (negb ((Z.land data0 2) =? 0)) then
    let verticalSpeedLimitOrPositive := ActiveRAPositive in
    verticalSpeedLimitOrPositive
  else 
    verticalSpeedLimitOrPositive in
  Ok ({| ActiveRAOneThreatOrSameSeparation_PreventiveCorrective := preventiveCorrective;
      ActiveRAOneThreatOrSameSeparation_Sense := sense;
      ActiveRAOneThreatOrSameSeparation_IsIncreasedRate := isIncreasedRate;
      ActiveRAOneThreatOrSameSeparation_IsSenseReversal := isSenseReversal;
      ActiveRAOneThreatOrSameSeparation_IsAltitudeCrossing := isAltitudeCrossing;
      ActiveRAOneThreatOrSameSeparation_VerticalSpeedLimitOrPositive := verticalSpeedLimitOrPositive |}).

(* pkg/acas/ra/fields/active_resolution_advisory_one_or_same_separation.go:99-108 *)
Definition ActiveRAPreventiveCorrective_ToString (preventiveCorrective : ActiveRAPreventiveCorrective) : string :=
  if (preventiveCorrective =? ActiveRAPreventive) then
    "Preventive"%string
  else if (preventiveCorrective =? ActiveRACorrective) then
    "Corrective"%string
  else 
    (dec preventiveCorrective ++ " - Unknown code"%string)%string.

(* pkg/acas/ra/fields/active_resolution_advisory_one_or_same_separation.go:121-130 *)
Definition ActiveRASense_ToString (sense : ActiveRASense) : string :=
  if (ActiveRASenseUpward =? ActiveRASenseUpward) then
    "Upward"%string
  else if (ActiveRASenseUpward =? ActiveRASenseDownward) then
    "Downward"%string
  else 
    (dec sense ++ " - Unknown code"%string)%string.

(* pkg/acas/ra/fields/active_resolution_advisory_one_or_same_separation.go:143-152 *)
Definition ActiveRAVerticalSpeedLimitOrPositive_ToString (verticalSpeedLimitOrPositive : ActiveRAVerticalSpeedLimitOrPositive) : string :=
  if (verticalSpeedLimitOrPositive =? ActiveRAVerticalSpeedLimit) then
    "Vertical Speed Limit"%string
  else if (verticalSpeedLimitOrPositive =? ActiveRAPositive) then
    "Positive"%string
  else 
    (dec verticalSpeedLimitOrPositive ++ " - Unknown code"%string)%string.

(* pkg/acas/ra/fields/multiple_threat_encounter.go:19-28 *)
Definition MultipleThreatEncounter_ToString (multipleThreatEncounter : MultipleThreatEncounter) : string :=
  if (multipleThreatEncounter =? MTEOneOrZero) then
    "One or no threat is currently being processed by the ACAS"%string
  else if (multipleThreatEncounter =? MTETwoOrMore) then
    "Two or more threats are currently being processed by the ACAS"%string
  else 
    (dec multipleThreatEncounter ++ " - Unknown code"%string)%string.

(* pkg/acas/ra/fields/multiple_threat_encounter.go:31-39 *)
Definition ReadMultipleThreatEncounter (data : list Z) : res MultipleThreatEncounter :=
  let mte := MTEOneOrZero in
  let* data2 := idx data 2 in
  let mte := if (negb ((Z.shiftr (Z.land data2 0x10) 4) =? 0)) then
    let mte := MTETwoOrMore in
    mte
  else 
    mte in
  Ok mte.

(* pkg/acas/ra/fields/resolution_advisory_complement.go:18-27 *)
Definition RAComplement_ToString (complement : RAComplement) : string :=
  ("Do not pass below: "%string ++ bool_str complement.(RAComplement_DoNotPassBelow) ++
      (nl ++ "Do not pass above: ")%string ++ bool_str complement.(RAComplement_DoNotPassAbove) ++
      (nl ++ "Do not turn left:  ")%string ++ bool_str complement.(RAComplement_DoNotTurnLeft) ++
      (nl ++ "Do not turn right: ")%string ++ bool_str complement.(RAComplement_DoNotTurnRight))%string.

(* pkg/acas/ra/fields/resolution_advisory_complement.go:30-38 *)
Definition ReadRAComplement (data : list Z) : res RAComplement :=
  let* data1 := idx data 1 in
  let* data2 := idx data 2 in
  Ok ({| RAComplement_DoNotPassBelow := (negb ((Z.land data1 2) =? 0));
      RAComplement_DoNotPassAbove := (negb ((Z.land data1 1) =? 0));
      RAComplement_DoNotTurnLeft := (negb ((Z.land data2 0x80) =? 0));
      RAComplement_DoNotTurnRight := (negb ((Z.land data2 0x40) =? 0)) |}).

(* pkg/acas/ra/fields/resolution_advisory_terminated.go:18-27 *)
Definition RATerminatedIndicator_ToString (terminatedIndicator : RATerminatedIndicator) : string :=
  if (terminatedIndicator =? RATCurrent) then
    "ACAS is currently generating the RA"%string
  else if (terminatedIndicator =? RATTerminated) then
    "the RA indicated has been terminated"%string
  else 
    (dec terminatedIndicator ++ " - Unknown code"%string)%string.

(* pkg/acas/ra/fields/resolution_advisory_terminated.go:30-38 *)
Definition ReadRATerminatedIndicator (data : list Z) : res RATerminatedIndicator :=
  let rat := RATCurrent in
  let* data2 := idx data 2 in
  let rat := if (negb ((Z.land data2 0x20) =? 0)) then
    let rat := RATTerminated in
    rat
  else 
    rat in
  Ok rat.

(* pkg/acas/ra/fields/threat_identity_address.go:13-18 *)
Definition ThreatIdentityAddress_ToString (address : ThreatIdentityAddress) : string :=
  (hex2 (u8 (Z.shiftr (Z.land address 0xff0000) 16)) ++ " "%string ++ hex2 (u8 (Z.shiftr (Z.land address 0xff00) 8)) ++ " "%string ++ hex2 (u8 (Z.land address 0xff)) ++ " "%string)%string.

(* pkg/acas/ra/fields/threat_identity_address.go:21-26 *)
Definition ReadThreatIdentityAddress (data : list Z) : res ThreatIdentityAddress :=
  let* data2 := idx data 2 in
  let* data3 := idx data 3 in
  let* data4 := idx data 4 in
  let* data5 := idx data 5 in
  let bits := (bitutils.Pack4Bytes data2 data3 data4 data5) in
  let bits := (Z.land (Z.shiftr bits 2) 0xffffff) in
  Ok bits.

(* pkg/acas/ra/fields/threat_identity_altitude.go:26-72 *)
Definition ReadThreatIdentityAltitude (data : list Z) : res ThreatIdentityAltitude :=
  let* data4 := idx data 4 in
  let altitudeCode := (Z.shiftr (Z.land data4 0xe0) 5) in
  let* data3 := idx data 3 in
  let altitudeCode := (u16 (altitudeCode + (u16 (Z.shiftl (Z.land data3 7) 3)))) in
  let altitudeCode := (u16 (altitudeCode + (u16 (Z.shiftl (Z.land data3 0xf0) 2)))) in
  let* data2 := idx data 2 in
  let altitudeCode := (u16 (altitudeCode + (u16 (Z.shiftl (Z.land data2 3) 2)))) in
  if (altitudeCode =? 0) then
    Ok ({| ThreatIdentityAltitude_AltitudeStatus := AltitudeInvalid; ThreatIdentityAltitude_AltitudeInFeet := 0 |})
  else 
    let c1 := (negb ((Z.land altitudeCode 0x800) =? 0)) in
    let a1 := (negb ((Z.land altitudeCode 0x400) =? 0)) in
    let c2 := (negb ((Z.land altitudeCode 0x200) =? 0)) in
    let a2 := (negb ((Z.land altitudeCode 0x100) =? 0)) in
    let c4 := (negb ((Z.land altitudeCode 0x80) =? 0)) in
    let a4 := (negb ((Z.land altitudeCode 0x40) =? 0)) in
    let b1 := (negb ((Z.land altitudeCode 0x20) =? 0)) in
    let d1 := (negb ((Z.land altitudeCode 0x10) =? 0)) in
    let b2 := (negb ((Z.land altitudeCode 8) =? 0)) in
    let d2 := (negb ((Z.land altitudeCode 4) =? 0)) in
    let b4 := (negb ((Z.land altitudeCode 2) =? 0)) in
    let d4 := (negb ((Z.land altitudeCode 1) =? 0)) in
    match bitutils.GillhamToAltitude d1 d2 d4 a1 a2 a4 b1 b2 b4 c1 c2 c4 with
    | Ok altitudeFeet =>
      Ok ({| ThreatIdentityAltitude_AltitudeStatus := AltitudeValid;
      ThreatIdentityAltitude_AltitudeInFeet := altitudeFeet |})
    | Err e =>
      Err ("the Altitude field is malformed"%string)
    | Panic => Panic
    end.

(* pkg/acas/ra/fields/threat_identity_altitude.go:75-84 *)
Definition AltitudeStatus_ToString (altitudeStatus : AltitudeStatus) : string :=
  if (altitudeStatus =? AltitudeInvalid) then
    "Not Available or Invalid"%string
  else if (altitudeStatus =? AltitudeValid) then
    "Valid"%string
  else 
    (dec altitudeStatus ++ " - Unknown code"%string)%string.

(* pkg/acas/ra/fields/threat_identity_altitude.go:87-89 *)
Definition ThreatIdentityAltitude_ToString (altitude : ThreatIdentityAltitude) : string :=
  (dec altitude.(ThreatIdentityAltitude_AltitudeInFeet) ++ " ft / Status: "%string ++ (AltitudeStatus_ToString altitude.(ThreatIdentityAltitude_AltitudeStatus)))%string.

(* pkg/acas/ra/fields/threat_identity_bearing.go:12-23 *)
Definition ThreatIdentityBearing_ToString (threatBearing : ThreatIdentityBearing) : string :=
  if (threatBearing =? 0) then
    " 0 - No bearing estimate available"%string
  else if ((1 <=? threatBearing) && (threatBearing <=? 60)) then
    (dec threatBearing ++ " - between "%string ++ dec (u8 ((u8 (threatBearing - 1)) * 6)) ++ " and "%string ++ dec (u8 (threatBearing * 6)))%string
  else if ((61 <=? threatBearing) && (threatBearing <=? 63)) then
    (dec threatBearing ++ " - Not assigned"%string)%string
  else 
    (dec threatBearing ++ " - Unknown code"%string)%string.

(* pkg/acas/ra/fields/threat_identity_bearing.go:31-39 *)
Definition ThreatIdentityBearing_GetBearing (threatBearing : ThreatIdentityBearing) : Z :=
  if (threatBearing =? 0) then
    0
  else if (threatBearing >=? 61) then
    363
  else 
    (i64 ((i64 (threatBearing * 6)) - 3)).

(* pkg/acas/ra/fields/threat_identity_bearing.go:42-46 *)
Definition ReadThreatIdentityBearing (data : list Z) : res ThreatIdentityBearing :=
  let* data5 := idx data 5 in
  let bits := (Z.land data5 0x3f) in
  Ok bits.

(* pkg/acas/ra/fields/threat_identity_range.go:29-37 *)
Definition ThreatIdentityRange_GetRange (threatRange : ThreatIdentityRange) : f64 :=
  if ((threatRange =? 0) || (threatRange =? 1)) then
    (f64_lit 0 1)
  else if (threatRange >=? 127) then
    (f64_lit 63 5)
  else 
    (f64_div (f64_sub (f64_of_Z threatRange) (f64_lit 1 1)) (f64_lit 10 1)).

(* pkg/acas/ra/fields/threat_identity_range.go:40-44 *)
Definition ReadThreatIdentityRange (data : list Z) : res ThreatIdentityRange :=
  let* data4 := idx data 4 in
  let* data5 := idx data 5 in
  let bits := (u8 ((u8 (Z.shiftl (Z.land data4 0x1f) 2)) + (Z.shiftr (Z.land data5 0xa0) 6))) in
  Ok bits.

(* pkg/acas/ra/fields/threat_type_indicator.go:22-35 *)
Definition ThreatTypeIndicator_ToString (indicator : ThreatTypeIndicator) : string :=
  if (indicator =? ThreatTypeNoIdentity) then
    "0 - No identity data in TID"%string
  else if (indicator =? ThreatTypeModeS) then
    "1 - TID contains a Mode S transponder address"%string
  else if (indicator =? ThreatTypeAltitudeRangeBearing) then
    "2 - TID contains altitude, range and bearing data"%string
  else if (indicator =? ThreatTypeReserved3) then
    "3 - Not assigned"%string
  else 
    (dec indicator ++ " - Unknown code"%string)%string.

(* pkg/acas/ra/fields/threat_type_indicator.go:38-42 *)
Definition ReadThreatTypeIndicator (data : list Z) : res ThreatTypeIndicator :=
  let* data2 := idx data 2 in
  let bits := (Z.shiftr (Z.land data2 0xc) 2) in
  Ok bits.

(* dynamic dispatch of method GetType of interface ActiveResolutionAdvisory *)
Definition IActiveResolutionAdvisory_GetType (v : ActiveResolutionAdvisory) : RAType :=
  match v with
  | IActiveResolutionAdvisory_ActiveRAMultipleThreatsDifferentSeparation x => ActiveRAMultipleThreatsDifferentSeparation_GetType x
  | IActiveResolutionAdvisory_ActiveRAOneThreatOrSameSeparation x => ActiveRAOneThreatOrSameSeparation_GetType x
  | IActiveResolutionAdvisory_ActiveRANoVerticalRAGenerated x => ActiveRANoVerticalRAGenerated_GetType x
  end.

(* pkg/acas/ra/fields/active_resolution_advisory.go:26-40 *)
Definition ReadActiveResolutionAdvisory (data : list Z) : res ActiveResolutionAdvisory :=
  let* data2 := idx data 2 in
  let mte := (Z.shiftr (Z.land data2 0x10) 4) in
  let* data0 := idx data 0 in
  let araFirstBit := (Z.shiftr (Z.land data0 0x80) 7) in
  if (araFirstBit =? 1) then
    let* r := ReadARAOneThreatOrSameSeparation data in
    Ok (IActiveResolutionAdvisory_ActiveRAOneThreatOrSameSeparation r)
  else if (negb (mte =? 0)) then
    let* r_1 := ReadARAMultipleThreatsDifferentSeparation data in
    Ok (IActiveResolutionAdvisory_ActiveRAMultipleThreatsDifferentSeparation r_1)
  else 
    Ok (IActiveResolutionAdvisory_ActiveRANoVerticalRAGenerated mkActiveRANoVerticalRAGenerated).

(* pkg/acas/ra/fields/active_resolution_advisory_one_or_same_separation.go:23-37 *)
Definition ActiveRAOneThreatOrSameSeparation_ToString (oneThreatOrSameSeparation : ActiveRAOneThreatOrSameSeparation) : string :=
  (("Type: One threat or multiple threats with separation in same direction" ++ nl ++ "Preventive/Corrective: ")%string ++ (ActiveRAPreventiveCorrective_ToString oneThreatOrSameSeparation.(ActiveRAOneThreatOrSameSeparation_PreventiveCorrective)) ++
      (nl ++ "Sense generated: ")%string ++ (ActiveRASense_ToString oneThreatOrSameSeparation.(ActiveRAOneThreatOrSameSeparation_Sense)) ++
      (nl ++ "Is increased rate: ")%string ++ bool_str oneThreatOrSameSeparation.(ActiveRAOneThreatOrSameSeparation_IsIncreasedRate) ++
      (nl ++ "Is sense reversal: ")%string ++ bool_str oneThreatOrSameSeparation.(ActiveRAOneThreatOrSameSeparation_IsSenseReversal) ++
      (nl ++ "Is altitude crossing: ")%string ++ bool_str oneThreatOrSameSeparation.(ActiveRAOneThreatOrSameSeparation_IsAltitudeCrossing) ++
      (nl ++ "Vertical Speed Limit/Positive: ")%string ++ (ActiveRAVerticalSpeedLimitOrPositive_ToString oneThreatOrSameSeparation.(ActiveRAOneThreatOrSameSeparation_VerticalSpeedLimitOrPositive)))%string.

(* pkg/acas/ra/fields/threat_identity_range.go:12-24 *)
Definition ThreatIdentityRange_ToString (ffmt : spec_float -> string) (threatRange : ThreatIdentityRange) : string :=
  if (threatRange =? 0) then
    " 0 - No range estimate available"%string
  else if (threatRange =? 1) then
    " 1 - Less than 0.05"%string
  else if ((2 <=? threatRange) && (threatRange <=? 126)) then
    (dec threatRange ++ " - "%string ++ ffmt (ThreatIdentityRange_GetRange threatRange) ++ " +/- 0.05 NM"%string)%string
  else if (threatRange =? 127) then
    "Greater than 12.55"%string
  else 
    (dec threatRange ++ " - Unknown code"%string)%string.

(* dynamic dispatch of method ToString of interface ActiveResolutionAdvisory *)
Definition IActiveResolutionAdvisory_ToString (v : ActiveResolutionAdvisory) : string :=
  match v with
  | IActiveResolutionAdvisory_ActiveRAMultipleThreatsDifferentSeparation x => ActiveRAMultipleThreatsDifferentSeparation_ToString x
  | IActiveResolutionAdvisory_ActiveRAOneThreatOrSameSeparation x => ActiveRAOneThreatOrSameSeparation_ToString x
  | IActiveResolutionAdvisory_ActiveRANoVerticalRAGenerated x => ActiveRANoVerticalRAGenerated_ToString x
  end.
