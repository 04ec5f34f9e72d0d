(* GENERATED by tools/go2coq.py from /repo/pkg/acas/ra -- do not edit by hand.
   One Gallina definition per Go declaration; each is preceded by the file and lines it models.
   Error values are represented by their text, see DESIGN.md.
*)
From Verif Require Import GoBase.
From Verif.Gen Require acas_ra_fields.
Local Open Scope Z_scope.

(* pkg/acas/ra/resolution_advisory.go:13-23 *)
Record ResolutionAdvisory := mkResolutionAdvisory {
  ResolutionAdvisory_ActiveRA : acas_ra_fields.ActiveResolutionAdvisory;
  ResolutionAdvisory_RAComplement : acas_ra_fields.RAComplement;
  ResolutionAdvisory_RATerminatedIndicator : acas_ra_fields.RATerminatedIndicator;
  ResolutionAdvisory_MultipleThreatEncounter : acas_ra_fields.MultipleThreatEncounter;
  ResolutionAdvisory_ThreatTypeIndicator : acas_ra_fields.ThreatTypeIndicator;
  ResolutionAdvisory_ThreatIdentityAddress : option acas_ra_fields.ThreatIdentityAddress;
  ResolutionAdvisory_ThreatIdentityAltitude : option acas_ra_fields.ThreatIdentityAltitude;
  ResolutionAdvisory_ThreatIdentityRange : option acas_ra_fields.ThreatIdentityRange;
  ResolutionAdvisory_ThreatIdentityBearing : option acas_ra_fields.ThreatIdentityBearing }.

(* pkg/acas/ra/resolution_advisory.go:26-67 *)
Definition ResolutionAdvisory_ToString (ffmt : spec_float -> string) (message : ResolutionAdvisory) : res string :=
  let threatIdentity := ""%string in
  let* threatIdentity := (if (message.(ResolutionAdvisory_ThreatTypeIndicator) =? acas_ra_fields.ThreatTypeNoIdentity) then
    let threatIdentity := ""%string in
    Ok threatIdentity
  else 
    let* threatIdentity := (if (message.(ResolutionAdvisory_ThreatTypeIndicator) =? acas_ra_fields.ThreatTypeModeS) then
      let* threatIdentity := (if (negb (is_none message.(ResolutionAdvisory_ThreatIdentityAddress))) then
        let* pt := deref message.(ResolutionAdvisory_ThreatIdentityAddress) in
        let threatIdentity := ((nl ++ "Threat Mode-S Identity:                          ")%string ++ (acas_ra_fields.ThreatIdentityAddress_ToString pt))%string in
        Ok threatIdentity
      else 
        let threatIdentity := ((nl ++ "Threat Mode-S Identity:                          [Error: Missing Mod-S Address]")%string) in
        Ok threatIdentity) in
      Ok threatIdentity
    else 
      let* threatIdentity := (if (message.(ResolutionAdvisory_ThreatTypeIndicator) =? acas_ra_fields.ThreatTypeAltitudeRangeBearing) then
        let* threatIdentity := (if (negb (is_none message.(ResolutionAdvisory_ThreatIdentityAltitude))) then
          let* pt_1 := deref message.(ResolutionAdvisory_ThreatIdentityAltitude) in
          let threatIdentity := ((nl ++ "Threat Altitude:                                 ")%string ++ (acas_ra_fields.ThreatIdentityAltitude_ToString pt_1))%string in
          Ok threatIdentity
        else 
          let threatIdentity := ((nl ++ "Threat Altitude:                                 [Error: Missing Threat Altitude]")%string) in
          Ok threatIdentity) in
        let* threatIdentity := (if (negb (is_none message.(ResolutionAdvisory_ThreatIdentityRange))) then
          let* pt_2 := deref message.(ResolutionAdvisory_ThreatIdentityRange) in
          let threatIdentity := (threatIdentity ++ ((nl ++ "Threat Range:                                    ")%string ++ (acas_ra_fields.ThreatIdentityRange_ToString ffmt pt_2))%string)%string in
          Ok threatIdentity
        else 
          let threatIdentity := (threatIdentity ++ ((nl ++ "Threat Range:                                   [Error: Missing Threat Range]")%string))%string in
          Ok threatIdentity) in
        let* threatIdentity := (if (negb (is_none message.(ResolutionAdvisory_ThreatIdentityBearing))) then
          let* pt_3 := deref message.(ResolutionAdvisory_ThreatIdentityBearing) in
          let threatIdentity := (threatIdentity ++ ((nl ++ "Threat Bearing:                                  ")%string ++ (acas_ra_fields.ThreatIdentityBearing_ToString pt_3))%string)%string in
          Ok threatIdentity
        else 
          let threatIdentity := (threatIdentity ++ ((nl ++ "Threat Bearing:                                 [Error: Missing Threat Bearing]")%string))%string in
          Ok threatIdentity) in
        Ok threatIdentity
      else 
        Ok threatIdentity) in
      Ok threatIdentity) in
    Ok threatIdentity) in
  Ok ((("Active Resolution Advisory:" ++ nl)%string ++ (PrefixMultiLine (acas_ra_fields.IActiveResolutionAdvisory_ToString message.(ResolutionAdvisory_ActiveRA)) ("    "%string)) ++
      (nl ++ "Active Resolution Advisory Complement:" ++ nl)%string ++ (PrefixMultiLine (acas_ra_fields.RAComplement_ToString message.(ResolutionAdvisory_RAComplement)) ("    "%string)) ++
      (nl ++ "Active Resolution Advisory Terminated Indicator: ")%string ++ (acas_ra_fields.RATerminatedIndicator_ToString message.(ResolutionAdvisory_RATerminatedIndicator)) ++
      (nl ++ "Multiple Threat Encounter:                       ")%string ++ (acas_ra_fields.MultipleThreatEncounter_ToString message.(ResolutionAdvisory_MultipleThreatEncounter)) ++
      (nl ++ "Threat Type Indicator:                           ")%string ++ (acas_ra_fields.ThreatTypeIndicator_ToString message.(ResolutionAdvisory_ThreatTypeIndicator)) ++ threatIdentity)%string).

(* pkg/acas/ra/resolution_advisory.go:76-123 *)
Definition ReadResolutionAdvisory (data : list Z) : res ResolutionAdvisory :=
  if (negb ((len data) =? 6)) then
    Err ("the data for ACAS ResolutionAdvisory message must be 6 bytes long"%string)
  else 
    let threatIdentityAddress := None in
    let threatIdentityAltitude := None in
    let threatIdentityRange := None in
    let threatIdentityBearing := None in
    let* r := acas_ra_fields.ReadThreatTypeIndicator data in
    let threatTypeIndicator := r in
    if (threatTypeIndicator =? acas_ra_fields.ThreatTypeModeS) then
      let* r_1 := acas_ra_fields.ReadThreatIdentityAddress data in
      let address := r_1 in
      let threatIdentityAddress := (Some address) in
      let* r_2 := acas_ra_fields.ReadActiveResolutionAdvisory data in
      let* r_3 := acas_ra_fields.ReadRAComplement data in
      let* r_4 := acas_ra_fields.ReadRATerminatedIndicator data in
      let* r_5 := acas_ra_fields.ReadMultipleThreatEncounter data in
      Ok ({| ResolutionAdvisory_ActiveRA := r_2;
      ResolutionAdvisory_RAComplement := r_3;
      ResolutionAdvisory_RATerminatedIndicator := r_4;
      ResolutionAdvisory_MultipleThreatEncounter := r_5;
      ResolutionAdvisory_ThreatTypeIndicator := threatTypeIndicator;
      ResolutionAdvisory_ThreatIdentityAddress := threatIdentityAddress;
      ResolutionAdvisory_ThreatIdentityAltitude := threatIdentityAltitude;
      ResolutionAdvisory_ThreatIdentityRange := threatIdentityRange;
      ResolutionAdvisory_ThreatIdentityBearing := threatIdentityBearing |})
    else if (threatTypeIndicator =? acas_ra_fields.ThreatTypeAltitudeRangeBearing) then
      match acas_ra_fields.ReadThreatIdentityAltitude data with
      | Ok threatAltitude =>
        let* r_6 := acas_ra_fields.ReadThreatIdentityRange data in
        let threatRange := r_6 in
        let* r_7 := acas_ra_fields.ReadThreatIdentityBearing data in
        let threatBearing := r_7 in
        let threatIdentityAltitude := (Some threatAltitude) in
        let threatIdentityRange := (Some threatRange) in
        let threatIdentityBearing := (Some threatBearing) in
        let* r_8 := acas_ra_fields.ReadActiveResolutionAdvisory data in
        let* r_9 := acas_ra_fields.ReadRAComplement data in
        let* r_10 := acas_ra_fields.ReadRATerminatedIndicator data in
        let* r_11 := acas_ra_fields.ReadMultipleThreatEncounter data in
        Ok ({| ResolutionAdvisory_ActiveRA := r_8;
      ResolutionAdvisory_RAComplement := r_9;
      ResolutionAdvisory_RATerminatedIndicator := r_10;
      ResolutionAdvisory_MultipleThreatEncounter := r_11;
      ResolutionAdvisory_ThreatTypeIndicator := threatTypeIndicator;
      ResolutionAdvisory_ThreatIdentityAddress := threatIdentityAddress;
      ResolutionAdvisory_ThreatIdentityAltitude := threatIdentityAltitude;
      ResolutionAdvisory_ThreatIdentityRange := threatIdentityRange;
      ResolutionAdvisory_ThreatIdentityBearing := threatIdentityBearing |})
      | Err e =>
        let* r_12 := acas_ra_fields.ReadThreatIdentityRange data in
        let threatRange := r_12 in
        let* r_13 := acas_ra_fields.ReadThreatIdentityBearing data in
        let threatBearing := r_13 in
        let threatIdentityAltitude := (Some (acas_ra_fields.mkThreatIdentityAltitude 0 0)) in
        let threatIdentityRange := (Some threatRange) in
        let threatIdentityBearing := (Some threatBearing) in
        Err e
      | Panic => Panic
      end
    else 
      let* r_14 := acas_ra_fields.ReadActiveResolutionAdvisory data in
      let* r_15 := acas_ra_fields.ReadRAComplement data in
      let* r_16 := acas_ra_fields.ReadRATerminatedIndicator data in
      let* r_17 := acas_ra_fields.ReadMultipleThreatEncounter data in
      Ok ({| ResolutionAdvisory_ActiveRA := r_14;
      ResolutionAdvisory_RAComplement := r_15;
      ResolutionAdvisory_RATerminatedIndicator := r_16;
      ResolutionAdvisory_MultipleThreatEncounter := r_17;
      ResolutionAdvisory_ThreatTypeIndicator := threatTypeIndicator;
      ResolutionAdvisory_ThreatIdentityAddress := threatIdentityAddress;
      ResolutionAdvisory_ThreatIdentityAltitude := threatIdentityAltitude;
      ResolutionAdvisory_ThreatIdentityRange := threatIdentityRange;
      ResolutionAdvisory_ThreatIdentityBearing := threatIdentityBearing |}).
