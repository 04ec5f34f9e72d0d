(* Specification of the ACAS resolution advisory report: 48 bits, common to bits 9-56 of
   BDS 3,0, of the MV field of a DF16 reply and of the subtype 2 of BDS 6,1 (Annex 10
   vol. IV 4.3.8.4.2.2.1). Bits are counted from the beginning of the report. *)
From Verif Require Import GoBase Bits.
From Verif.Spec Require Import Altitude Floats.
From Verif.Gen Require acas_ra acas_ra_fields.
Local Open Scope Z_scope.

(* ARA, bits 1-14 *)
Definition active_ra (data : list Z) : acas_ra_fields.ActiveResolutionAdvisory :=
  if bit 1 data then
    acas_ra_fields.IActiveResolutionAdvisory_ActiveRAOneThreatOrSameSeparation
      {| acas_ra_fields.ActiveRAOneThreatOrSameSeparation_PreventiveCorrective := bits 2 2 data;
         acas_ra_fields.ActiveRAOneThreatOrSameSeparation_Sense := bits 3 3 data;
         acas_ra_fields.ActiveRAOneThreatOrSameSeparation_IsIncreasedRate := bit 4 data;
         acas_ra_fields.ActiveRAOneThreatOrSameSeparation_IsSenseReversal := bit 5 data;
         acas_ra_fields.ActiveRAOneThreatOrSameSeparation_IsAltitudeCrossing := bit 6 data;
         acas_ra_fields.ActiveRAOneThreatOrSameSeparation_VerticalSpeedLimitOrPositive := bits 7 7 data |}
  else if bit 20 data then
    acas_ra_fields.IActiveResolutionAdvisory_ActiveRAMultipleThreatsDifferentSeparation
      {| acas_ra_fields.ActiveRAMultipleThreatsDifferentSeparation_RequiresCorrectionUpwardSense := bit 2 data;
         acas_ra_fields.ActiveRAMultipleThreatsDifferentSeparation_RequiresPositiveClimb := bit 3 data;
         acas_ra_fields.ActiveRAMultipleThreatsDifferentSeparation_RequiresCorrectionDownwardSense := bit 4 data;
         acas_ra_fields.ActiveRAMultipleThreatsDifferentSeparation_RequiresPositiveDescend := bit 5 data;
         acas_ra_fields.ActiveRAMultipleThreatsDifferentSeparation_RequiresCrossing := bit 6 data;
         acas_ra_fields.ActiveRAMultipleThreatsDifferentSeparation_IsSenseReversal := bit 7 data |}
  else
    acas_ra_fields.IActiveResolutionAdvisory_ActiveRANoVerticalRAGenerated
      acas_ra_fields.mkActiveRANoVerticalRAGenerated.

(* TIDA, bits 23-35: C1 A1 C2 A2 C4 A4 0 B1 D1 B2 D2 B4 D4; status 0 (invalid) for
   the all-zero code, 1 (valid) otherwise *)
Inductive ThreatAltitude (data : list Z) : acas_ra_fields.ThreatIdentityAltitude -> Prop :=
| no_altitude : bits 23 28 data = 0 -> bits 30 35 data = 0 ->
    ThreatAltitude data {| acas_ra_fields.ThreatIdentityAltitude_AltitudeStatus := acas_ra_fields.AltitudeInvalid;
                           acas_ra_fields.ThreatIdentityAltitude_AltitudeInFeet := 0 |}
| altitude feet :
    ~ (bits 23 28 data = 0 /\ bits 30 35 data = 0) ->
    Gillham (bit 31 data) (bit 33 data) (bit 35 data)
            (bit 24 data) (bit 26 data) (bit 28 data)
            (bit 30 data) (bit 32 data) (bit 34 data)
            (bit 23 data) (bit 25 data) (bit 27 data) feet ->
    ThreatAltitude data {| acas_ra_fields.ThreatIdentityAltitude_AltitudeStatus := acas_ra_fields.AltitudeValid;
                           acas_ra_fields.ThreatIdentityAltitude_AltitudeInFeet := feet |}.

(* the report, given the data that identify the threat *)
Definition report (data : list Z) address altitude range bearing : acas_ra.ResolutionAdvisory :=
  {| acas_ra.ResolutionAdvisory_ActiveRA := active_ra data;
     acas_ra.ResolutionAdvisory_RAComplement :=
       {| acas_ra_fields.RAComplement_DoNotPassBelow := bit 15 data;
          acas_ra_fields.RAComplement_DoNotPassAbove := bit 16 data;
          acas_ra_fields.RAComplement_DoNotTurnLeft := bit 17 data;
          acas_ra_fields.RAComplement_DoNotTurnRight := bit 18 data |};
     acas_ra.ResolutionAdvisory_RATerminatedIndicator := bits 19 19 data;
     acas_ra.ResolutionAdvisory_MultipleThreatEncounter := bits 20 20 data;
     acas_ra.ResolutionAdvisory_ThreatTypeIndicator := bits 21 22 data;
     acas_ra.ResolutionAdvisory_ThreatIdentityAddress := address;
     acas_ra.ResolutionAdvisory_ThreatIdentityAltitude := altitude;
     acas_ra.ResolutionAdvisory_ThreatIdentityRange := range;
     acas_ra.ResolutionAdvisory_ThreatIdentityBearing := bearing |}.

(* The report says: no identity (TTI 0, 3), the Mode S address of the threat in bits 23-46
   (TTI 1), or its altitude, range (bits 36-42) and bearing (bits 43-48) (TTI 2) *)
Inductive Reports (data : list Z) : acas_ra.ResolutionAdvisory -> Prop :=
| no_identity : bits 21 22 data = 0 \/ bits 21 22 data = 3 ->
    Reports data (report data None None None None)
| mode_s : bits 21 22 data = 1 ->
    Reports data (report data (Some (bits 23 46 data)) None None None)
| arb alt : bits 21 22 data = 2 -> ThreatAltitude data alt ->
    Reports data (report data None (Some alt) (Some (bits 36 42 data)) (Some (bits 43 48 data))).
