(* GENERATED by tools/go2coq.py from /repo/pkg/adsb/no_position_information -- do not edit by hand.
   One Gallina definition per Go declaration; each is preceded by the file and lines it models.
   Error values are represented by their text, see DESIGN.md.
*)
From Verif Require Import GoBase.
From Verif.Gen Require adsb bds05.
Local Open Scope Z_scope.

(* pkg/adsb/no_position_information/no_position_information.go:9-14 *)
Record NoPositionInformation := mkNoPositionInformation {
  NoPositionInformation_adsbVersion : adsb.ADSBVersion;
  NoPositionInformation_FormatTypeCode : Z;
  NoPositionInformation_AltitudeBarometric : Z;
  NoPositionInformation_NavigationIntegrityCategory : Z }.

(* pkg/adsb/no_position_information/no_position_information.go:17-19 *)
Definition NoPositionInformation_GetADSBVersion (message : NoPositionInformation) : adsb.ADSBVersion :=
  message.(NoPositionInformation_adsbVersion).

(* pkg/adsb/no_position_information/no_position_information.go:22-24 *)
Definition NoPositionInformation_CheckCoherency (message : NoPositionInformation) : res unit :=
  Ok tt.

(* pkg/adsb/no_position_information/no_position_information.go:26-35 *)
Definition NoPositionInformation_ToString (message : NoPositionInformation) : string :=
  (("Message:                           No Position Information" ++ nl ++ "Format Type Code:                  ")%string ++ dec message.(NoPositionInformation_FormatTypeCode) ++
      (nl ++ "Altitude Baro (feet):              ")%string ++ dec message.(NoPositionInformation_AltitudeBarometric) ++
      (nl ++ "Navigation Integrity Category:     ")%string ++ dec message.(NoPositionInformation_NavigationIntegrityCategory))%string.

(* pkg/adsb/no_position_information/no_position_information.go:38-54 *)
Definition ReadNoPositionInformation (adsbVersion : adsb.ADSBVersion) (data : list Z) : res NoPositionInformation :=
  let* data1 := idx data 1 in
  let* data2 := idx data 2 in
  let dataTmp := [120; data1; data2; 0; 0; 0; 0] in
  match bds05.ReadAirbornePosition dataTmp with
  | Ok bds =>
    Ok ({| NoPositionInformation_adsbVersion := adsbVersion;
      NoPositionInformation_FormatTypeCode := 0;
      NoPositionInformation_AltitudeBarometric := bds.(bds05.AirbornePosition_AltitudeInFeet);
      NoPositionInformation_NavigationIntegrityCategory := 0 |})
  | Err e =>
    Err e
  | Panic => Panic
  end.
