(* GENERATED by tools/go2coq.py from /repo/pkg/bds/bds09/fields -- do not edit by hand.
   One Gallina definition per Go declaration; each is preceded by the file and lines it models.
   Error values are represented by their text, see DESIGN.md.
*)
From Verif Require Import GoBase.
From Verif.Gen Require bitutils.
Local Open Scope Z_scope.

(* pkg/bds/bds09/fields/ifr_capability.go:8 *)
Definition IFRCapability := Z.

(* pkg/bds/bds09/fields/intent_change.go:8 *)
Definition IntentChange := Z.

(* pkg/bds/bds09/fields/magnetic_heading.go:11 *)
Definition MagneticHeadingStatus := Z.

(* pkg/bds/bds09/fields/navigation_uncertainty_category.go:8 *)
Definition NavigationUncertaintyCategory := Z.

(* pkg/bds/bds09/fields/numeric_value_status.go:6 *)
Definition NumericValueStatus := Z.

(* pkg/bds/bds09/fields/subtype.go:10 *)
Definition Subtype := Z.

(* pkg/bds/bds09/fields/velocity_ew.go:11 *)
Definition DirectionEastWest := Z.

(* pkg/bds/bds09/fields/velocity_ns.go:11 *)
Definition DirectionNorthSouth := Z.

(* pkg/bds/bds09/fields/vertical_rate_source.go:8 *)
Definition VerticalRateSource := Z.

Definition IFRNoCapability : IFRCapability := 0. (* pkg/bds/bds09/fields/ifr_capability.go:13 *)

Definition IFRCapable : IFRCapability := 1. (* pkg/bds/bds09/fields/ifr_capability.go:16 *)

Definition ICNoChange : IntentChange := 0. (* pkg/bds/bds09/fields/intent_change.go:12 *)

Definition ICChangeInIntent : IntentChange := 1. (* pkg/bds/bds09/fields/intent_change.go:14 *)

Definition MHSNotAvailable : MagneticHeadingStatus := 0. (* pkg/bds/bds09/fields/magnetic_heading.go:15 *)

Definition MHSAvailable : MagneticHeadingStatus := 1. (* pkg/bds/bds09/fields/magnetic_heading.go:17 *)

Definition NUCPUnknown : NavigationUncertaintyCategory := 0. (* pkg/bds/bds09/fields/navigation_uncertainty_category.go:12 *)

Definition NUCPHorizontalLowerThan10VerticalLowerThan15Point2 : NavigationUncertaintyCategory := 1. (* pkg/bds/bds09/fields/navigation_uncertainty_category.go:14 *)

Definition NUCPHorizontalLowerThan3VerticalLowerThan4Point6 : NavigationUncertaintyCategory := 2. (* pkg/bds/bds09/fields/navigation_uncertainty_category.go:16 *)

Definition NUCPHorizontalLowerThan1VerticalLowerThan1Point5 : NavigationUncertaintyCategory := 3. (* pkg/bds/bds09/fields/navigation_uncertainty_category.go:18 *)

Definition NUCPHorizontalLowerThan0Point3VerticalLowerThan0Point46 : NavigationUncertaintyCategory := 4. (* pkg/bds/bds09/fields/navigation_uncertainty_category.go:20 *)

(* pkg/bds/bds09/fields/navigation_uncertainty_category.go:23-23 *)
Definition nucpHorizontalLabel : string := "Horizontal Velocity Error (95%):"%string.

(* pkg/bds/bds09/fields/navigation_uncertainty_category.go:24-24 *)
Definition nucpVerticalLabel : string := "Vertical Velocity Error (95%):"%string.

Definition NVSNoInformation : NumericValueStatus := 0. (* pkg/bds/bds09/fields/numeric_value_status.go:10 *)

Definition NVSRegular : NumericValueStatus := 1. (* pkg/bds/bds09/fields/numeric_value_status.go:12 *)

Definition NVSMaximum : NumericValueStatus := 2. (* pkg/bds/bds09/fields/numeric_value_status.go:14 *)

Definition SubtypeGroundSpeedNormal : Subtype := 1. (* pkg/bds/bds09/fields/subtype.go:14 *)

Definition SubtypeGroundSpeedSupersonic : Subtype := 2. (* pkg/bds/bds09/fields/subtype.go:16 *)

Definition SubtypeAirspeedNormal : Subtype := 3. (* pkg/bds/bds09/fields/subtype.go:18 *)

Definition SubtypeAirspeedSupersonic : Subtype := 4. (* pkg/bds/bds09/fields/subtype.go:20 *)

Definition DEWEast : DirectionEastWest := 0. (* pkg/bds/bds09/fields/velocity_ew.go:15 *)

Definition DEWWest : DirectionEastWest := 1. (* pkg/bds/bds09/fields/velocity_ew.go:17 *)

Definition DNSNorth : DirectionNorthSouth := 0. (* pkg/bds/bds09/fields/velocity_ns.go:15 *)

Definition DNSSouth : DirectionNorthSouth := 1. (* pkg/bds/bds09/fields/velocity_ns.go:17 *)

Definition VRSGNSS : VerticalRateSource := 0. (* pkg/bds/bds09/fields/vertical_rate_source.go:12 *)

Definition VRSBaro : VerticalRateSource := 1. (* pkg/bds/bds09/fields/vertical_rate_source.go:14 *)

(* pkg/bds/bds09/fields/airspeed.go:8-20 *)
Definition ReadAirspeedNormal (data : list Z) : res (Z * NumericValueStatus) :=
  let* data3 := idx data 3 in
  let byte1 := (Z.land data3 0x7f) in
  let* data4 := idx data 4 in
  let byte2 := (Z.land data4 0xe0) in
  let velocity := (Z.shiftr (bitutils.Pack2Bytes byte1 byte2) 5) in
  if (velocity =? 0) then
    Ok (0, NVSNoInformation)
  else if (velocity >=? 1023) then
    Ok (1023, NVSMaximum)
  else 
    Ok ((u16 (velocity - 1)), NVSRegular).

(* pkg/bds/bds09/fields/airspeed.go:23-35 *)
Definition ReadAirspeedSupersonic (data : list Z) : res (Z * NumericValueStatus) :=
  let* data3 := idx data 3 in
  let byte1 := (Z.land data3 0x7f) in
  let* data4 := idx data 4 in
  let byte2 := (Z.land data4 0xe0) in
  let velocity := (Z.shiftr (bitutils.Pack2Bytes byte1 byte2) 5) in
  if (velocity =? 0) then
    Ok (0, NVSNoInformation)
  else if (velocity >=? 1023) then
    Ok (4088, NVSMaximum)
  else 
    Ok ((u16 ((u16 (velocity - 1)) * 4)), NVSRegular).

(* pkg/bds/bds09/fields/height_difference.go:4-26 *)
Definition ReadHeightDifference (data : list Z) : res (Z * NumericValueStatus) :=
  let* data6 := idx data 6 in
  let negative := (negb ((Z.land data6 0x80) =? 0)) in
  let difference := (Z.land data6 0x7f) in
  if (difference =? 0) then
    Ok (0, NVSNoInformation)
  else if (difference >=? 127) then
    if negative then
      Ok ((-3150), NVSMaximum)
    else 
      Ok (3150, NVSMaximum)
  else 
    let difference := (i16 ((i16 (difference - 1)) * 25)) in
    let difference := if negative then
      let difference := (i16 (- difference)) in
      difference
    else 
      difference in
    Ok (difference, NVSRegular).

(* pkg/bds/bds09/fields/ifr_capability.go:20-30 *)
Definition IFRCapability_ToString (flag : IFRCapability) : string :=
  if (flag =? IFRNoCapability) then
    "0 - transmitting aircraft has no capability for ADS-B based conflict detection or higher level (class A1 or above) applications"%string
  else if (flag =? IFRCapable) then
    "1 - transmitting aircraft has capability for ADS-B-based conflict detection and higher level (class A1 or above) applications"%string
  else 
    (dec flag ++ " - Unknown code"%string)%string.

(* pkg/bds/bds09/fields/ifr_capability.go:33-36 *)
Definition ReadIFRCapability (data : list Z) : res IFRCapability :=
  let* data1 := idx data 1 in
  let bits := (Z.shiftr (Z.land data1 0x40) 6) in
  Ok bits.

(* pkg/bds/bds09/fields/intent_change.go:18-28 *)
Definition IntentChange_ToString (flag : IntentChange) : string :=
  if (flag =? ICNoChange) then
    "0 - no change in intent"%string
  else if (flag =? ICChangeInIntent) then
    "1 - intent change"%string
  else 
    (dec flag ++ " - Unknown code"%string)%string.

(* pkg/bds/bds09/fields/intent_change.go:31-34 *)
Definition ReadIntentChange (data : list Z) : res IntentChange :=
  let* data1 := idx data 1 in
  let bits := (Z.shiftr (Z.land data1 0x80) 7) in
  Ok bits.

(* pkg/bds/bds09/fields/magnetic_heading.go:21-31 *)
Definition MagneticHeadingStatus_ToString (bit_ : MagneticHeadingStatus) : string :=
  if (bit_ =? MHSNotAvailable) then
    "0 - Magnetic heading not available"%string
  else if (bit_ =? MHSAvailable) then
    "1 - Magnetic heading available"%string
  else 
    (dec bit_ ++ " - Unknown code"%string)%string.

(* pkg/bds/bds09/fields/magnetic_heading.go:34-43 *)
Definition ReadMagneticHeading (data : list Z) : res (f32 * MagneticHeadingStatus) :=
  let* data1 := idx data 1 in
  let status := (Z.shiftr (Z.land data1 4) 2) in
  let byte1 := (Z.land data1 3) in
  let* data2 := idx data 2 in
  let byte2 := data2 in
  let value := (f64_div (f64_mul (f64_of_Z (bitutils.Pack2Bytes byte1 byte2)) (f64_lit 360 1)) (f64_lit 1024 1)) in
  Ok ((f32_of_f64 value), status).

(* pkg/bds/bds09/fields/navigation_uncertainty_category.go:27-52 *)
Definition NavigationUncertaintyCategory_ToString (category : NavigationUncertaintyCategory) : string :=
  if (category =? NUCPUnknown) then
    "0 - Unknown "%string
  else if (category =? NUCPHorizontalLowerThan10VerticalLowerThan15Point2) then
    ("1 - "%string ++ nucpHorizontalLabel ++ " "%string ++ "< 10 m/s"%string ++ " / "%string ++ nucpVerticalLabel ++ " "%string ++ "< 15.2 m/s (50 fps)"%string)%string
  else if (category =? NUCPHorizontalLowerThan3VerticalLowerThan4Point6) then
    ("1 - "%string ++ nucpHorizontalLabel ++ " "%string ++ "< 3 m/s"%string ++ " / "%string ++ nucpVerticalLabel ++ " "%string ++ "< 4.6 m/s (15 fps)"%string)%string
  else if (category =? NUCPHorizontalLowerThan1VerticalLowerThan1Point5) then
    ("1 - "%string ++ nucpHorizontalLabel ++ " "%string ++ "< 2 m/s"%string ++ " / "%string ++ nucpVerticalLabel ++ " "%string ++ "< 1.5 m/s (5 fps)"%string)%string
  else if (category =? NUCPHorizontalLowerThan0Point3VerticalLowerThan0Point46) then
    ("1 - "%string ++ nucpHorizontalLabel ++ " "%string ++ "< 0.3 m/s"%string ++ " / "%string ++ nucpVerticalLabel ++ " "%string ++ "< 0.46 m/s (1.5 fps)"%string)%string
  else 
    (dec category ++ " - Unknown code"%string)%string.

(* pkg/bds/bds09/fields/navigation_uncertainty_category.go:55-58 *)
Definition ReadNavigationUncertaintyCategory (data : list Z) : res NavigationUncertaintyCategory :=
  let* data1 := idx data 1 in
  let bits := (Z.shiftr (Z.land data1 0x38) 3) in
  Ok bits.

(* pkg/bds/bds09/fields/numeric_value_status.go:18-30 *)
Definition NumericValueStatus_ToString (vs : NumericValueStatus) : string :=
  if (vs =? NVSNoInformation) then
    "No information"%string
  else if (vs =? NVSRegular) then
    "Regular value"%string
  else if (vs =? NVSMaximum) then
    "Maximum"%string
  else 
    (dec vs ++ " - Unknown code"%string)%string.

(* pkg/bds/bds09/fields/subtype.go:24-38 *)
Definition Subtype_ToString (code : Subtype) : string :=
  if (code =? SubtypeGroundSpeedNormal) then
    "1 - GroundSpeed / Normal"%string
  else if (code =? SubtypeGroundSpeedSupersonic) then
    "2 - GroundSpeed / Supersonic"%string
  else if (code =? SubtypeAirspeedNormal) then
    "3 - Airspeed,Heading / Normal"%string
  else if (code =? SubtypeAirspeedSupersonic) then
    "4 - Airspeed,Heading / Supersonic"%string
  else 
    (dec code ++ " - Unknown code"%string)%string.

(* pkg/bds/bds09/fields/subtype.go:41-44 *)
Definition ReadSubtype (data : list Z) : res Subtype :=
  let* data0 := idx data 0 in
  let bits := (Z.land data0 7) in
  Ok bits.

(* pkg/bds/bds09/fields/velocity_ew.go:21-31 *)
Definition DirectionEastWest_ToString (bit_ : DirectionEastWest) : string :=
  if (bit_ =? DEWEast) then
    "0 - East"%string
  else if (bit_ =? DEWWest) then
    "1 - West"%string
  else 
    (dec bit_ ++ " - Unknown code"%string)%string.

(* pkg/bds/bds09/fields/velocity_ew.go:34-37 *)
Definition ReadDirectionEastWest (data : list Z) : res DirectionEastWest :=
  let* data1 := idx data 1 in
  let bits := (Z.shiftr (Z.land data1 4) 2) in
  Ok bits.

(* pkg/bds/bds09/fields/velocity_ew.go:40-52 *)
Definition ReadVelocityEWNormal (data : list Z) : res (Z * NumericValueStatus) :=
  let* data1 := idx data 1 in
  let byte1 := (Z.land data1 3) in
  let* data2 := idx data 2 in
  let byte2 := data2 in
  let velocity := (bitutils.Pack2Bytes byte1 byte2) in
  if (velocity =? 0) then
    Ok (0, NVSNoInformation)
  else if (velocity >=? 1023) then
    Ok (1023, NVSMaximum)
  else 
    Ok ((u16 (velocity - 1)), NVSRegular).

(* pkg/bds/bds09/fields/velocity_ew.go:55-67 *)
Definition ReadVelocityEWSupersonic (data : list Z) : res (Z * NumericValueStatus) :=
  let* data1 := idx data 1 in
  let byte1 := (Z.land data1 3) in
  let* data2 := idx data 2 in
  let byte2 := data2 in
  let velocity := (bitutils.Pack2Bytes byte1 byte2) in
  if (velocity =? 0) then
    Ok (0, NVSNoInformation)
  else if (velocity >=? 1023) then
    Ok (4088, NVSMaximum)
  else 
    Ok ((u16 ((u16 (velocity - 1)) * 4)), NVSRegular).

(* pkg/bds/bds09/fields/velocity_ns.go:21-31 *)
Definition DirectionNorthSouth_ToString (bit_ : DirectionNorthSouth) : string :=
  if (bit_ =? DNSNorth) then
    "0 - north"%string
  else if (bit_ =? DNSSouth) then
    "1 - south"%string
  else 
    (dec bit_ ++ " - Unknown code"%string)%string.

(* pkg/bds/bds09/fields/velocity_ns.go:34-37 *)
Definition ReadDirectionNorthSouth (data : list Z) : res DirectionNorthSouth :=
  let* data3 := idx data 3 in
  let bits := (Z.shiftr (Z.land data3 0x80) 7) in
  Ok bits.

(* pkg/bds/bds09/fields/velocity_ns.go:40-52 *)
Definition ReadVelocityNSNormal (data : list Z) : res (Z * NumericValueStatus) :=
  let* data3 := idx data 3 in
  let byte1 := (Z.land data3 0x7f) in
  let* data4 := idx data 4 in
  let byte2 := (Z.land data4 0xe0) in
  let velocity := (Z.shiftr (bitutils.Pack2Bytes byte1 byte2) 5) in
  if (velocity =? 0) then
    Ok (0, NVSNoInformation)
  else if (velocity >=? 1023) then
    Ok (1023, NVSMaximum)
  else 
    Ok ((u16 (velocity - 1)), NVSRegular).

(* pkg/bds/bds09/fields/velocity_ns.go:55-67 *)
Definition ReadVelocityNSSupersonic (data : list Z) : res (Z * NumericValueStatus) :=
  let* data3 := idx data 3 in
  let byte1 := (Z.land data3 0x7f) in
  let* data4 := idx data 4 in
  let byte2 := (Z.land data4 0xe0) in
  let velocity := (Z.shiftr (bitutils.Pack2Bytes byte1 byte2) 5) in
  if (velocity =? 0) then
    Ok (0, NVSNoInformation)
  else if (velocity >=? 1023) then
    Ok (4088, NVSMaximum)
  else 
    Ok ((u16 ((u16 (velocity - 1)) * 4)), NVSRegular).

(* pkg/bds/bds09/fields/vertical_rate.go:8-32 *)
Definition ReadVerticalRate (data : list Z) : res (Z * NumericValueStatus) :=
  let* data4 := idx data 4 in
  let negative := (negb ((Z.land data4 8) =? 0)) in
  let byte1 := (Z.land data4 7) in
  let* data5 := idx data 5 in
  let byte2 := (Z.land data5 0xfc) in
  let rate := (i16 (Z.shiftr (bitutils.Pack2Bytes byte1 byte2) 2)) in
  if (rate =? 0) then
    Ok (0, NVSNoInformation)
  else if (rate >=? 511) then
    if negative then
      Ok ((-32640), NVSMaximum)
    else 
      Ok (32640, NVSMaximum)
  else 
    let rate := (i16 ((i16 (rate - 1)) * 64)) in
    let rate := if negative then
      let rate := (i16 (- rate)) in
      rate
    else 
      rate in
    Ok (rate, NVSRegular).

(* pkg/bds/bds09/fields/vertical_rate_source.go:18-28 *)
Definition VerticalRateSource_ToString (bit_ : VerticalRateSource) : string :=
  if (bit_ =? VRSGNSS) then
    "0 - GNSS"%string
  else if (bit_ =? VRSBaro) then
    "1 - Baro"%string
  else 
    (dec bit_ ++ " - Unknown code"%string)%string.

(* pkg/bds/bds09/fields/vertical_rate_source.go:31-34 *)
Definition ReadVerticalRateSource (data : list Z) : res VerticalRateSource :=
  let* data4 := idx data 4 in
  let bits := (Z.shiftr (Z.land data4 0x10) 4) in
  Ok bits.
