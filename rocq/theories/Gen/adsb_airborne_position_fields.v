(* GENERATED by tools/go2coq.py from /repo/pkg/adsb/airborne_position/fields -- do not edit by hand.
   One Gallina definition per Go declaration; each is preceded by the file and lines it models.
   Error values are represented by their text, see DESIGN.md.
*)
From Verif Require Import GoBase.
Local Open Scope Z_scope.

(* pkg/adsb/airborne_position/fields/containment_radius.go:9 *)
Definition ContainmentRadius := Z.

(* pkg/adsb/airborne_position/fields/horizontal_containment_limit_v1.go:8 *)
Definition HorizontalContainmentRadiusV1 := Z.

(* pkg/adsb/airborne_position/fields/horizontal_containment_limit_v2.go:8 *)
Definition HorizontalContainmentRadiusV2 := Z.

(* pkg/adsb/airborne_position/fields/horizontal_protection_limit.go:9 *)
Definition HorizontalProtectionLimit := Z.

(* pkg/adsb/airborne_position/fields/navigation_integrity_code_supplement_b.go:8 *)
Definition NavigationIntegrityCodeSupplementB := Z.

Definition CRBaroLowerThan3M : ContainmentRadius := 9. (* pkg/adsb/airborne_position/fields/containment_radius.go:13 *)

Definition CRBaroBetween3MAnd10M : ContainmentRadius := 10. (* pkg/adsb/airborne_position/fields/containment_radius.go:15 *)

Definition CRBaroBetween10MAnd92Dot6M : ContainmentRadius := 11. (* pkg/adsb/airborne_position/fields/containment_radius.go:17 *)

Definition CRBaroBetween92Dot6MAnd185Dot2M : ContainmentRadius := 12. (* pkg/adsb/airborne_position/fields/containment_radius.go:19 *)

Definition CRBaroBetween185Dot2MAnd463M : ContainmentRadius := 13. (* pkg/adsb/airborne_position/fields/containment_radius.go:21 *)

Definition CRBaroBetween463MAnd926M : ContainmentRadius := 14. (* pkg/adsb/airborne_position/fields/containment_radius.go:23 *)

Definition CRBaroBetween926MAnd1852M : ContainmentRadius := 15. (* pkg/adsb/airborne_position/fields/containment_radius.go:25 *)

Definition CRBaroBetween1Point852KmAnd9Point26Km : ContainmentRadius := 16. (* pkg/adsb/airborne_position/fields/containment_radius.go:27 *)

Definition CRBaroBetween9Point26KmAnd18Point52Km : ContainmentRadius := 17. (* pkg/adsb/airborne_position/fields/containment_radius.go:29 *)

Definition CRBaroLargerThan18Point52Km : ContainmentRadius := 18. (* pkg/adsb/airborne_position/fields/containment_radius.go:31 *)

Definition CRGNSSHorizontalLowerThan3MAndVerticalLowerThan4M : ContainmentRadius := 20. (* pkg/adsb/airborne_position/fields/containment_radius.go:33 *)

Definition CRGNSSHorizontalLowerThan10MAndVerticalLowerThan15M : ContainmentRadius := 21. (* pkg/adsb/airborne_position/fields/containment_radius.go:35 *)

Definition CRGNSSHorizontalGreaterThan10MOrVerticalGreaterThan15M : ContainmentRadius := 22. (* pkg/adsb/airborne_position/fields/containment_radius.go:37 *)

Definition HCRBaroV1RcLowerThan7Point5MAndVPLLowerThan11M : HorizontalContainmentRadiusV1 := 9. (* pkg/adsb/airborne_position/fields/horizontal_containment_limit_v1.go:12 *)

Definition HCRBaroV1RcLowerThan25MAndVPLLowerThan37Point5M : HorizontalContainmentRadiusV1 := 10. (* pkg/adsb/airborne_position/fields/horizontal_containment_limit_v1.go:14 *)

Definition HCRBaroV1RcLowerThan0Point1NM : HorizontalContainmentRadiusV1 := 11. (* pkg/adsb/airborne_position/fields/horizontal_containment_limit_v1.go:16 *)

Definition HCRBaroV1RcLowerThan0Point2NM : HorizontalContainmentRadiusV1 := 12. (* pkg/adsb/airborne_position/fields/horizontal_containment_limit_v1.go:18 *)

Definition HCRBaroV1RcLowerThan0Point5NM : HorizontalContainmentRadiusV1 := 13. (* pkg/adsb/airborne_position/fields/horizontal_containment_limit_v1.go:20 *)

Definition HCRBaroV1RcLowerThan1Point0NM : HorizontalContainmentRadiusV1 := 14. (* pkg/adsb/airborne_position/fields/horizontal_containment_limit_v1.go:22 *)

Definition HCRBaroV1RcLowerThan2NM : HorizontalContainmentRadiusV1 := 15. (* pkg/adsb/airborne_position/fields/horizontal_containment_limit_v1.go:24 *)

Definition HCRBaroV1RcLowerThan8NM : HorizontalContainmentRadiusV1 := 16. (* pkg/adsb/airborne_position/fields/horizontal_containment_limit_v1.go:26 *)

Definition HCRBaroV1RcLowerThan20NM : HorizontalContainmentRadiusV1 := 17. (* pkg/adsb/airborne_position/fields/horizontal_containment_limit_v1.go:28 *)

Definition HCRBaroV1RcGreaterThan20NM : HorizontalContainmentRadiusV1 := 18. (* pkg/adsb/airborne_position/fields/horizontal_containment_limit_v1.go:30 *)

Definition HCRBaroV1RcLowerThan75MAndVPLLowerThan112M : HorizontalContainmentRadiusV1 := 111. (* pkg/adsb/airborne_position/fields/horizontal_containment_limit_v1.go:33 *)

Definition HCRBaroV1RcLowerThan0Point6NM : HorizontalContainmentRadiusV1 := 113. (* pkg/adsb/airborne_position/fields/horizontal_containment_limit_v1.go:35 *)

Definition HCRBaroV1RcLowerThan4NM : HorizontalContainmentRadiusV1 := 116. (* pkg/adsb/airborne_position/fields/horizontal_containment_limit_v1.go:37 *)

Definition HCRGNSSV1RcLowerThan7Point5MAndVPLLowerThan11M : HorizontalContainmentRadiusV1 := 0. (* pkg/adsb/airborne_position/fields/horizontal_containment_limit_v1.go:40 *)

Definition HCRGNSSV1RcLowerThan25MAndVPLLowerThan37Point5M : HorizontalContainmentRadiusV1 := 1. (* pkg/adsb/airborne_position/fields/horizontal_containment_limit_v1.go:42 *)

Definition HCRGNSSV1RcGreaterThan25MOrVPLGreaterThan37Point5MOrUnknown : HorizontalContainmentRadiusV1 := 2. (* pkg/adsb/airborne_position/fields/horizontal_containment_limit_v1.go:44 *)

Definition HCRBaroV2RcLowerThan7Point5M : HorizontalContainmentRadiusV2 := 9. (* pkg/adsb/airborne_position/fields/horizontal_containment_limit_v2.go:12 *)

Definition HCRBaroV2RcLowerThan25M : HorizontalContainmentRadiusV2 := 10. (* pkg/adsb/airborne_position/fields/horizontal_containment_limit_v2.go:14 *)

Definition HCRBaroV2RcLowerThan0Point1NM : HorizontalContainmentRadiusV2 := 11. (* pkg/adsb/airborne_position/fields/horizontal_containment_limit_v2.go:16 *)

Definition HCRBaroV2RcLowerThan0Point2NM : HorizontalContainmentRadiusV2 := 12. (* pkg/adsb/airborne_position/fields/horizontal_containment_limit_v2.go:18 *)

Definition HCRBaroV2RcLowerThan0Point5NM : HorizontalContainmentRadiusV2 := 13. (* pkg/adsb/airborne_position/fields/horizontal_containment_limit_v2.go:20 *)

Definition HCRBaroV2RcLowerThan1Point0NM : HorizontalContainmentRadiusV2 := 14. (* pkg/adsb/airborne_position/fields/horizontal_containment_limit_v2.go:22 *)

Definition HCRBaroV2RcLowerThan2NM : HorizontalContainmentRadiusV2 := 15. (* pkg/adsb/airborne_position/fields/horizontal_containment_limit_v2.go:24 *)

Definition HCRBaroV2RcLowerThan8NM : HorizontalContainmentRadiusV2 := 16. (* pkg/adsb/airborne_position/fields/horizontal_containment_limit_v2.go:26 *)

Definition HCRBaroV2RcLowerThan20NM : HorizontalContainmentRadiusV2 := 17. (* pkg/adsb/airborne_position/fields/horizontal_containment_limit_v2.go:28 *)

Definition HCRBaroV2RcGreaterThan20NM : HorizontalContainmentRadiusV2 := 18. (* pkg/adsb/airborne_position/fields/horizontal_containment_limit_v2.go:30 *)

Definition HCRBaroV2RcLowerThan75M : HorizontalContainmentRadiusV2 := 111. (* pkg/adsb/airborne_position/fields/horizontal_containment_limit_v2.go:33 *)

Definition HCRBaroV2RcLowerThan0Point6NM : HorizontalContainmentRadiusV2 := 113. (* pkg/adsb/airborne_position/fields/horizontal_containment_limit_v2.go:35 *)

Definition HCRBaroV2RcLowerThan4NM : HorizontalContainmentRadiusV2 := 116. (* pkg/adsb/airborne_position/fields/horizontal_containment_limit_v2.go:37 *)

Definition HCRBaroV2RcLowerThan0Point3NM : HorizontalContainmentRadiusV2 := 213. (* pkg/adsb/airborne_position/fields/horizontal_containment_limit_v2.go:40 *)

Definition HCRGNSSV2RcLowerThan7Point5M : HorizontalContainmentRadiusV2 := 20. (* pkg/adsb/airborne_position/fields/horizontal_containment_limit_v2.go:43 *)

Definition HCRGNSSV2RcLowerThan25M : HorizontalContainmentRadiusV2 := 21. (* pkg/adsb/airborne_position/fields/horizontal_containment_limit_v2.go:45 *)

Definition HCRGNSSV2RcGreaterThan25MOrUnknown : HorizontalContainmentRadiusV2 := 22. (* pkg/adsb/airborne_position/fields/horizontal_containment_limit_v2.go:47 *)

Definition HPLBaroLowerThan7Dot5M : HorizontalProtectionLimit := 9. (* pkg/adsb/airborne_position/fields/horizontal_protection_limit.go:13 *)

Definition HPLBaroBetween7Dot5MAnd25M : HorizontalProtectionLimit := 10. (* pkg/adsb/airborne_position/fields/horizontal_protection_limit.go:15 *)

Definition HPLBaroBetween25MAnd185Dot2M : HorizontalProtectionLimit := 11. (* pkg/adsb/airborne_position/fields/horizontal_protection_limit.go:17 *)

Definition HPLBaroBetween185Dot2MAnd370Dot4M : HorizontalProtectionLimit := 12. (* pkg/adsb/airborne_position/fields/horizontal_protection_limit.go:19 *)

Definition HPLBaroBetween370Dot4MAnd926M : HorizontalProtectionLimit := 13. (* pkg/adsb/airborne_position/fields/horizontal_protection_limit.go:21 *)

Definition HPLBaroBetween926MAnd1852M : HorizontalProtectionLimit := 14. (* pkg/adsb/airborne_position/fields/horizontal_protection_limit.go:23 *)

Definition HPLBaroBetween1852MAnd3704M : HorizontalProtectionLimit := 15. (* pkg/adsb/airborne_position/fields/horizontal_protection_limit.go:25 *)

Definition HPLBaroBetween3704MAnd18Point52Km : HorizontalProtectionLimit := 16. (* pkg/adsb/airborne_position/fields/horizontal_protection_limit.go:27 *)

Definition HPLBaroBetween18Point52KmAnd37Point04Km : HorizontalProtectionLimit := 17. (* pkg/adsb/airborne_position/fields/horizontal_protection_limit.go:29 *)

Definition HPLBaroLargerThan37Point04Km : HorizontalProtectionLimit := 18. (* pkg/adsb/airborne_position/fields/horizontal_protection_limit.go:31 *)

Definition HPLGNSSLowerThan7Dot5M : HorizontalProtectionLimit := 20. (* pkg/adsb/airborne_position/fields/horizontal_protection_limit.go:33 *)

Definition HPLGNSSLowerThan25M : HorizontalProtectionLimit := 21. (* pkg/adsb/airborne_position/fields/horizontal_protection_limit.go:35 *)

Definition HPLGNSSGreaterThan25M : HorizontalProtectionLimit := 22. (* pkg/adsb/airborne_position/fields/horizontal_protection_limit.go:37 *)

Definition NICBZero : NavigationIntegrityCodeSupplementB := 0. (* pkg/adsb/airborne_position/fields/navigation_integrity_code_supplement_b.go:12 *)

Definition NICBOne : NavigationIntegrityCodeSupplementB := 1. (* pkg/adsb/airborne_position/fields/navigation_integrity_code_supplement_b.go:14 *)

(* pkg/adsb/airborne_position/fields/containment_radius.go:41-72 *)
Definition ContainmentRadius_ToString (cr : ContainmentRadius) : string :=
  if (cr =? CRBaroLowerThan3M) then
    "(Baro) 0 μ < 3m"%string
  else if (cr =? CRBaroBetween3MAnd10M) then
    "(Baro) 3 m <= μ < 10 m"%string
  else if (cr =? CRBaroBetween10MAnd92Dot6M) then
    "(Baro) 10 m <= μ < 92.6 m (0.05 NM)"%string
  else if (cr =? CRBaroBetween92Dot6MAnd185Dot2M) then
    "(Baro) 92.6 m <= μ < 185.2 m (0.05 NM <= μ < 0.1 NM)"%string
  else if (cr =? CRBaroBetween185Dot2MAnd463M) then
    "(Baro) 185.2 m <= μ < 463 m (0.1 NM <= μ < 0.25 NM)"%string
  else if (cr =? CRBaroBetween463MAnd926M) then
    "(Baro) 463 m <= μ < 926 m (0.25 NM <= μ < 0.5 NM)"%string
  else if (cr =? CRBaroBetween926MAnd1852M) then
    "(Baro) 926 m <= μ < 1852 m (0.5 NM <= μ < 1.0 NM)"%string
  else if (cr =? CRBaroBetween1Point852KmAnd9Point26Km) then
    "(Baro) 1.852 km <= μ < 9.26 km (1.0 NM <= μ < 5.0 NM)"%string
  else if (cr =? CRBaroBetween9Point26KmAnd18Point52Km) then
    "(Baro) 9.26 km <= μ < 18.52 km (5.0 NM <= μ < 10.0 NM)"%string
  else if (cr =? CRBaroLargerThan18Point52Km) then
    "(Baro) 18.52 km <= μ (10.0 NM <= μ)"%string
  else if (cr =? CRGNSSHorizontalLowerThan3MAndVerticalLowerThan4M) then
    "(GNSS) μ < 3 m and v < 4 m"%string
  else if (cr =? CRGNSSHorizontalLowerThan10MAndVerticalLowerThan15M) then
    "(GNSS) μ < 10 m and v < 15 m"%string
  else if (cr =? CRGNSSHorizontalGreaterThan10MOrVerticalGreaterThan15M) then
    "(GNSS) μ > 10 m or v >= 15 m"%string
  else 
    (dec cr ++ " - Unknown code"%string)%string.

(* pkg/adsb/airborne_position/fields/horizontal_containment_limit_v1.go:48-88 *)
Definition HorizontalContainmentRadiusV1_ToString (hcr : HorizontalContainmentRadiusV1) : string :=
  if (hcr =? HCRBaroV1RcLowerThan7Point5MAndVPLLowerThan11M) then
    "(Baro) Rc < 7.5 m and VPL < 11 m"%string
  else if (hcr =? HCRBaroV1RcLowerThan25MAndVPLLowerThan37Point5M) then
    "(Baro) Rc < 25 m and VPL < 37.5 m"%string
  else if (hcr =? HCRBaroV1RcLowerThan0Point1NM) then
    "(Baro) Rc < 0.1 NM (185.2 m)"%string
  else if (hcr =? HCRBaroV1RcLowerThan0Point2NM) then
    "(Baro) Rc < 0.2 NM (370.4 m)"%string
  else if (hcr =? HCRBaroV1RcLowerThan0Point5NM) then
    "(Baro) Rc < 0.5 NM (926 m)"%string
  else if (hcr =? HCRBaroV1RcLowerThan1Point0NM) then
    "(Baro) Rc < 1.0 NM (1852 m)"%string
  else if (hcr =? HCRBaroV1RcLowerThan2NM) then
    "(Baro) Rc < 2 NM (3.704 km)"%string
  else if (hcr =? HCRBaroV1RcLowerThan8NM) then
    "(Baro) Rc < 8 NM (14.816 km)"%string
  else if (hcr =? HCRBaroV1RcLowerThan20NM) then
    "(Baro) Rc < 20 NM (37.04 km)"%string
  else if (hcr =? HCRBaroV1RcGreaterThan20NM) then
    "(Baro) Rc >= 20 NM (37.04 km) or unknown"%string
  else if (hcr =? HCRBaroV1RcLowerThan75MAndVPLLowerThan112M) then
    "(Baro) Rc < 75 m and VPL < 112 m"%string
  else if (hcr =? HCRBaroV1RcLowerThan0Point6NM) then
    "(Baro) Rc < 0.6 NM (1111.2 m)"%string
  else if (hcr =? HCRBaroV1RcLowerThan4NM) then
    "(Baro) Rc < 4 NM (7.408 km)"%string
  else if (hcr =? HCRGNSSV1RcLowerThan7Point5MAndVPLLowerThan11M) then
    "(GNSS) Rc < 7.5 m and VPL < 11 m"%string
  else if (hcr =? HCRGNSSV1RcLowerThan25MAndVPLLowerThan37Point5M) then
    "(GNSS) Rc < 25 m and VPL < 37.5 m"%string
  else if (hcr =? HCRGNSSV1RcGreaterThan25MOrVPLGreaterThan37Point5MOrUnknown) then
    "(GNSS) Rc >= 25 m or VPL >= 37.5 m or unknown"%string
  else 
    (dec hcr ++ " - Unknown code"%string)%string.

(* pkg/adsb/airborne_position/fields/horizontal_containment_limit_v2.go:51-94 *)
Definition HorizontalContainmentRadiusV2_ToString (hcr : HorizontalContainmentRadiusV2) : string :=
  if (hcr =? HCRBaroV2RcLowerThan7Point5M) then
    "(Baro) Rc < 7.5 m"%string
  else if (hcr =? HCRBaroV2RcLowerThan25M) then
    "(Baro) Rc < 25 m"%string
  else if (hcr =? HCRBaroV2RcLowerThan0Point1NM) then
    "(Baro) Rc < 0.1 NM (185.2 m)"%string
  else if (hcr =? HCRBaroV2RcLowerThan0Point2NM) then
    "(Baro) Rc < 0.2 NM (370.4 m)"%string
  else if (hcr =? HCRBaroV2RcLowerThan0Point5NM) then
    "(Baro) Rc < 0.5 NM (926 m)"%string
  else if (hcr =? HCRBaroV2RcLowerThan1Point0NM) then
    "(Baro) Rc < 1.0 NM (1852 m)"%string
  else if (hcr =? HCRBaroV2RcLowerThan2NM) then
    "(Baro) Rc < 2 NM (3.704 km)"%string
  else if (hcr =? HCRBaroV2RcLowerThan8NM) then
    "(Baro) Rc < 8 NM (14.816 km)"%string
  else if (hcr =? HCRBaroV2RcLowerThan20NM) then
    "(Baro) Rc < 20 NM (37.04 km)"%string
  else if (hcr =? HCRBaroV2RcGreaterThan20NM) then
    "(Baro) Rc >= 20 NM (37.04 km) or unknown"%string
  else if (hcr =? HCRBaroV2RcLowerThan75M) then
    "(Baro) Rc < 75 m"%string
  else if (hcr =? HCRBaroV2RcLowerThan0Point6NM) then
    "(Baro) Rc < 0.6 NM (1111.2 m)"%string
  else if (hcr =? HCRBaroV2RcLowerThan4NM) then
    "(Baro) Rc < 4 NM (7.408 km)"%string
  else if (hcr =? HCRBaroV2RcLowerThan0Point3NM) then
    "(Baro) Rc < 0.3 NM (555.6 m)"%string
  else if (hcr =? HCRGNSSV2RcLowerThan7Point5M) then
    "(GNSS) Rc < 7.5 m"%string
  else if (hcr =? HCRGNSSV2RcLowerThan25M) then
    "(GNSS) Rc < 25 m"%string
  else if (hcr =? HCRGNSSV2RcGreaterThan25MOrUnknown) then
    "(GNSS) Rc >= 25 m or unknown"%string
  else 
    (dec hcr ++ " - Unknown code"%string)%string.

(* pkg/adsb/airborne_position/fields/horizontal_protection_limit.go:41-72 *)
Definition HorizontalProtectionLimit_ToString (hpl : HorizontalProtectionLimit) : string :=
  if (hpl =? HPLBaroLowerThan7Dot5M) then
    "(Baro) HorizontalProtectionLimit < 7.5 m"%string
  else if (hpl =? HPLBaroBetween7Dot5MAnd25M) then
    "(Baro) 7.5 m <= HorizontalProtectionLimit < 25 m"%string
  else if (hpl =? HPLBaroBetween25MAnd185Dot2M) then
    "(Baro) 25 m <= HorizontalProtectionLimit < 185.2 m (0.1NM)"%string
  else if (hpl =? HPLBaroBetween185Dot2MAnd370Dot4M) then
    "(Baro) 185.2 m <= HorizontalProtectionLimit < 370.4 m (0.1 NM <= HorizontalProtectionLimit < 0.2 NM)"%string
  else if (hpl =? HPLBaroBetween370Dot4MAnd926M) then
    "(Baro) 370.4 m <= HorizontalProtectionLimit < 926 m (0.2 NM <= HorizontalProtectionLimit < 0.5 NM)"%string
  else if (hpl =? HPLBaroBetween926MAnd1852M) then
    "(Baro) 926 m <= HorizontalProtectionLimit < 1 852 m (0.5 NM <= HorizontalProtectionLimit < 1.0 NM)"%string
  else if (hpl =? HPLBaroBetween1852MAnd3704M) then
    "(Baro) 1 852 m <= HorizontalProtectionLimit < 3 704 m (1.0 NM <= HorizontalProtectionLimit < 2.0 NM)"%string
  else if (hpl =? HPLBaroBetween3704MAnd18Point52Km) then
    "(Baro) 3.704 km <= HorizontalProtectionLimit < 18.52 km (2.0 NM <= HorizontalProtectionLimit < 10 NM)"%string
  else if (hpl =? HPLBaroBetween18Point52KmAnd37Point04Km) then
    "(Baro) 18.52 km <= HorizontalProtectionLimit < 37.04 km (10 NM <= HorizontalProtectionLimit < 20 NM)"%string
  else if (hpl =? HPLBaroLargerThan37Point04Km) then
    "(Baro) HorizontalProtectionLimit >= 37.04 km (HorizontalProtectionLimit >= 20 NM)"%string
  else if (hpl =? HPLGNSSLowerThan7Dot5M) then
    "(GNSS) HorizontalProtectionLimit < 7.5 m"%string
  else if (hpl =? HPLGNSSLowerThan25M) then
    "(GNSS) HorizontalProtectionLimit < 25 m"%string
  else if (hpl =? HPLGNSSGreaterThan25M) then
    "(GNSS) 25 m <= HorizontalProtectionLimit"%string
  else 
    (dec hpl ++ " - Unknown code"%string)%string.

(* pkg/adsb/airborne_position/fields/navigation_integrity_code_supplement_b.go:18-28 *)
Definition NavigationIntegrityCodeSupplementB_ToString (nicb : NavigationIntegrityCodeSupplementB) : string :=
  if (nicb =? NICBZero) then
    "0"%string
  else if (nicb =? NICBOne) then
    "1"%string
  else 
    (dec nicb ++ " - Unknown code"%string)%string.

(* pkg/adsb/airborne_position/fields/navigation_integrity_code_supplement_b.go:31-34 *)
Definition ReadNavigationIntegritySupplementB (data : list Z) : res NavigationIntegrityCodeSupplementB :=
  let* data0 := idx data 0 in
  let bits := (Z.land data0 1) in
  Ok bits.
