(* GENERATED by tools/go2coq.py from /repo/pkg/adsb/surface_position/fields -- do not edit by hand.
   One Gallina definition per Go declaration; each is preceded by the file and lines it models.
   Error values are represented by their text, see DESIGN.md.
*)
From Verif Require Import GoBase.
Local Open Scope Z_scope.

(* pkg/adsb/surface_position/fields/containment_radius.go:9 *)
Definition ContainmentRadius := Z.

(* pkg/adsb/surface_position/fields/horizontal_containment_radius_v1.go:8 *)
Definition HorizontalContainmentRadiusV1 := Z.

(* pkg/adsb/surface_position/fields/horizontal_containment_radius_v2.go:8 *)
Definition HorizontalContainmentRadiusV2 := Z.

(* pkg/adsb/surface_position/fields/horizontal_protection_limit.go:8 *)
Definition HorizontalProtectionLimit := Z.

Definition CRLowerThan3M : ContainmentRadius := 5. (* pkg/adsb/surface_position/fields/containment_radius.go:13 *)

Definition CRBetween3MAnd10M : ContainmentRadius := 6. (* pkg/adsb/surface_position/fields/containment_radius.go:15 *)

Definition CRBetween10MAnd92Point6M : ContainmentRadius := 7. (* pkg/adsb/surface_position/fields/containment_radius.go:17 *)

Definition CRGreaterThan92Point6M : ContainmentRadius := 8. (* pkg/adsb/surface_position/fields/containment_radius.go:19 *)

Definition HCRV1RcLowerThan7Point5M : HorizontalContainmentRadiusV1 := 0. (* pkg/adsb/surface_position/fields/horizontal_containment_radius_v1.go:12 *)

Definition HCRV1RcLowerThan25M : HorizontalContainmentRadiusV1 := 1. (* pkg/adsb/surface_position/fields/horizontal_containment_radius_v1.go:15 *)

Definition HCRV1RcLowerThan75M : HorizontalContainmentRadiusV1 := 2. (* pkg/adsb/surface_position/fields/horizontal_containment_radius_v1.go:18 *)

Definition HCRV1RcLowerThan0Point1NM : HorizontalContainmentRadiusV1 := 3. (* pkg/adsb/surface_position/fields/horizontal_containment_radius_v1.go:21 *)

Definition HCRV1RcGreaterThan0Point1NM : HorizontalContainmentRadiusV1 := 4. (* pkg/adsb/surface_position/fields/horizontal_containment_radius_v1.go:24 *)

Definition HCRV2RcLowerThan7Point5M : HorizontalContainmentRadiusV2 := 0. (* pkg/adsb/surface_position/fields/horizontal_containment_radius_v2.go:12 *)

Definition HCRV2RcLowerThan25M : HorizontalContainmentRadiusV2 := 1. (* pkg/adsb/surface_position/fields/horizontal_containment_radius_v2.go:15 *)

Definition HCRV2RcLowerThan75M : HorizontalContainmentRadiusV2 := 2. (* pkg/adsb/surface_position/fields/horizontal_containment_radius_v2.go:18 *)

Definition HCRV2RcLowerThan0Point1NM : HorizontalContainmentRadiusV2 := 3. (* pkg/adsb/surface_position/fields/horizontal_containment_radius_v2.go:21 *)

Definition HCRV2RcLowerThan0Point2NM : HorizontalContainmentRadiusV2 := 4. (* pkg/adsb/surface_position/fields/horizontal_containment_radius_v2.go:24 *)

Definition HCRV2RcLowerThan0Point3NM : HorizontalContainmentRadiusV2 := 5. (* pkg/adsb/surface_position/fields/horizontal_containment_radius_v2.go:27 *)

Definition HCRV2RcLowerThan0Point6NM : HorizontalContainmentRadiusV2 := 6. (* pkg/adsb/surface_position/fields/horizontal_containment_radius_v2.go:30 *)

Definition HCRV2RcGreaterThan0Point6NM : HorizontalContainmentRadiusV2 := 7. (* pkg/adsb/surface_position/fields/horizontal_containment_radius_v2.go:33 *)

Definition HPLLowerThan7Point5M : HorizontalProtectionLimit := 5. (* pkg/adsb/surface_position/fields/horizontal_protection_limit.go:12 *)

Definition HPLLowerThan25M : HorizontalProtectionLimit := 6. (* pkg/adsb/surface_position/fields/horizontal_protection_limit.go:14 *)

Definition HPLLowerThan185Point2M : HorizontalProtectionLimit := 7. (* pkg/adsb/surface_position/fields/horizontal_protection_limit.go:16 *)

Definition HPLGreaterThan185Point2M : HorizontalProtectionLimit := 8. (* pkg/adsb/surface_position/fields/horizontal_protection_limit.go:18 *)

(* pkg/adsb/surface_position/fields/containment_radius.go:26-37 *)
Definition ContainmentRadius_GetHorizontalContainmentLowerBound (cr : ContainmentRadius) : f64 :=
  if (cr =? CRBetween3MAnd10M) then
    (f64_lit 3 1)
  else if (cr =? CRBetween10MAnd92Point6M) then
    (f64_lit 10 1)
  else if (cr =? CRGreaterThan92Point6M) then
    (f64_lit 463 5)
  else 
    (f64_lit (-1) 1).

(* pkg/adsb/surface_position/fields/containment_radius.go:43-54 *)
Definition ContainmentRadius_GetHorizontalContainmentHigherBound (cr : ContainmentRadius) : f64 :=
  if (cr =? CRLowerThan3M) then
    (f64_lit 3 1)
  else if (cr =? CRBetween3MAnd10M) then
    (f64_lit 10 1)
  else if (cr =? CRBetween10MAnd92Point6M) then
    (f64_lit 463 5)
  else 
    (f64_lit (-1) 1).

(* pkg/adsb/surface_position/fields/containment_radius.go:57-70 *)
Definition ContainmentRadius_ToString (cr : ContainmentRadius) : string :=
  if (cr =? CRLowerThan3M) then
    "μ < 3 m"%string
  else if (cr =? CRBetween3MAnd10M) then
    "3 m <= μ < 10 m"%string
  else if (cr =? CRBetween10MAnd92Point6M) then
    "10 m <= μ < 92.6 m (0.05 NM)"%string
  else if (cr =? CRGreaterThan92Point6M) then
    "92.6 m (0.05 NM) <= μ"%string
  else 
    (dec cr ++ " - Unknown code"%string)%string.

(* pkg/adsb/surface_position/fields/horizontal_containment_radius_v1.go:28-43 *)
Definition HorizontalContainmentRadiusV1_ToString (hcr : HorizontalContainmentRadiusV1) : string :=
  if (hcr =? HCRV1RcLowerThan7Point5M) then
    "Rc < 7.5 m"%string
  else if (hcr =? HCRV1RcLowerThan25M) then
    "Rc < 25 m"%string
  else if (hcr =? HCRV1RcLowerThan75M) then
    "Rc < 75 m"%string
  else if (hcr =? HCRV1RcLowerThan0Point1NM) then
    "Rc < 0.1 NM (185.2 m)"%string
  else if (hcr =? HCRV1RcGreaterThan0Point1NM) then
    "Rc >= 0.1 NM (185.2 m) or unknown"%string
  else 
    (dec hcr ++ " - Unknown code"%string)%string.

(* pkg/adsb/surface_position/fields/horizontal_containment_radius_v2.go:37-58 *)
Definition HorizontalContainmentRadiusV2_ToString (hcr : HorizontalContainmentRadiusV2) : string :=
  if (hcr =? HCRV2RcLowerThan7Point5M) then
    "Rc < 7.5 m"%string
  else if (hcr =? HCRV2RcLowerThan25M) then
    "Rc < 25 m"%string
  else if (hcr =? HCRV2RcLowerThan75M) then
    "Rc < 75 m"%string
  else if (hcr =? HCRV2RcLowerThan0Point1NM) then
    "Rc < 0.1 NM (185.2 m)"%string
  else if (hcr =? HCRV2RcLowerThan0Point2NM) then
    "Rc < 0.2 NM (370.4 m)"%string
  else if (hcr =? HCRV2RcLowerThan0Point3NM) then
    "Rc < 0.3 NM (555.6 m)"%string
  else if (hcr =? HCRV2RcLowerThan0Point6NM) then
    "Rc < 0.6 NM (1111.2 m)"%string
  else if (hcr =? HCRV2RcGreaterThan0Point6NM) then
    "Rc >= 0.6 NM (1111.2 m) or unknown"%string
  else 
    (dec hcr ++ " - Unknown code"%string)%string.

(* pkg/adsb/surface_position/fields/horizontal_protection_limit.go:25-32 *)
Definition HorizontalProtectionLimit_GetHPLLowerBound (hpl : HorizontalProtectionLimit) : f64 :=
  if (hpl =? HPLGreaterThan185Point2M) then
    (f64_lit 926 5)
  else 
    (f64_lit (-1) 1).

(* pkg/adsb/surface_position/fields/horizontal_protection_limit.go:38-49 *)
Definition HorizontalProtectionLimit_GetHPLHigherBound (hpl : HorizontalProtectionLimit) : f64 :=
  if (hpl =? HPLLowerThan7Point5M) then
    (f64_lit 15 2)
  else if (hpl =? HPLLowerThan25M) then
    (f64_lit 25 1)
  else if (hpl =? HPLLowerThan185Point2M) then
    (f64_lit 926 5)
  else 
    (f64_lit (-1) 1).

(* pkg/adsb/surface_position/fields/horizontal_protection_limit.go:52-65 *)
Definition HorizontalProtectionLimit_ToString (hpl : HorizontalProtectionLimit) : string :=
  if (hpl =? HPLLowerThan7Point5M) then
    "HPL < 7.5 m"%string
  else if (hpl =? HPLLowerThan25M) then
    "HPL < 25 m"%string
  else if (hpl =? HPLLowerThan185Point2M) then
    "HPL < 185.2 m (0.1 NM)"%string
  else if (hpl =? HPLGreaterThan185Point2M) then
    "185.2 m (0.1 NM) <= HPL"%string
  else 
    (dec hpl ++ " - Unknown code"%string)%string.
