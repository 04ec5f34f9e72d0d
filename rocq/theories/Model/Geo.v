(* Model of pkg/geo: compact position reporting and the ground distance.
   The code computes with float64. The text of each function is modelled once, over a record of
   arithmetic operations, and used with two instances: binary64 ([floats], below) and the real
   numbers ([reals], in Model/GeoReal.v). The functions of package math whose result the Go
   specification leaves to the platform (Cos, Sin, Acos, Atan2, Pow) are parameters of [floats].
   Go may fuse x*y+z into one rounding on some platforms (not amd64): not modelled. *)
From Verif Require Import GoBase.
Local Open Scope Z_scope.

Record arith : Type := mkArith {
  num : Type;
  of_Z : Z -> num;            (* float64(n), n uint32 *)
  lit : Z -> Z -> num;        (* the constant n/d *)
  litpi : Z -> Z -> num;      (* the constant math.Pi*n/d *)
  add : num -> num -> num;
  sub : num -> num -> num;
  mul : num -> num -> num;
  div : num -> num -> num;
  ltb : num -> num -> bool;
  leb : num -> num -> bool;
  eqb : num -> num -> bool;
  floor : num -> num;
  abs : num -> num;
  max : num -> num -> num;
  sqrt : num -> num;
  cos : num -> num;
  sin : num -> num;
  acos : num -> num;
  atan2 : num -> num -> num;
  pow : num -> num -> num }.

(* ---- package math on binary64 ---- *)

(* math.Floor *)
Definition f64_floor (x : f64) : f64 :=
  match x with
  | S754_finite s m e =>
      if 0 <=? e then x else f64_of_Z ((if s then Zneg m else Zpos m) / 2 ^ (- e))
  | _ => x
  end.

(* math.Abs *)
Definition f64_abs (x : f64) : f64 := SFabs x.

(* math.Max *)
Definition f64_max (x y : f64) : f64 :=
  match x, y with
  | S754_infinity false, _ | _, S754_infinity false => S754_infinity false
  | S754_nan, _ | _, S754_nan => S754_nan
  | S754_zero s, S754_zero _ => if s then y else x
  | _, _ => if fl_ltb y x then x else y
  end.

(* math.Pi, as the 60 digits of its declaration, times n/d, rounded to binary64 *)
Definition f64_litpi (n d : Z) : f64 :=
  f64_lit (314159265358979323846264338327950288419716939937510582097494459 * n)
          (100000000000000000000000000000000000000000000000000000000000000 * d).

(* the functions of package math that are not determined by IEEE 754 *)
Record mathlib : Type := mkMathlib {
  m_cos : f64 -> f64;
  m_sin : f64 -> f64;
  m_acos : f64 -> f64;
  m_atan2 : f64 -> f64 -> f64;
  m_pow : f64 -> f64 -> f64 }.

Definition floats (m : mathlib) : arith :=
  {| num := f64; of_Z := f64_of_Z; lit := f64_lit; litpi := f64_litpi;
     add := f64_add; sub := f64_sub; mul := f64_mul; div := f64_div;
     ltb := fl_ltb; leb := fl_leb; eqb := fl_eqb;
     floor := f64_floor; abs := f64_abs; max := f64_max; sqrt := f64_sqrt;
     cos := m_cos m; sin := m_sin m; acos := m_acos m; atan2 := m_atan2 m; pow := m_pow m |}.

(* ---- pkg/geo/cpr_common.go ---- *)

(* cpr_common.go:12-14; Nz = 15 (:5) and maxBinaryValue = 131072 (:8) are constants *)
Definition mod_ (A : arith) (x y : num A) : num A := sub A x (mul A y (floor A (div A x y))).

(* cpr_common.go:22-38 *)
Definition getNumberOfLongitude (A : arith) (lat : num A) : num A :=
  if eqb A lat (lit A 0 1) then lit A 59 1
  else if eqb A (abs A lat) (lit A 87 1) then lit A 2 1
  else if ltb A (lit A 87 1) (abs A lat) then lit A 1 1
  else
    let a := sub A (lit A 1 1) (cos A (litpi A 1 30)) in
    let b := pow A (cos A (mul A (litpi A 1 180) (abs A lat))) (lit A 2 1) in
    let nl := div A (litpi A 2 1) (acos A (sub A (lit A 1 1) (div A a b))) in
    floor A nl.

(* ---- pkg/geo/cpr_airborne_global_position.go:19-103 ---- *)
Definition GetCPRAirborneGlobalPosition (A : arith)
  (evenCPRLatitude evenCPRLongitude oddCPRLatitude oddCPRLongitude : Z)
  (evenDataReceivedAfterOddData : bool) : res (num A * num A) :=
  let cprLatitudeEven := div A (of_Z A evenCPRLatitude) (lit A 131072 1) in
  let cprLongitudeEven := div A (of_Z A evenCPRLongitude) (lit A 131072 1) in
  let cprLatitudeOdd := div A (of_Z A oddCPRLatitude) (lit A 131072 1) in
  let cprLongitudeOdd := div A (of_Z A oddCPRLongitude) (lit A 131072 1) in
  let dLatitudeEven := lit A 360 60 in
  let dLatitudeOdd := lit A 360 59 in
  let j := floor A (add A (sub A (mul A (lit A 59 1) cprLatitudeEven) (mul A (lit A 60 1) cprLatitudeOdd)) (lit A 1 2)) in
  let latitudeEven := mul A dLatitudeEven (add A (mod_ A j (lit A 60 1)) cprLatitudeEven) in
  let latitudeOdd := mul A dLatitudeOdd (add A (mod_ A j (lit A 59 1)) cprLatitudeOdd) in
  let latitudeEven := if leb A (lit A 270 1) latitudeEven then sub A latitudeEven (lit A 360 1) else latitudeEven in
  let latitudeOdd := if leb A (lit A 270 1) latitudeOdd then sub A latitudeOdd (lit A 360 1) else latitudeOdd in
  let numberLongitudeEven := getNumberOfLongitude A latitudeEven in
  let numberLongitudeOdd := getNumberOfLongitude A latitudeOdd in
  if negb (eqb A numberLongitudeEven numberLongitudeOdd) then
    Err "both latitude are not in the same latitude zone"%string
  else
    let numberLongitude := numberLongitudeEven in
    let latitude := if evenDataReceivedAfterOddData then latitudeEven else latitudeOdd in
    let m := floor A (add A (sub A (mul A cprLongitudeEven (sub A numberLongitude (lit A 1 1)))
                                   (mul A cprLongitudeOdd numberLongitude)) (lit A 1 2)) in
    let nEven := max A (sub A numberLongitude (lit A 0 1)) (lit A 1 1) in
    let nOdd := max A (sub A numberLongitude (lit A 1 1)) (lit A 1 1) in
    let dLonEven := div A (lit A 360 1) nEven in
    let dLonOdd := div A (lit A 360 1) nOdd in
    let lonEven := mul A dLonEven (add A (mod_ A m nEven) cprLongitudeEven) in
    let lonOdd := mul A dLonOdd (add A (mod_ A m nOdd) cprLongitudeOdd) in
    let longitude := if evenDataReceivedAfterOddData then lonEven else lonOdd in
    let longitude := if ltb A (lit A 180 1) longitude then sub A longitude (lit A 360 1) else longitude in
    Ok (latitude, longitude).

(* ---- pkg/geo/cpr_airborne_local_position.go:15-50 and cpr_surface_local_position.go:15-51:
   the same text, but for the constant 360.0 or 90.0 ---- *)
Definition localPosition (A : arith) (turn : num A) (cprLatitude cprLongitude : Z)
  (referenceLatitude referenceLongitude : num A) (isOdd : bool) : num A * num A :=
  let i := if isOdd then lit A 1 1 else lit A 0 1 in
  let latCPR := div A (of_Z A cprLatitude) (lit A 131072 1) in
  let lonCPR := div A (of_Z A cprLongitude) (lit A 131072 1) in
  let dLat := div A turn (sub A (lit A 60 1) i) in
  let j := add A (floor A (div A referenceLatitude dLat))
                 (floor A (add A (sub A (div A (mod_ A referenceLatitude dLat) dLat) latCPR) (lit A 1 2))) in
  let latitude := mul A dLat (add A j latCPR) in
  let dLon := div A turn (max A (sub A (getNumberOfLongitude A latitude) i) (lit A 1 1)) in
  let m := add A (floor A (div A referenceLongitude dLon))
                 (floor A (add A (sub A (div A (mod_ A referenceLongitude dLon) dLon) lonCPR) (lit A 1 2))) in
  let longitude := mul A dLon (add A m lonCPR) in
  (latitude, longitude).

Definition GetCPRAirborneLocalPosition (A : arith) := localPosition A (lit A 360 1).
Definition GetCPRSurfaceLocalPosition (A : arith) := localPosition A (lit A 90 1).

(* ---- pkg/geo/cpr_surface_global_position.go:21-126 ---- *)

(* :113-121, the index of the smallest of the distances below 10000000, and -1 without one *)
Fixpoint smallest (A : arith) (distances : list (num A)) (i : Z) (smallestDistance : num A) (minIndex : Z) : Z :=
  match distances with
  | [] => minIndex
  | d :: rest =>
      if ltb A d smallestDistance then smallest A rest (i + 1) d i
      else smallest A rest (i + 1) smallestDistance minIndex
  end.

Definition GetCPRSurfaceGlobalPosition (A : arith)
  (evenCPRLatitude evenCPRLongitude oddCPRLatitude oddCPRLongitude : Z)
  (evenDataReceivedAfterOddData : bool) (referenceLatitude referenceLongitude : num A) : res (num A * num A) :=
  let cprLatitudeEven := div A (of_Z A evenCPRLatitude) (lit A 131072 1) in
  let cprLongitudeEven := div A (of_Z A evenCPRLongitude) (lit A 131072 1) in
  let cprLatitudeOdd := div A (of_Z A oddCPRLatitude) (lit A 131072 1) in
  let cprLongitudeOdd := div A (of_Z A oddCPRLongitude) (lit A 131072 1) in
  let latitudeIndex := floor A (add A (sub A (mul A (lit A 59 1) cprLatitudeEven) (mul A (lit A 60 1) cprLatitudeOdd)) (lit A 1 2)) in
  let latitudeEven := mul A (lit A 90 60) (add A (mod_ A latitudeIndex (lit A 60 1)) cprLatitudeEven) in
  let latitudeOdd := mul A (lit A 90 59) (add A (mod_ A latitudeIndex (lit A 59 1)) cprLatitudeOdd) in
  let latitudeEvenFixed := if ltb A referenceLatitude (lit A 0 1) then sub A latitudeEven (lit A 90 1) else latitudeEven in
  let latitudeOddFixed := if ltb A referenceLatitude (lit A 0 1) then sub A latitudeOdd (lit A 90 1) else latitudeOdd in
  let numberLongitudeEven := getNumberOfLongitude A latitudeEvenFixed in
  let numberLongitudeOdd := getNumberOfLongitude A latitudeOddFixed in
  if negb (eqb A numberLongitudeEven numberLongitudeOdd) then
    Err "both latitude are not in the same quadrantLongitude zone"%string
  else
    let numberLongitude := numberLongitudeEven in
    let latitude := if evenDataReceivedAfterOddData then latitudeEvenFixed else latitudeOddFixed in
    let m := floor A (add A (sub A (mul A cprLongitudeEven (sub A numberLongitude (lit A 1 1)))
                                   (mul A cprLongitudeOdd numberLongitude)) (lit A 1 2)) in
    let nEven := max A (sub A numberLongitude (lit A 0 1)) (lit A 1 1) in
    let nOdd := max A (sub A numberLongitude (lit A 1 1)) (lit A 1 1) in
    let lonEven := mul A (div A (lit A 90 1) nEven) (add A (mod_ A m nEven) cprLongitudeEven) in
    let lonOdd := mul A (div A (lit A 90 1) nOdd) (add A (mod_ A m nOdd) cprLongitudeOdd) in
    let quadrantLongitude := if evenDataReceivedAfterOddData then lonEven else lonOdd in
    let longitudes := [quadrantLongitude; add A quadrantLongitude (lit A 90 1);
                       add A quadrantLongitude (lit A 180 1); add A quadrantLongitude (lit A 270 1)] in
    let longitudesCorrected :=
      List.map (fun longitude => sub A (mod_ A (add A longitude (lit A 180 1)) (lit A 360 1)) (lit A 180 1)) longitudes in
    let distancesToRef :=
      List.map (fun longitudeCorrected => abs A (sub A referenceLongitude longitudeCorrected)) longitudesCorrected in
    let minIndex := smallest A distancesToRef 0 (lit A 10000000 1) (-1) in
    let* longitude := idx longitudesCorrected minIndex in
    Ok (latitude, longitude).

(* ---- pkg/geo/ground_distance.go:16-32 ---- *)
Definition ComputeGroundDistance (A : arith) (lat1 long1 lat2 long2 : num A) : num A :=
  let earthRadius := lit A 6371000 1 in
  let phi1 := div A (mul A lat1 (litpi A 1 1)) (lit A 180 1) in
  let phi2 := div A (mul A lat2 (litpi A 1 1)) (lit A 180 1) in
  let deltaPhi := div A (mul A (sub A lat2 lat1) (litpi A 1 1)) (lit A 180 1) in
  let deltaLambda := div A (mul A (sub A long2 long1) (litpi A 1 1)) (lit A 180 1) in
  let a := add A (pow A (sin A (div A deltaPhi (lit A 2 1))) (lit A 2 1))
                 (mul A (mul A (cos A phi1) (cos A phi2)) (pow A (sin A (div A deltaLambda (lit A 2 1))) (lit A 2 1))) in
  let c := mul A (lit A 2 1) (atan2 A (sqrt A a) (sqrt A (sub A (lit A 1 1) a))) in
  mul A earthRadius c.
