(* Specification of the ADS-B position messages (Doc 9871 Table A-2-5, A-2-6;
   DO-260, DO-260A, DO-260B section 2.2.3.2). Independent of the readers: only
   the record types of the API are used. *)
From Verif Require Import GoBase Bits.
From Verif.Spec Require Import Altitude Floats.
From Verif.Gen Require bds05 bds06.
Local Open Scope string_scope.
Local Open Scope Z_scope.

(* ---- type codes ---- *)

Inductive Kind := KNoPosition | KType0 | KIdentification | KSurface | KAirborne | KVelocity
  | KStatus | KTarget | KOperational.

(* the kind of an ADS-B message body *)
Inductive KindOf (data : list Z) : Kind -> Prop :=
| k_nopos : bits 1 5 data = 0 -> bits 21 56 data = 0 -> KindOf data KNoPosition
| k_type0 : bits 1 5 data = 0 -> bits 21 56 data <> 0 -> KindOf data KType0
| k_ident : 1 <= bits 1 5 data <= 4 -> KindOf data KIdentification
| k_surface : 5 <= bits 1 5 data <= 8 -> KindOf data KSurface
| k_airborne : 9 <= bits 1 5 data <= 18 \/ 20 <= bits 1 5 data <= 22 -> KindOf data KAirborne
| k_velocity : bits 1 5 data = 19 -> KindOf data KVelocity
| k_status : bits 1 5 data = 28 -> KindOf data KStatus
| k_target : bits 1 5 data = 29 -> KindOf data KTarget
| k_operational : bits 1 5 data = 31 -> KindOf data KOperational.

Definition airborne_type (tc : Z) : Prop := 9 <= tc <= 18 \/ 20 <= tc <= 22.
Definition surface_type (tc : Z) : Prop := 5 <= tc <= 8.

(* ---- BDS 0,5: airborne position ---- *)

(* the fields of an airborne position of altitude alt *)
Definition airborne_position (data : list Z) (alt : Z) : bds05.AirbornePosition :=
  {| bds05.AirbornePosition_FormatTypeCode := bits 1 5 data;
     bds05.AirbornePosition_SurveillanceStatus := bits 6 7 data;
     bds05.AirbornePosition_SingleAntennaFlag := bits 8 8 data;
     (* 0 barometric, 1 GNSS *)
     bds05.AirbornePosition_AltitudeSource := if 20 <=? bits 1 5 data then 1 else 0;
     (* 0: 100 ft increments, 1: 25 ft increments *)
     bds05.AirbornePosition_AltitudeReportMethod := bits 16 16 data;
     bds05.AirbornePosition_AltitudeInFeet := alt;
     bds05.AirbornePosition_Time := bits 21 21 data;
     bds05.AirbornePosition_CPRFormat := bits 22 22 data;
     bds05.AirbornePosition_EncodedLatitude := bits 23 39 data;
     bds05.AirbornePosition_EncodedLongitude := bits 40 56 data |}.

(* ---- BDS 0,6: surface position ---- *)

(* ground speed in knots coded by the movement field: first code of the range,
   first speed of the range, step *)
Definition movement_ranges : list (Z * Q * Q) :=
  [ (2, 1 # 8, 1 # 8); (9, 1 # 1, 1 # 4); (13, 2 # 1, 1 # 2); (39, 15 # 1, 1 # 1);
    (94, 70 # 1, 2 # 1); (109, 100 # 1, 5 # 1); (124, 175 # 1, 0 # 1) ].

Definition movement_knots (code : Z) : Q :=
  if 125 <=? code then 0 else
  List.fold_left (fun v (r : Z * Q * Q) =>
    let '(first, speed, step) := r in
    if first <=? code then (speed + inject_Z (code - first) * step)%Q else v)
    movement_ranges 0%Q.

(* ---- navigation integrity ---- *)

(* The containment radius Rc is given by the text that names its bound; it is reported
   by the API as an enumeration value, whose printed label must contain that text *)
Definition says (label text : string) : Prop := String.index 0 text label <> None.

(* NIC and Rc for an airborne position, ADS-B version 1 (DO-260A Table 2-11):
   type code, NIC supplement *)
Definition nic_airborne_v1 (tc : Z) (a : bool) : Z * string :=
  if (tc =? 9) || (tc =? 20) then (11, "Rc < 7.5 m")
  else if (tc =? 10) || (tc =? 21) then (10, "Rc < 25 m")
  else if tc =? 11 then if a then (9, "Rc < 75 m") else (8, "Rc < 0.1 NM")
  else if tc =? 12 then (7, "Rc < 0.2 NM")
  else if tc =? 13 then if a then (6, "Rc < 0.6 NM") else (6, "Rc < 0.5 NM")
  else if tc =? 14 then (5, "Rc < 1.0 NM")
  else if tc =? 15 then (4, "Rc < 2 NM")
  else if tc =? 16 then if a then (3, "Rc < 4 NM") else (2, "Rc < 8 NM")
  else if tc =? 17 then (1, "Rc < 20 NM")
  else (0, "Rc >=").

(* version 2 (DO-260B Table 2-14): supplements A and B; the combination A=1, B=0 of
   type code 13 and the mixed combinations of the others are not defined: A decides *)
Definition nic_airborne_v2 (tc : Z) (a b : bool) : Z * string :=
  if tc =? 13 then
    if a then (6, "Rc < 0.6 NM") else if b then (6, "Rc < 0.3 NM") else (6, "Rc < 0.5 NM")
  else nic_airborne_v1 tc a.

(* surface positions: version 1 (DO-260A Table 2-11), version 2 (DO-260B Table 2-14) *)
Definition nic_surface_v1 (tc : Z) (a : bool) : Z * string :=
  if tc =? 5 then (11, "Rc < 7.5 m")
  else if tc =? 6 then (10, "Rc < 25 m")
  else if tc =? 7 then if a then (9, "Rc < 75 m") else (8, "Rc < 0.1 NM")
  else (0, "Rc >=").

Definition nic_surface_v2 (tc : Z) (a c : bool) : Z * string :=
  if tc =? 8 then
    if a then if c then (7, "Rc < 0.2 NM") else (6, "Rc < 0.3 NM")
    else if c then (6, "Rc < 0.6 NM") else (0, "Rc >=")
  else nic_surface_v1 tc a.

(* version 0 (DO-260 Table 2-11): bounds of the horizontal protection limit HPL and of
   the containment radius (95%) mu, in metres: the texts that the label must contain *)
Definition hpl_airborne_v0 (tc : Z) : list string :=
  if tc =? 9 then ["< 7.5 m"] else if tc =? 10 then ["7.5 m <="; "< 25 m"]
  else if tc =? 11 then ["25 m <="; "< 185.2 m"] else if tc =? 12 then ["185.2 m <="; "< 370.4 m"]
  else if tc =? 13 then ["370.4 m <="; "< 926 m"] else if tc =? 14 then ["926 m <="; "< 1 852 m"]
  else if tc =? 15 then ["1 852 m <="; "< 3 704 m"] else if tc =? 16 then ["3.704 km <="; "< 18.52 km"]
  else if tc =? 17 then ["18.52 km <="; "< 37.04 km"] else if tc =? 18 then [">= 37.04 km"]
  else if tc =? 20 then ["< 7.5 m"] else if tc =? 21 then ["< 25 m"] else ["25 m <="].

Definition mu_airborne_v0 (tc : Z) : list string :=
  if tc =? 9 then ["< 3m"] else if tc =? 10 then ["3 m <="; "< 10 m"]
  else if tc =? 11 then ["10 m <="; "< 92.6 m"] else if tc =? 12 then ["92.6 m <="; "< 185.2 m"]
  else if tc =? 13 then ["185.2 m <="; "< 463 m"] else if tc =? 14 then ["463 m <="; "< 926 m"]
  else if tc =? 15 then ["926 m <="; "< 1852 m"] else if tc =? 16 then ["1.852 km <="; "< 9.26 km"]
  else if tc =? 17 then ["9.26 km <="; "< 18.52 km"] else if tc =? 18 then ["18.52 km <="]
  else if tc =? 20 then ["< 3 m"; "v < 4 m"] else if tc =? 21 then ["< 10 m"; "v < 15 m"]
  else ["> 10 m"; "v >= 15 m"].

Definition hpl_surface_v0 (tc : Z) : string :=
  if tc =? 5 then "HPL < 7.5 m" else if tc =? 6 then "HPL < 25 m"
  else if tc =? 7 then "HPL < 185.2 m" else "185.2 m (0.1 NM) <= HPL".

Definition mu_surface_v0 (tc : Z) : list string :=
  if tc =? 5 then ["< 3 m"] else if tc =? 6 then ["3 m <="; "< 10 m"]
  else if tc =? 7 then ["10 m <="; "< 92.6 m"] else ["92.6 m (0.05 NM) <="].

(* the fields of a surface position *)
Definition surface_position (data : list Z) (p : bds06.SurfacePosition) : Prop :=
  bds06.SurfacePosition_FormatTypeCode p = bits 1 5 data /\
  bds06.SurfacePosition_MovementStatus p = bits 6 12 data /\
  is_value (bds06.SurfacePosition_MovementSpeed p) (movement_knots (bits 6 12 data)) /\
  bds06.SurfacePosition_GroundTrackStatus p = bit 13 data /\
  is_value (bds06.SurfacePosition_GroundTrack p) (inject_Z (bits 14 20 data) * (360 # 128)) /\
  bds06.SurfacePosition_Time p = bits 21 21 data /\
  bds06.SurfacePosition_CPRFormat p = bits 22 22 data /\
  bds06.SurfacePosition_EncodedLatitude p = bits 23 39 data /\
  bds06.SurfacePosition_EncodedLongitude p = bits 40 56 data.
