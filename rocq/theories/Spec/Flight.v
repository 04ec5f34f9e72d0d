(* A flight, as a receiver hears it: the position squitters of one aircraft, in the air or on the ground, in any order of
   formats, among any other frames; and a receiver which keeps the last position of that aircraft. *)
From Verif Require Import GoBase Bits.
From Verif.Spec Require Import AdsbMessages Squitter.
From Verif.Gen Require modes_messages bds05 bds06.
From Verif.Model Require Import Crc ModesReader AdsbReader Geo.
From Coq Require Import Reals List.
From Verif.Spec Require Import Binary64 Cpr Geodesy Sent.
Local Open Scope R_scope.

(* ---- what is sent ---- *)

(* where the aircraft is when it sends a position, on the ground or not, the format it uses and its number of longitude
   zones *)
Record report := { r_ground : bool; r_odd : bool; r_lat : R; r_lon : R; r_zones : Z }.

(* the part of the circle which the zones of the encoding share: positions on the ground are four times finer *)
Definition r_turn (r : report) : R := if r_ground r then 90 else 360.

(* the squitter of an airborne position; or of a position on the ground, not next to the equator or to a pole. The number
   of zones is that of the latitude which the message stands for *)
Definition airborne_type (tc : Z) : Prop := (9 <= tc <= 18 \/ 20 <= tc <= 22)%Z.
Definition surface_type (tc : Z) : Prop := (5 <= tc <= 8)%Z.
Definition sends (icao : Z) (r : report) (frame : list Z) : Prop :=
  if r_ground r then
    -90 <= r_lat r <= 90 /\ ground_latitude (sent_ground_latitude (r_odd r) (r_lat r)) /\
    zones_at (sent_ground_latitude (r_odd r) (r_lat r)) (r_zones r) /\
    exists capability tc movement track_valid track time, surface_type tc /\
      Squitter capability icao
        (surface_payload tc movement track_valid track time (r_odd r)
           (surface_latitude (r_odd r) (r_lat r)) (surface_longitude (r_zones r) (r_odd r) (r_lon r))) frame
  else
    -90 <= r_lat r <= 90 /\ zones_at (sent_latitude (r_odd r) (r_lat r)) (r_zones r) /\
    exists capability tc status antenna feet altitude time,
      airborne_type tc /\ altitude_fields feet altitude /\
      Squitter capability icao
        (airborne_payload tc status antenna altitude time (r_odd r)
           (airborne_latitude (r_odd r) (r_lat r)) (airborne_longitude (r_zones r) (r_odd r) (r_lon r))) frame.

(* any other frame: bytes which are not the squitter of a position of this aircraft, or of one without altitude (the 12
   bits of the altitude are 0) *)
Definition other (icao : Z) (frame : list Z) : Prop :=
  bytes frame /\ forall capability payload, Squitter capability icao payload frame ->
    (airborne_type (bits 33 37 frame) -> bits 41 52 frame = 0%Z) /\ ~ surface_type (bits 33 37 frame).

(* a position near enough to be the reference of a report: within 2.99 degrees of latitude (179 NM), or 0.74 degree (44 NM)
   if the report is on the ground, and within half a longitude zone *)
Definition near (lat lon : R) (r : report) : Prop :=
  Rabs (r_lat r - lat) <= (if r_ground r then 0.74 else 2.99) /\
  Rabs (r_lon r - lon) <= r_turn r / IZR (longitude_zones (r_zones r) (r_odd r)) / 2 - 1 / 200.

(* so near is the last report to the next one; and the aircraft does not go further than 200 degrees of longitude from its
   first report *)
Definition follows (first last next : report) : Prop :=
  near (r_lat last) (r_lon last) next /\ Rabs (r_lon next - r_lon first) <= 200.

(* the frames heard since the first report, and the last report among them *)
Inductive heard (icao : Z) (first : report) : list (list Z) -> report -> Prop :=
| heard_nothing : heard icao first [] first
| heard_other frames frame last : heard icao first frames last -> other icao frame -> heard icao first (frames ++ [frame]) last
| heard_report frames frame last next : heard icao first frames last -> sends icao next frame -> follows first last next ->
    heard icao first (frames ++ [frame]) next.

(* ---- the receiver ---- *)

(* on each frame: the message is read, its parity checked and its address compared; if it is a position, the last one
   is its reference *)
Definition receive (m : mathlib) (version : Z) (nicA nicC : bool) (icao : Z) (position : f64 * f64) (frame : list Z) : f64 * f64 :=
  match ReadMessage frame with
  | Ok (MDF17 d) =>
      match CheckCRC (MDF17 d) frame [] [] with
      | Ok address =>
          if (address =? icao)%Z then
            match ReadADSBMessage version nicA nicC (modes_messages.MessageDF17_MessageExtendedSquitter d) with
            | Ok (AAirborne p) =>
                let a := airborne_part p in
                GetCPRAirborneLocalPosition (floats m) (bds05.AirbornePosition_EncodedLatitude a)
                  (bds05.AirbornePosition_EncodedLongitude a) (fst position) (snd position) (bds05.AirbornePosition_CPRFormat a =? 1)%Z
            | Ok (ASurface p) =>
                let a := surface_part p in
                GetCPRSurfaceLocalPosition (floats m) (bds06.SurfacePosition_EncodedLatitude a)
                  (bds06.SurfacePosition_EncodedLongitude a) (fst position) (snd position) (bds06.SurfacePosition_CPRFormat a =? 1)%Z
            | _ => position
            end
          else position
      | _ => position
      end
  | _ => position
  end.

Definition track (m : mathlib) (version : Z) (nicA nicC : bool) (icao : Z) (start : f64 * f64) (frames : list (list Z)) : f64 * f64 :=
  fold_left (receive m version nicA nicC icao) frames start.

(* the position is that of the report, up to half a step of the encoding; turns counts the turns of the circle between the
   longitude told and that of the report *)
Definition located (turns : Z) (position : f64 * f64) (r : report) : Prop :=
  exists u w,
    fl (fst position) u /\ Rabs (u - r_lat r) <= half_step (r_turn r) (latitude_zones (r_odd r)) + 1 / 1000000000 /\
    fl (snd position) w /\
    Rabs (w - (r_lon r + 360 * IZR turns)) <= half_step (r_turn r) (longitude_zones (r_zones r) (r_odd r)) + 1 / 1000000000.
