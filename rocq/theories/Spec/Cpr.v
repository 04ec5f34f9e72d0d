(* Compact position reporting as DO-260B (2.2.3.2.3.7, A.1.7) and Doc 9871 define its encoding.
   Over the real numbers; a latitude or longitude is in degrees. *)
From Coq Require Import ZArith Reals.
From Flocq Require Import Core.
From Verif.Spec Require Import Binary64.
Local Open Scope R_scope.

(* x modulo y, in [0, y) *)
Definition MOD (x y : R) : R := x - y * IZR (Zfloor (x / y)).

(* the 17 bits transmitted for the coordinate x, in zones of the given size; Nb is the number of
   bits of the encoding, of which the 17 low order bits are transmitted *)
Definition encode (Nb : Z) (zone x : R) : Z :=
  (Zfloor (IZR (2 ^ Nb) * (MOD x zone / zone) + 1 / 2) mod 131072)%Z.

(* the number of latitude zones: 60 in even messages, 59 in odd ones; and of longitude zones,
   at a latitude where NL = n *)
Definition latitude_zones (odd : bool) : Z := if odd then 59%Z else 60%Z.
Definition longitude_zones (n : Z) (odd : bool) : Z := Z.max (if odd then n - 1 else n) 1.

(* airborne positions: 17 bits, zones divide the circle *)
Definition airborne_latitude (odd : bool) (lat : R) : Z := encode 17 (360 / IZR (latitude_zones odd)) lat.
Definition airborne_longitude (n : Z) (odd : bool) (lon : R) : Z := encode 17 (360 / IZR (longitude_zones n odd)) lon.

(* surface positions: the same zones, 19 bits, of which 17 are transmitted *)
Definition surface_latitude (odd : bool) (lat : R) : Z := encode 19 (360 / IZR (latitude_zones odd)) lat.
Definition surface_longitude (n : Z) (odd : bool) (lon : R) : Z := encode 19 (360 / IZR (longitude_zones n odd)) lon.

(* half a step of the encoding: turn is 360 (airborne) or 90 (surface) *)
Definition half_step (turn : R) (zones : Z) : R := turn / IZR zones / 262144.

(* x and y are the same angle up to eps *)
Definition same_angle (x y eps : R) : Prop := exists k : Z, Rabs (x - y - 360 * IZR k) <= eps.

(* ---- global decoding, from a pair of codes of the same position (A.1.7.7) ---- *)

(* the index from which both zones are found; n and n - 1 are the numbers of zones *)
Definition zone_index (n even odd : Z) : Z :=
  Zfloor ((IZR (n - 1) * IZR even - IZR n * IZR odd) / 131072 + 1 / 2).

(* the coordinate in [0, turn) *)
Definition decoded (turn : R) (zones index code : Z) : R :=
  turn / IZR zones * (IZR (index mod zones) + IZR code / 131072).

(* latitudes from 270 degrees up are southern *)
Definition southern (v : R) : R := if Rle_bool 270 v then v - 360 else v.

Definition airborne_decoded_latitude (odd : bool) (even_code odd_code : Z) : R :=
  southern (decoded 360 (latitude_zones odd) (zone_index 60 even_code odd_code) (if odd then odd_code else even_code)).

(* a 17-bit code *)
Definition code (c : Z) : Prop := (0 <= c < 131072)%Z.

(* ---- local decoding, from one code and a reference (A.1.7.5, A.1.7.6) ---- *)

(* x is one of the coordinates the code stands for, and none of the others is closer to the reference,
   up to the precision of binary64 *)
Definition nearest (turn : R) (zones c : Z) (reference : R) (x : SpecFloat.spec_float) : Prop :=
  exists v k, fl x v /\
    Rabs (v - turn / IZR zones * (IZR k + IZR c / 131072)) <= 1 / 10000000000 /\
    Rabs (v - reference) <= turn / IZR zones / 2 + 1 / 500000000.

(* ---- global decoding of surface positions (A.1.7.8): the hemisphere and the quadrant come from
   the reference ---- *)
Definition surface_decoded_latitude (odd south : bool) (even_code odd_code : Z) : R :=
  decoded 90 (latitude_zones odd) (zone_index 60 even_code odd_code) (if odd then odd_code else even_code)
  - (if south then 90 else 0).

(* the candidate longitudes in [-180, 180): quadrant i, from -2 to 1 *)
Definition surface_candidate (n : Z) (odd : bool) (even_code odd_code i : Z) : R :=
  decoded 90 (longitude_zones n odd) (zone_index n even_code odd_code) (if odd then odd_code else even_code) + 90 * IZR i.

(* two positions sent one after the other by a moving aircraft: their difference, in the n zones of one message and
   the n - 1 zones of the other, stays below the half of what the zone index can tell *)
Definition short_move (turn : R) (n : Z) (x y : R) : Prop :=
  n = 1%Z \/ same_angle x y (0.4994 * turn / IZR (n * (n - 1))).
