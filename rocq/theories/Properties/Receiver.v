(* Property theorems: Receiver. Generated by tools/mkprops.py; proofs are in theories/Proofs. *)
From Verif Require Import GoBase Bits.
From Verif.Spec Require Import Altitude Identification Floats Adsb AdsbMessages Velocity Squitter Statuses Noise Session.
From Verif.Gen Require bds05 bds06 bds08 bds08_fields bds09 adsb_airborne_velocity adsb_aircraft_identification_and_category.
From Verif.Model Require Import Crc ModesReader AdsbReader Geo.
From Coq Require Import Reals Floats.SpecFloat.
From Flocq Require Import Core.
From Verif.Spec Require Import Binary64 Cpr Geodesy MathLib ZoneTable Precise Sent Flight Receiver Track.
From Verif.Proofs Require Receiver.
Local Open Scope R_scope.

Theorem C111_crowd : forall m frames table icao,
  fold_left (hear_all m) frames table icao = fold_left (hear m icao) frames (table icao).
Proof. exact Receiver.crowd. Qed.
Print Assumptions C111_crowd.

Theorem C111_followed : forall m icao turns standard start first frames last,
  sharp m -> (0 <= s_version standard <= 2)%Z ->
  -90 <= r_lat first <= 90 -> (1 <= r_zones first <= 59)%Z -> Rabs (r_lon first + 360 * IZR turns) <= 181 ->
  located turns start first -> heard icao first frames last ->
  located turns (snd (fold_left (hear m icao) frames (standard, start))) last.
Proof. exact Receiver.followed. Qed.
Print Assumptions C111_followed.

Theorem C111_crowd_followed : forall m table frames icao turns first last s,
  sharp m -> (0 <= s_version (fst (table icao)) <= 2)%Z ->
  -90 <= r_lat first <= 90 -> (1 <= r_zones first <= 59)%Z -> Rabs (r_lon first + 360 * IZR turns) <= 181 ->
  located turns (snd (table icao)) first -> heard icao first frames last ->
  session icao (fst (table icao)) frames s ->
  let k := fold_left (hear_all m) frames table icao in
  fst k = s /\ located turns (snd k) last.
Proof. exact Receiver.crowd_followed. Qed.
Print Assumptions C111_crowd_followed.

Example C111_crowd_example : exists start first frames last,
  r_lon first = 179 /\ r_lon last = 180.5 /\ Datatypes.length frames = 5%nat /\
  -90 <= r_lat first <= 90 /\ (1 <= r_zones first <= 59)%Z /\ Rabs (r_lon first + 360 * IZR 0) <= 181 /\
  located 0 start first /\ heard 0x40621D first frames last /\
  session 0x40621D newcomer frames {| s_version := 2; s_nic_a := true; s_nic_c := false |} /\
  session 0x40621E newcomer frames newcomer.
Proof. exact Receiver.crowd_example. Qed.
Print Assumptions C111_crowd_example.
