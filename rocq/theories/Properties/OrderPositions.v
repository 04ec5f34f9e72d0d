(* Property theorems: OrderPositions. Generated by tools/mkprops.py; proofs are in theories/Proofs. *)
From Verif Require Import GoBase Bits.
From Verif.Spec Require Import Altitude Identification Floats Adsb AdsbMessages Velocity Squitter Statuses Noise Session.
From Verif.Gen Require bds05 bds06 bds08 bds08_fields bds09 adsb_airborne_velocity adsb_aircraft_identification_and_category.
From Verif.Model Require Import Crc ModesReader AdsbReader Geo.
From Coq Require Import Reals Floats.SpecFloat.
From Flocq Require Import Core.
From Verif.Spec Require Import Binary64 Cpr Geodesy MathLib ZoneTable Precise Sent Flight Receiver Track.
From Verif.Spec Require Order.
From Verif.Proofs Require OrderPositions.
Local Open Scope Z_scope.

Theorem C116_positions_order : forall m table frames frames' own icao,
  Order.heard icao frames own -> Order.heard icao frames' own ->
  fold_left (hear_all m) frames table icao = fold_left (hear_all m) frames' table icao.
Proof. exact OrderPositions.positions_order. Qed.
Print Assumptions C116_positions_order.
