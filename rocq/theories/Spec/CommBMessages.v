(* Specification of ReadCommBMessage: which decodings of the message field are candidates.
   A Comm-B reply does not say which register it carries. *)
From Verif Require Import GoBase Bits.
From Coq Require Export Sorted.
From Verif.Spec Require Import Adsb Identification CommB.
From Verif.Gen Require acas_ra.
From Verif.Model Require Import CommbReader.
From Verif.Gen Require bds_register bds00 bds07 bds10 bds17 bds20 bds30 bds40 bds44 bds45 bds50 bds60.
Local Open Scope Z_scope.

(* the message is what the reader of its own register makes of the data *)
Definition decodes (data : list Z) (m : Message) : Prop :=
  match m with
  | B00 x => bds00.ReadNoMessageAvailable data = Ok x
  | B07 x => bds07.ReadStatus data = Ok x
  | B10 x => bds10.ReadDataLinkCapabilityReport data = Ok x
  | B17 x => bds17.ReadCommonUsageGICBCapabilityReport data = Ok x
  | B20 x => bds20.ReadAircraftIdentification data = Ok x
  | B30 x => bds30.ReadACASResolutionAdvisory data = Ok x
  | B40 x => bds40.ReadSelectedVerticalIntention data = Ok x
  | B44 x => bds44.ReadMeteorologicalRoutineAirReport data = Ok x
  | B45 x => bds45.ReadMeteorologicalHazardReport data = Ok x
  | B50 x => bds50.ReadTrackAndTurnReport data = Ok x
  | B60 x => bds60.ReadHeadingAndSpeedReport data = Ok x
  end.

(* the register of a message, as two decimal digits *)
Definition number (m : Message) : Z :=
  match m with
  | B00 _ => 0 | B07 _ => 7 | B10 _ => 10 | B17 _ => 17 | B20 _ => 20 | B30 _ => 30 | B40 _ => 40
  | B44 _ => 44 | B45 _ => 45 | B50 _ => 50 | B60 _ => 60
  end.

Definition coherent (m : Message) : Prop := Message_CheckCoherency m = Ok tt.

(* the registers that, once recognised, exclude the others *)
Definition exclusive (m : Message) : Prop := number m = 0 \/ number m = 7 \/ number m = 20.

(* the candidates are listed by increasing register, hence each register at most once *)
Definition increasing (l : list Message) : Prop := StronglySorted Z.lt (List.map number l).

(* what the coherency check of BDS 4,0 accepts (not what it should, see coherent_40) *)
Definition accepted_40 (data : list Z) : Prop :=
  bit 1 data = true /\ absent_is_zero 14 2 13 data.


(* the conditions the coherency check imposes, with the wind speed the reader finds *)
Definition accepted_44 (data : list Z) (wind : Z) : Prop :=
  (bit 5 data = true \/ bit 15 data = true \/ bit 24 data = true \/ bit 36 data = true \/ bit 49 data = true) /\
  (bit 5 data = false -> wind = 0) /\ absent_is_zero 15 16 23 data /\ absent_is_zero 24 25 35 data /\
  absent_is_zero 36 37 47 data /\ absent_is_zero 49 50 56 data /\
  wind <= 250 /\ -80 * 8 <= signed 25 35 data <= 60 * 8.


Definition has (k : Z) (l : list Message) : Prop := exists m, List.In m l /\ number m = k.

(* the conditions as the specification has them; for the registers 4,0 and 4,4, as the code has them *)
Definition plausible (k : Z) (data : list Z) : Prop :=
  (k = 10 /\ recognised_10 data /\ coherent_10 data) \/
  (k = 17 /\ recognised_17 data) \/
  (k = 30 /\ recognised_30 data /\ exists ra, acas_ra.ReadResolutionAdvisory (octets 2 7 data) = Ok ra) \/
  (k = 40 /\ recognised_40 data /\ accepted_40 data) \/
  (k = 44 /\ bits 1 4 data <= 4 /\ accepted_44 data (bits 7 14 data)) \/
  (k = 45 /\ bits 55 56 data = 0 /\ coherent_45 data) \/
  (k = 50 /\ coherent_50 data) \/
  (k = 60 /\ coherent_60 data).

