(* The text of an emergency report does not show its Mode A code. *)
From Verif.Proofs Require Import Tac.
From Verif.Spec Require Import Adsb Status AdsbMessages.
From Verif.Gen Require bds61 bds61_fields adsb_aircraft_status.
From Verif.Model Require Import AdsbReader.
From Verif.Proofs Require Import Octets AdsbApi.
Require Import String List.
Import ListNotations.
Local Open Scope Z_scope.

(* two emergency reports with the same emergency and different Mode A codes are different messages with the same text,
   of three lines *)
Theorem emergency_code_refuted : forall ffmt matan2 v a c data data',
  bytes data -> len data = 7 -> bits 1 5 data = 28 -> bits 6 8 data = 1 -> bits 25 56 data = 0 ->
  bytes data' -> len data' = 7 -> bits 1 5 data' = 28 -> bits 6 8 data' = 1 -> bits 25 56 data' = 0 ->
  bits 9 11 data = bits 9 11 data' -> bits 12 24 data <> bits 12 24 data' ->
  exists m m', AdsbReader.ReadADSBMessage v a c data = Ok m /\ AdsbReader.ReadADSBMessage v a c data' = Ok m' /\
    m <> m' /\ AdsbReader.Message_ToString ffmt matan2 m = AdsbReader.Message_ToString ffmt matan2 m'.
Proof.
  intros ffmt matan2 v a c d d' B L T S R B' L' T' S' R' E N.
  pose proof (status_emergency d S R) as M. apply (status_message_partial v a c d B L ltac:(apply k_status; exact T)) in M; [|lia|lia].
  pose proof (status_emergency d' S' R') as M'. apply (status_message_partial v a c d' B' L' ltac:(apply k_status; exact T')) in M'; [|lia|lia].
  do 2 eexists. split; [exact M|]. split; [exact M'|]. split.
  - intro Q. injection Q as _ _ _ Q. exact (N Q).
  - cbn [AdsbReader.Message_ToString]. unfold adsb_aircraft_status.AircraftStatus_ToString. cbn [adsb_aircraft_status.AircraftStatus_AircraftStatus bds61.IAircraftStatus_ToString].
    unfold bds61.AircraftStatusEmergency_ToString.
    cbn [bds61.AircraftStatusEmergency_Subtype bds61.AircraftStatusEmergency_EmergencyPriorityStatus].
    rewrite S, S', E. reflexivity.
Qed.

(* a general emergency squawking 7700, and one squawking 7500 (the codes as they are sent, interleaved) *)
Theorem emergency_code_example :
  (bytes [0xE1; 0x2A; 0xAA; 0; 0; 0; 0] /\ bytes [0xE1; 0x2A; 0xA2; 0; 0; 0; 0]) /\
  bits 1 5 [0xE1; 0x2A; 0xAA; 0; 0; 0; 0] = 28 /\ bits 6 8 [0xE1; 0x2A; 0xAA; 0; 0; 0; 0] = 1 /\
  bits 25 56 [0xE1; 0x2A; 0xAA; 0; 0; 0; 0] = 0 /\ bits 9 11 [0xE1; 0x2A; 0xAA; 0; 0; 0; 0] = 1 /\
  bits 1 5 [0xE1; 0x2A; 0xA2; 0; 0; 0; 0] = 28 /\ bits 6 8 [0xE1; 0x2A; 0xA2; 0; 0; 0; 0] = 1 /\
  bits 25 56 [0xE1; 0x2A; 0xA2; 0; 0; 0; 0] = 0 /\ bits 9 11 [0xE1; 0x2A; 0xA2; 0; 0; 0; 0] = 1 /\
  bits 12 24 [0xE1; 0x2A; 0xAA; 0; 0; 0; 0] = 0xAAA /\ bits 12 24 [0xE1; 0x2A; 0xA2; 0; 0; 0; 0] = 0xAA2.
Proof. split; [split; repeat constructor; unfold byte; lia|]. repeat split. Qed.
