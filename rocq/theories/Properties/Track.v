(* Property theorems: Track. Generated by tools/mkprops.py; proofs are in theories/Proofs. *)
From Verif Require Import GoBase Bits.
From Verif.Spec Require Import Velocity.
From Verif.Gen Require bds09 adsb_airborne_velocity.
From Verif.Model Require Import AdsbReader.
From Coq Require Import Reals Floats.SpecFloat.
From Flocq Require Import Core.
From Verif.Spec Require Import Binary64 MathLib Track.
From Verif.Proofs Require Track.
Local Open Scope Z_scope.

Theorem C77_ground_track : forall f v a c data m,
  accurate_atan2 f -> bytes data -> len data = 7%Z ->
  ReadADSBMessage v a c data = Ok (AVelocity m) ->
  match adsb_airborne_velocity.AirborneVelocity_AirborneVelocity m with
  | bds09.IAirborneVelocity_AirborneVelocityGroundSpeedNormal x =>
      bits 6 8 data = 1%Z /\ TrackOf 1 data (bds09.AirborneVelocityGroundSpeedNormal_GetTrack f x)
  | bds09.IAirborneVelocity_AirborneVelocityGroundSpeedSupersonic x =>
      bits 6 8 data = 2%Z /\ TrackOf 4 data (bds09.AirborneVelocityGroundSpeedSupersonic_GetTrack f x)
  | _ => bits 6 8 data = 3%Z \/ bits 6 8 data = 4%Z
  end.
Proof. exact Track.ground_track. Qed.
Print Assumptions C77_ground_track.

Theorem C77_accurate_atan2_exists : exists f, accurate_atan2 f.
Proof. exact Track.accurate_atan2_exists. Qed.
Print Assumptions C77_accurate_atan2_exists.

Example C77_ground_track_example : forall f, accurate_atan2 f -> exists m x t r,
  ReadADSBMessage 0%Z false false [0x99;0x44;0x09;0x94;0x08;0x38;0x17]%Z = Ok (AVelocity m) /\
  adsb_airborne_velocity.AirborneVelocity_AirborneVelocity m = bds09.IAirborneVelocity_AirborneVelocityGroundSpeedNormal x /\
  bds09.AirborneVelocityGroundSpeedNormal_GetTrack f x = Ok t /\ fl32 t r /\ (182.86 <= r <= 182.9)%R.
Proof. exact Track.ground_track_example. Qed.
Print Assumptions C77_ground_track_example.
