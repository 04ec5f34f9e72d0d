(* A whole receiver: it keeps, for each aircraft, what it told of its version and its last position. *)
From Verif Require Import GoBase Bits.
From Verif.Spec Require Import AdsbMessages Squitter Statuses Session.
From Verif.Gen Require modes_messages.
From Verif.Model Require Import Crc ModesReader AdsbReader Geo.
From Coq Require Import Reals List.
From Verif.Spec Require Import Binary64 Cpr Geodesy Sent Flight.

(* what is known of an aircraft: its standard (Spec/Session.v) and its position (Spec/Flight.v) *)
Definition knowledge : Type := standard * (f64 * f64).

(* on each frame, with the standard known so far *)
Definition hear (m : mathlib) (icao : Z) (k : knowledge) (frame : list Z) : knowledge :=
  (learn icao (fst k) frame, receive m (s_version (fst k)) (s_nic_a (fst k)) (s_nic_c (fst k)) icao (snd k) frame).

(* the table of all the aircraft: a squitter whose parity is right changes what is known of its sender; nothing else
   changes anything *)
Definition hear_all (m : mathlib) (table : Z -> knowledge) (frame : list Z) : Z -> knowledge :=
  match ReadMessage frame with
  | Ok (MDF17 d) =>
      match CheckCRC (MDF17 d) frame [] [] with
      | Ok address => fun icao => if (icao =? address)%Z then hear m icao (table icao) frame else table icao
      | _ => table
      end
  | _ => table
  end.
