(* What a receiver holds of an aircraft must not depend on the order in which it hears the frames of different aircraft. *)
From Verif Require Import GoBase Bits.
From Verif.Spec Require Import Squitter Reply.
From Coq Require Import List.
Local Open Scope Z_scope.

(* a frame that this aircraft did not send: neither its squitter, nor its reply (formats 0, 4, 5, 16, 20, 21) *)
Definition by_other (icao : Z) (frame : list Z) : Prop :=
  bytes frame /\
  (forall capability payload, ~ Squitter capability icao payload frame) /\
  (forall fields, Reply fields icao frame -> ~ In (bits 1 5 frame) [0; 4; 5; 16; 20; 21]).

(* the frames of an aircraft within those heard, in their order: only frames it did not send are left out *)
Inductive heard (icao : Z) : list (list Z) -> list (list Z) -> Prop :=
| heard_nothing : heard icao [] []
| heard_own frames own frame : heard icao frames own -> heard icao (frames ++ [frame]) (own ++ [frame])
| heard_other frames own frame : heard icao frames own -> by_other icao frame -> heard icao (frames ++ [frame]) own.
