(* Damage to a transmission: what is heard is not what was sent. *)
From Verif Require Import GoBase Bits.
From Verif.Spec Require Import Crc.
Local Open Scope Z_scope.

(* the number of bits heard wrong *)
Definition errors (sent heard : list Z) : Z := distance (Z.to_nat (8 * len sent)) sent heard.

(* a damage which the cyclic code is made to see (Annex 10 vol. IV 3.1.2.3.3): as many bits, of which at most five are
   wrong, or an odd number of them, or those of a burst of 24 bits *)
Definition damaged (sent heard : list Z) : Prop :=
  bytes heard /\ len heard = len sent /\ heard <> sent /\
  (errors sent heard <= 5 \/ Z.Odd (errors sent heard) \/ burst 24 sent heard).

(* the format of an extended squitter, in the first five bits *)
Definition extended (frame : list Z) : Prop := bits 1 5 frame = 17 \/ bits 1 5 frame = 18.

(* lists of codes which let only this code through *)
Definition only (code : Z) (allowed : list (Z * bool)) : Prop := allowed <> [] /\ forall c v, In (c, v) allowed -> c = code.
