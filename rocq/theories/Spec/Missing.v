(* What an aircraft does not know: the fields of a velocity squitter (Doc 9871 Table A-2-9) one by one, each of them
   without information, with a value, or with "more than the largest value". *)
From Verif Require Import GoBase Bits.
From Verif.Spec Require Import Squitter.
Local Open Scope Z_scope.

(* what the aircraft knows of a quantity: nothing, a value in steps, or that it is above the largest value that can be
   sent, or below its opposite *)
Inductive measure : Type :=
| unknown
| value (steps : Z)
| beyond (negative : bool).

(* how it is sent: a sign and a code, of which 0 is for nothing and top for "more than" *)
Inductive coded (top : Z) : measure -> bool -> Z -> Prop :=
| coded_unknown negative : coded top unknown negative 0
| coded_value (negative : bool) steps : 0 <= steps <= top - 2 -> coded top (value (if negative then - steps else steps)) negative (steps + 1)
| coded_beyond negative : coded top (beyond negative) negative top.

(* what is told of it: 0 no information, 1 a value, 2 more than the largest *)
Definition told_status (m : measure) : Z := match m with unknown => 0 | value _ => 1 | beyond _ => 2 end.
(* and the value: 0 for nothing, and the given limit for "more than" *)
Definition told (step limit : Z) (m : measure) : Z :=
  match m with
  | unknown => 0
  | value z => step * z
  | beyond negative => if negative then - limit else limit
  end.

(* the speed made of two components: there is one when both are known *)
Definition speed_of (step : Z) (e n : measure) : res Z :=
  match e, n with
  | value e, value n => Ok (Z.sqrt ((step * e) ^ 2 + (step * n) ^ 2))
  | value _, _ => Err "velocity NS is not regular"%string
  | _, _ => Err "velocity EW is not regular"%string
  end.

(* an airspeed, with the magnetic heading when it is known *)
Definition airspeed_payload (subtype intent ifr nuc : Z) (known : bool) (heading : Z) (true_airspeed : bool) (airspeed source : Z)
  (down : bool) (rate : Z) (below : bool) (difference : Z) : list field :=
  [(5, 19); (3, subtype); (1, intent); (1, ifr); (3, nuc); (1, flag known); (10, heading); (1, flag true_airspeed);
   (10, airspeed); (1, source); (1, flag down); (9, rate); (2, 0); (1, flag below); (7, difference)].
