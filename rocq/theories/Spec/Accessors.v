(* Specification of the accessors: values derived from a decoded field. *)
From Verif Require Import GoBase Bits.
From Verif.Spec Require Import Floats.
Local Open Scope Z_scope.

(* A bound in metres; -1 stands for the absence of a bound. The decimal fractions of the
   standard have no binary64 representation: they are given to 1e-12 m. *)
Definition bound_is (x : spec_float) (b : option Q) : Prop :=
  match b with
  | None => is_value x (-1)
  | Some q => is_close x q (1 # 1000000000000)
  end.

(* Surface positions of version 0 (Doc 9871 table A-2-6): what the type code says about the
   horizontal protection limit and about the 95% containment radius: lower bound (inclusive)
   and higher bound (exclusive). 0.1 NM = 185.2 m and 0.05 NM = 92.6 m. *)
Definition hpl_bounds (tc : Z) : option Q * option Q :=
  if tc =? 5 then (None, Some (15 # 2)%Q)
  else if tc =? 6 then (None, Some 25%Q)
  else if tc =? 7 then (None, Some ((1 # 10) * 1852)%Q)
  else (Some ((1 # 10) * 1852)%Q, None).

Definition radius_bounds (tc : Z) : option Q * option Q :=
  if tc =? 5 then (None, Some 3%Q)
  else if tc =? 6 then (Some 3%Q, Some 10%Q)
  else if tc =? 7 then (Some 10%Q, Some ((1 # 20) * 1852)%Q)
  else (Some ((1 # 20) * 1852)%Q, None).

(* Range of the threat, in NM (Annex 10 vol. IV 4.3.8.4.2.2.1.6.3): 0 no estimate, 1 less
   than 0.05, n from 2 to 126 (n - 1)/10 +/- 0.05, 127 more than 12.55. *)
Definition threat_range (n : Z) (r : Q) : Prop :=
  (2 <= n <= 126 -> r == (n - 1) # 10) /\
  (0 <= n <= 1 -> r == 0) /\
  (n = 127 -> r == 126 # 10).

(* Bearing of the threat: n from 1 to 60, between 6(n-1) and 6n degrees *)
Definition in_sector (n b : Z) : Prop := 6 * (n - 1) <= b <= 6 * n.

(* the three forms of an active resolution advisory *)
Inductive advisory_form := OneThreat | SeveralThreats | NoVerticalAdvisory.
Definition advisory_of (data : list Z) : advisory_form :=
  if bit 1 data then OneThreat else if bit 20 data then SeveralThreats else NoVerticalAdvisory.

(* the aircraft category sets: type code 4 is set A, ... type code 1 is set D (reserved) *)
Definition category_set_name (tc : Z) : string :=
  if tc =? 4 then "Set A"%string else if tc =? 3 then "Set B"%string
  else if tc =? 2 then "Set C"%string else "Set D (Reserved)"%string.
