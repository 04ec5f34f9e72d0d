(* The number of longitude zones as the table of Doc 9871 C.2.6.2 (DO-260B A.1.7.2.d) gives it: for
   each n, the latitude below which there are at least n zones, in hundred-millionths of a degree. *)
From Coq Require Import ZArith Reals List.
Import ListNotations.
Local Open Scope Z_scope.

Definition nl_table : list (Z * Z) :=
  [(59, 1047047130); (58, 1482817437); (57, 1818626357); (56, 2102939493); (55, 2354504487); (54,
   2582924707); (53, 2793898710); (52, 2991135686); (51, 3177209708); (50, 3353993436); (49,
   3522899598); (48, 3685025108); (47, 3841241892); (46, 3992256684); (45, 4138651832); (44,
   4280914012); (43, 4419454951); (42, 4554626723); (41, 4686733252); (40, 4816039128); (39,
   4942776439); (38, 5067150166); (37, 5189342469); (36, 5309516153); (35, 5427817472); (34,
   5544378444); (33, 5659318756); (32, 5772747354); (31, 5884763776); (30, 5995459277); (29,
   6104917774); (28, 6213216659); (27, 6320427479); (26, 6426616523); (25, 6531845310); (24,
   6636171008); (23, 6739646774); (22, 6842322022); (21, 6944242631); (20, 7045451075); (19,
   7145986473); (18, 7245884545); (17, 7345177442); (16, 7443893416); (15, 7542056257); (14,
   7639684391); (13, 7736789461); (12, 7833374083); (11, 7929428225); (10, 8024923213); (9,
   8119801349); (8, 8213956981); (7, 8307199445); (6, 8399173563); (5, 8489166191); (4, 8575541621);
   (3, 8653536998); (2, 8700000000)].

Local Open Scope R_scope.

Definition degrees (t : Z) : R := IZR t / 100000000.

(* n is the number of zones in the table at this latitude *)
Definition tabulated (lat : R) (n : Z) : Prop :=
  (1 <= n <= 59)%Z /\ forall k t, In (k, t) nl_table -> ((k <= n)%Z <-> Rabs lat < degrees t).

(* the latitude is at least d from each latitude of the table, north and south *)
Definition away (d lat : R) : Prop :=
  forall k t, In (k, t) nl_table -> d <= Rabs (Rabs lat - degrees t).
