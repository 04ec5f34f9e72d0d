(* GENERATED by tools/go2coq.py from /repo/pkg/bds/encoding -- do not edit by hand.
   One Gallina definition per Go declaration; each is preceded by the file and lines it models.
   Error values are represented by their text, see DESIGN.md.
*)
From Verif Require Import GoBase.
Local Open Scope Z_scope.

(* pkg/bds/encoding/identification.go:3-8 *)
Definition IdentificationCharacterCoding : list Z := [35; 65; 66; 67; 68; 69; 70; 71; 72; 73; 74; 75; 76; 77; 78; 79; 80; 81; 82; 83; 84; 85; 86; 87; 88; 89; 90; 35; 35; 35; 35; 35; 32; 35; 35; 35; 35; 35; 35; 35; 35; 35; 35; 35; 35; 35; 35; 35; 48; 49; 50; 51; 52; 53; 54; 55; 56; 57; 35; 35; 35; 35; 35; 35].
