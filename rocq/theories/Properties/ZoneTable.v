(* Property theorems: ZoneTable. Generated by tools/mkprops.py; proofs are in theories/Proofs. *)
From Verif Require Import GoBase.
From Verif.Model Require Import Geo GeoReal.
From Coq Require Import Reals Floats.SpecFloat List.
From Flocq Require Import Core.
From Verif.Spec Require Import Binary64 Geodesy MathLib ZoneTable.
From Verif.Proofs Require ZoneTable.
Local Open Scope R_scope.

Theorem C103_zones_tabulated : forall lat n, Rabs lat <= 90 -> away (1 / 100000000) lat -> (zones_at lat n <-> tabulated lat n).
Proof. exact ZoneTable.zones_tabulated. Qed.
Print Assumptions C103_zones_tabulated.

Theorem C103_tabulated_one : forall lat n n', tabulated lat n -> tabulated lat n' -> n = n'.
Proof. exact ZoneTable.tabulated_one. Qed.
Print Assumptions C103_tabulated_one.

Theorem C103_table_exact : forall lat n, Rabs lat <= 90 -> away (1 / 100000000) lat -> tabulated lat n ->
  getNumberOfLongitude reals lat = IZR n.
Proof. exact ZoneTable.table_exact. Qed.
Print Assumptions C103_table_exact.

Theorem C103_table_binary64 : forall m lat n x, accurate m -> 1 / 1000 <= Rabs lat <= 90 -> away (1 / 9000) lat ->
  tabulated lat n -> fl x lat -> fl (getNumberOfLongitude (floats m) x) (IZR n).
Proof. exact ZoneTable.table_binary64. Qed.
Print Assumptions C103_table_binary64.

Theorem C103_clear_by_table : forall lat n, 1 / 1000 <= Rabs lat <= 90 -> away (1 / 9000) lat -> tabulated lat n ->
  clear_of_transitions lat n.
Proof. exact ZoneTable.clear_by_table. Qed.
Print Assumptions C103_clear_by_table.

Example C103_amsterdam : tabulated 52.2572 36 /\ away (1 / 9000) 52.2572.
Proof. exact ZoneTable.amsterdam. Qed.
Print Assumptions C103_amsterdam.
