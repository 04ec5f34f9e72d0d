(* Property theorems: Meanings. Generated by tools/mkprops.py; proofs are in theories/Proofs. *)
From Verif Require Import GoBase Bits.
From Verif.Spec Require Import Text Labels Meanings.
Require Import String List.
From Verif.Proofs Require Meanings.
Local Open Scope Z_scope.

Theorem C104_meaning_named_partial : forall name label words, In (name, label, words) named ->
  (forall code text, In (code, text) words -> label code = (numeral code ++ " - " ++ text)%string) /\
  (forall code, ~ (exists text, In (code, text) words) -> ~ (exists shown meant, In (name, code, shown, meant) misnamed) ->
     label code = unknown code).
Proof. exact Meanings.meaning_named. Qed.
Print Assumptions C104_meaning_named_partial.

Theorem C104_meaning_worded_partial : forall name label words, In (name, label, words) worded ->
  (forall code text, In (code, text) words -> label code = text) /\
  (forall code, ~ (exists text, In (code, text) words) -> label code = unknown code).
Proof. exact Meanings.meaning_worded. Qed.
Print Assumptions C104_meaning_worded_partial.

Theorem C104_meaning_otherwise_partial : forall name label words fallback, In (name, label, words, fallback) otherwise ->
  (forall code text, In (code, text) words -> label code = text) /\
  (forall code, ~ (exists text, In (code, text) words) -> label code = fallback code).
Proof. exact Meanings.meaning_otherwise. Qed.
Print Assumptions C104_meaning_otherwise_partial.

Theorem C104_meanings_complete_partial : forall name label, In (name, label) (numbered_fields ++ misnumbered_fields ++ worded_fields) ->
  name = "acas_ra_fields.ThreatIdentityBearing"%string \/
  (exists words, In (name, label, words) (named ++ worded)) \/
  (exists words fallback, In (name, label, words, fallback) otherwise).
Proof. exact Meanings.meanings_complete. Qed.
Print Assumptions C104_meanings_complete_partial.

Theorem C104_misnamed_refuted : forall name code shown meant, In (name, code, shown, meant) misnamed ->
  exists label words, In (name, label, words) named /\ label code = shown /\ shown <> meant.
Proof. exact Meanings.misnamed_refuted. Qed.
Print Assumptions C104_misnamed_refuted.
