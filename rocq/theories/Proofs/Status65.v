(* Operational status (C32, C33). *)
From Verif.Proofs Require Import Tac.
From Verif.Spec Require Import Status.
From Verif.Gen Require bds65 bds65_fields.
Local Open Scope Z_scope.

Lemma read_bds65 : forall data, bytes data -> len data = 7 -> bits 1 5 data = 31 ->
  forall m, OperationalOf data m <-> bds65.ReadAircraftOperationalStatus data = Ok m.
Proof.
  intros data Hb Hl Ht m. unfold bds65.ReadAircraftOperationalStatus.
  split_list data Hl. gorun. normbits Hb.
  unfold bds65_fields.SubtypeAirborne, bds65_fields.SubtypeSurface, bds65_fields.ADSBVersion1, bds65_fields.ADSBVersion2.
  match type of Hb with bytes ?l =>
    assert (E41 : bits 41 56 l = bits 41 43 l * 8192 + bits 44 48 l * 256 + bits 49 56 l) by (bveq l Hb);
    bits_bound 41 43 l; bits_bound 44 48 l; bits_bound 49 56 l; bits_bound 9 10 l; bits_bound 13 14 l;
    match l with [_; _; _; _; _; ?d; ?e] =>
      assert (Ed : d = bits 41 43 l * 32 + bits 44 48 l) by (bveq l Hb);
      assert (Ee : e = bits 49 56 l) by (bveq l Hb);
      replace (d =? 0) with ((bits 41 43 l =? 0) && (bits 44 48 l =? 0)) by (clear - Ed B B0; lia);
      replace (e =? 0) with (bits 49 56 l =? 0) by (clear - Ee; lia)
    end;
    clear Ed Ee; remember l as f eqn:Ef; clear Ef Hb
  end.
  assert (U : u8 (bits 9 10 f * 4 + bits 13 14 f) = bits 9 10 f * 4 + bits 13 14 f)
    by (unfold u8; apply Z.mod_small; lia).
  rewrite U. clear U. reader_iff.
Qed.
