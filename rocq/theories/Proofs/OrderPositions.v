(* C116: the positions, too, only depend on the order of the frames of the aircraft itself. *)
From Verif Require Import GoBase Bits.
From Verif.Spec Require Import AdsbMessages Squitter Statuses Session.
From Verif.Gen Require modes_messages.
From Verif.Model Require Import Crc ModesReader AdsbReader Geo.
From Coq Require Import Reals List.
From Verif.Spec Require Import Binary64 Cpr Geodesy Sent Flight Receiver.
From Verif.Spec Require Order.
From Verif.Proofs Require Lossless.
Local Open Scope Z_scope.

Lemma hear_same : forall m t t' frame icao, t icao = t' icao -> hear_all m t frame icao = hear_all m t' frame icao.
Proof.
  intros m t t' frame icao E. unfold hear_all. destruct (ReadMessage frame) as [x| |]; try exact E. destruct x; try exact E.
  destruct (CheckCRC _ frame [] []) as [b| |]; try exact E. destruct (icao =? b); [rewrite E; reflexivity|exact E].
Qed.

Lemma hear_other : forall m t frame icao, Order.by_other icao frame -> hear_all m t frame icao = t icao.
Proof.
  intros m t frame icao (Hb & S & _). unfold hear_all. destruct (ReadMessage frame) as [x| |] eqn:R; try reflexivity.
  destruct x; try reflexivity. destruct (CheckCRC _ frame [] []) as [b| |] eqn:C; try reflexivity.
  destruct (Z.eqb_spec icao b) as [<-|]; [exfalso|reflexivity].
  destruct (proj1 (Lossless.squitter_iff frame icao Hb)) as (ca & payload & X); [eauto|]. exact (S _ _ X).
Qed.

Lemma hear_own : forall m table frames own icao, Order.heard icao frames own ->
  fold_left (hear_all m) frames table icao = fold_left (hear_all m) own table icao.
Proof.
  intros m table frames own icao H.
  induction H as [|frames own frame H IH|frames own frame H IH O]; [reflexivity|..]; rewrite !fold_left_app; cbn [fold_left].
  - apply hear_same, IH.
  - rewrite hear_other by exact O. exact IH.
Qed.

Theorem positions_order : forall m table frames frames' own icao,
  Order.heard icao frames own -> Order.heard icao frames' own ->
  fold_left (hear_all m) frames table icao = fold_left (hear_all m) frames' table icao.
Proof. intros m table frames frames' own icao H H'. rewrite (hear_own m table _ _ _ H), (hear_own m table _ _ _ H'). reflexivity. Qed.
