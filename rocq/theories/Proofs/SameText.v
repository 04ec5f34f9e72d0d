(* C117: two frames with the same text are read alike; two extended squitters with the same text are the same frame. *)
From Verif.Proofs Require Import Tac Octets ReportTools ReportsApi TextsExact Alike.
From Verif.Spec Require Import ModeS Altitude Text Report Reports Alike Squitter Reply Lossless.
From Verif.Model Require Import Crc ModesReader.
From Verif.Gen Require modes_common modes_messages modes_fields.
From Verif.Proofs Require Import ModeSReader CrcPoly.
From Verif.Proofs Require ReportsModeS Lossless.
From Coq Require Import String Ascii List.
Import ListNotations.
Local Open Scope Z_scope.

Lemma solid_squawk : forall frame, solid (identity13 frame).
Proof.
  intro frame. unfold identity13, squawk. generalize (bit 25 frame) (bit 23 frame) (bit 21 frame). intros [] [] []; split; vm_compute; discriminate.
Qed.
Lemma identity_5 : forall frame d, bytes frame -> ReadMessage frame = Ok (MDF5 d) ->
  modes_messages.MessageDF5_Identity d = {| modes_fields.Identity_Identity := identity13 frame |}.
Proof.
  intros frame d Hb H. destruct (message_kind frame _ Hb H) as [G K].
  destruct (proj1 (read_message_accepts frame Hb) (ex_intro _ _ H)) as [F _]. unfold short_format, long_format in F.
  rewrite df5_layout in H by (assumption || lia). injection H as <-. reflexivity.
Qed.
Lemma identity_21 : forall frame d, bytes frame -> ReadMessage frame = Ok (MDF21 d) ->
  modes_messages.MessageDF21_Identity d = {| modes_fields.Identity_Identity := identity13 frame |}.
Proof.
  intros frame d Hb H. destruct (message_kind frame _ Hb H) as [G K].
  destruct (proj1 (read_message_accepts frame Hb) (ex_intro _ _ H)) as [F _]. unfold short_format, long_format in F.
  rewrite df21_layout in H by (assumption || lia). injection H as <-. reflexivity.
Qed.

Ltac peel F := match type of F with
  | Forall2 _ (_ :: _) (_ :: _) =>
      let A := fresh "A" in let B := fresh "B" in let C := fresh "C" in let D := fresh "D" in let X := fresh "X" in let R := fresh "R" in let E1 := fresh "E1" in let E2 := fresh "E2" in
      inversion F as [|A B C D X R E1 E2]; subst A B C D; clear F; rename R into F
  end.
Ltac fitting := first [apply fits_coded|apply fits_number|apply fits_utility|apply fits_decimal|apply fits_octets|apply fits_address|apply fits_format|
  apply fits_identity; apply solid_squawk].
Ltac field_of X := apply common_value in X; [|fitting|fitting]; destruct X as (? & ? & X).

(* the first lines of two formats differ *)
Lemma head_format : forall a b r r', Forall2 (fun x y => exists l, line_for x l /\ line_for y l) (("Downlink format"%string, exactly a) :: r) (("Downlink format"%string, exactly b) :: r') ->
  (match a, b with String c _, String d _ => (negb (Ascii.eqb c " ") && negb (Ascii.eqb c ":") && negb (Ascii.eqb d " ") && negb (Ascii.eqb d ":"))%bool | _, _ => false end && negb (String.eqb a b))%bool = true -> False.
Proof.
  intros a b r r' F E. inversion F as [|? ? ? ? (l & L & L') _]; subst. apply andb_prop in E. destruct E as [E N].
  destruct a as [|c a]; [discriminate E|]. destruct b as [|d b]; [discriminate E|].
  apply andb_prop in E. destruct E as [E E4]. apply andb_prop in E. destruct E as [E E3]. apply andb_prop in E. destruct E as [E1 E2].
  apply Bool.negb_true_iff in E1, E2, E3, E4, N. apply Ascii.eqb_neq in E1, E2, E3, E4. apply String.eqb_neq in N. apply N.
  exact (same_value _ l (String c a) (String d b) (conj E1 E2) (conj E3 E4) L L').
Qed.

Theorem same_text : forall frame frame' m m', bytes frame -> bytes frame' ->
  ReadMessage frame = Ok m -> ReadMessage frame' = Ok m' ->
  ModeSMessage_ToString m = ModeSMessage_ToString m' -> alike m m'.
Proof.
  intros f f' m m' Hb Hb' H H' E raw.
  destruct (ReportsModeS.modes_report f m Hb H) as (t & T & S). destruct (ReportsModeS.modes_report f' m' Hb' H') as (t' & T' & S').
  rewrite T, T' in E. injection E as <-. pose proof (shows_both _ _ _ S S') as F. clear S S' T T' t.
  assert (I5 : forall d, m = MDF5 d -> modes_messages.MessageDF5_Identity d = {| modes_fields.Identity_Identity := identity13 f |}) by (intros d ->; exact (identity_5 f d Hb H)).
  assert (J5 : forall d, m' = MDF5 d -> modes_messages.MessageDF5_Identity d = {| modes_fields.Identity_Identity := identity13 f' |}) by (intros d ->; exact (identity_5 f' d Hb' H')).
  assert (I21 : forall d, m = MDF21 d -> modes_messages.MessageDF21_Identity d = {| modes_fields.Identity_Identity := identity13 f |}) by (intros d ->; exact (identity_21 f d Hb H)).
  assert (J21 : forall d, m' = MDF21 d -> modes_messages.MessageDF21_Identity d = {| modes_fields.Identity_Identity := identity13 f' |}) by (intros d ->; exact (identity_21 f' d Hb' H')).
  clear H H' Hb Hb'.
  destruct m as [m|m|m|m|m|m|m|m|m|m|m], m' as [m'|m'|m'|m'|m'|m'|m'|m'|m'|m'|m']; cbn [modes_rows] in F; unfold format_row in F;
    try (exfalso; exact (head_format _ _ _ _ F eq_refl));
    try specialize (I5 _ eq_refl); try specialize (J5 _ eq_refl); try specialize (I21 _ eq_refl); try specialize (J21 _ eq_refl);
    peel F; clear X; cbn [with_raw].
  all: destruct m, m'; cbn in *; try subst; cbn in *; repeat (peel F).
  all: repeat match goal with X : exists l, line_for _ l /\ line_for _ l |- _ => field_of X end.
  all: repeat match goal with
    | V : coded ?a ?v, W : coded ?b ?v |- _ => pose proof (coded_field a b v V W); clear V W
    | V : Report.number ?a ?v, W : Report.number ?b ?v |- _ => pose proof (number_field a b v V W); clear V W
    | V : utility_value ?a ?v, W : utility_value ?b ?v |- _ => pose proof (utility_field a b v V W); clear V W
    | V : identity_value (identity13 ?a) ?v, W : identity_value (identity13 ?b) ?v |- _ => pose proof (identity_field _ _ _ _ _ _ _ _ v V W : identity13 a = identity13 b); clear V W
    | V : hex_octets ?a ?v, W : hex_octets ?b ?v |- _ => pose proof (octets_field a b v V W); clear V W
    | V : decimal_octets ?a ?v, W : decimal_octets ?b ?v |- _ => pose proof (decimal_field a b v V W); clear V W
    | V : address_text (modes_fields.AddressAnnounced_Address ?a) ?v, W : address_text (modes_fields.AddressAnnounced_Address ?b) ?v |- _ =>
        destruct a as [a], b as [b]; cbn in V, W; pose proof (address_field a b v V W); clear V W
    end.
  all: congruence.
Qed.

(* an extended squitter whose parity is right is determined by its text *)
Theorem same_squitter : forall frame frame' m m' addresses interrogators addresses' interrogators' a a', bytes frame -> bytes frame' ->
  ReadMessage frame = Ok m -> ReadMessage frame' = Ok m' ->
  (exists d, m = MDF17 d) \/ (exists d, m = MDF18 d) ->
  CheckCRC m frame addresses interrogators = Ok a -> CheckCRC m' frame' addresses' interrogators' = Ok a' ->
  ModeSMessage_ToString m = ModeSMessage_ToString m' -> frame = frame'.
Proof.
  intros f f' m m' ad int ad' int' a a' Hb Hb' H H' D C C' T. pose proof (same_text f f' m m' Hb Hb' H H' T) as A.
  destruct (Lossless.accepted_sent _ _ _ _ _ Hb H C) as (fs & W & R). destruct (Lossless.accepted_sent _ _ _ _ _ Hb' H' C') as (fs' & W' & R').
  assert (K : fs = fs' /\ announced m <> None /\ announced m' <> None).
  { specialize (A (raw m)). destruct D as [(d & ->)|(d & ->)]; destruct m'; cbn [with_raw raw] in A; try discriminate A; injection A as A1 A2 A3;
      inversion W; subst; inversion W'; subst; cbn [announced];
      (split; [|split; discriminate]); rewrite A1, A2, A3; reflexivity. }
  destruct K as (<- & N & N'). destruct (announced m); [|congruence]. destruct (announced m'); [|congruence].
  destruct R as (_ & _ & _ & _ & p & P & ->), R' as (_ & _ & _ & _ & p' & P' & ->). rewrite (parity_unique _ _ _ P P'). reflexivity.
Qed.

(* the answers of two aircraft at the same altitude: two frames with the same text *)
Example same_text_example : exists m m',
  bytes [0x20; 0x00; 0x17; 0x18; 0x32; 0x93; 0x55] /\ bytes [0x20; 0x00; 0x17; 0x18; 0x00; 0x00; 0x00] /\
  ReadMessage [0x20; 0x00; 0x17; 0x18; 0x32; 0x93; 0x55] = Ok m /\ ReadMessage [0x20; 0x00; 0x17; 0x18; 0x00; 0x00; 0x00] = Ok m' /\
  m <> m' /\ ModeSMessage_ToString m = ModeSMessage_ToString m'.
Proof.
  do 2 eexists. split; [repeat constructor; unfold byte; lia|]. split; [repeat constructor; unfold byte; lia|].
  split; [vm_compute; reflexivity|]. split; [vm_compute; reflexivity|]. split; [intro E; injection E as E; discriminate|vm_compute; reflexivity].
Qed.
