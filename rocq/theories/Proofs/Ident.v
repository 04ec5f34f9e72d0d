(* Identification registers: BDS 0,8 and BDS 2,0 (C27, C42). *)
From Verif.Proofs Require Import Tac.
From Verif.Spec Require Import Identification AdsbMessages.
From Verif.Gen Require bds08 bds08_fields bds20 bds_encoding.
Local Open Scope Z_scope.

Definition coding_ok (c : Z) : bool :=
  match idx bds_encoding.IdentificationCharacterCoding c with
  | Ok b => Ascii.eqb (Ascii.ascii_of_nat (Z.to_nat b)) (shown c)
  | _ => false
  end.

Lemma coding_all : forall c, 0 <= c < 0 + 64 -> coding_ok c = true.
Proof. apply forall_range. vm_compute. reflexivity. Qed.

Lemma coding_char : forall c, 0 <= c < 64 -> exists b,
  idx bds_encoding.IdentificationCharacterCoding c = Ok b /\ Ascii.ascii_of_nat (Z.to_nat b) = shown c.
Proof.
  intros c Hc. pose proof (coding_all c ltac:(lia)) as H. unfold coding_ok in H.
  destruct (idx _ c) as [b| |]; try discriminate. exists b. split; [reflexivity|]. apply Ascii.eqb_eq. exact H.
Qed.

Ltac chars Hb :=
  repeat match goal with
  | |- context [idx bds_encoding.IdentificationCharacterCoding (bits ?i ?j ?l)] =>
      let b := fresh "b" in let H := fresh in let E := fresh "E" in
      destruct (coding_char (bits i j l)) as (b & H & E);
      [ bits_bound i j l; lia | rewrite H; clear H; cbn [bind] ]
  end.

Lemma read_bds20 : forall data, bytes data -> len data = 7 -> bits 1 8 data = 32 ->
  bds20.ReadAircraftIdentification data =
  Ok {| bds20.AircraftIdentification_Identification := text (List.map shown (char_codes data)) |}.
Proof.
  intros data Hb Hl Ht. unfold bds20.ReadAircraftIdentification. split_list data Hl.
  reg_run Hb.
  match type of Hb with bytes (?d :: ?l) => assert (D : d = bits 1 8 (d :: l)) by (bveq (d :: l) Hb) end.
  rewrite D at 1. rewrite Ht. cbn [negb Z.eqb Pos.eqb].
  chars Hb. unfold string_of_bytes, char_codes. cbn [List.fold_right List.map text].
  cbn [Z.mul Z.add Pos.mul Pos.add Pos.succ].
  rewrite E, E0, E1, E2, E3, E4, E5, E6. reflexivity.
Qed.

Lemma read_bds20_other : forall data, bytes data -> len data = 7 -> bits 1 8 data <> 32 ->
  exists e, bds20.ReadAircraftIdentification data = Err e.
Proof.
  intros data Hb Hl Ht. unfold bds20.ReadAircraftIdentification. split_list data Hl. gostep.
  match type of Hb with bytes (?d :: ?l) => assert (D : d = bits 1 8 (d :: l)) by (bveq (d :: l) Hb) end.
  rewrite <- D in Ht. decide_if. eauto.
Qed.


Lemma read_bds08 : forall data, bytes data -> len data = 7 -> 1 <= bits 1 5 data <= 4 ->
  bds08.ReadAircraftIdentificationAndCategory data =
  Ok {| bds08.AircraftIdentificationAndCategory_FormatTypeCode := bits 1 5 data;
        bds08.AircraftIdentificationAndCategory_Category := category data;
        bds08.AircraftIdentificationAndCategory_Identification := text (List.map shown (char_codes data)) |}.
Proof.
  intros data Hb Hl Ht. unfold bds08.ReadAircraftIdentificationAndCategory, category. split_list data Hl.
  reg_run Hb. decide_if.
  chars Hb. unfold string_of_bytes, char_codes. cbn [List.fold_right List.map text].
  cbn [Z.mul Z.add Pos.mul Pos.add Pos.succ].
  rewrite E, E0, E1, E2, E3, E4, E5, E6. reflexivity.
Qed.

Lemma shown_sharp : forall c, 0 <= c < 0 + 64 -> Ascii.eqb (shown c) "#" = match ia5 c with None => true | _ => false end.
Proof.
  intros c Hc. apply Bool.eqb_prop. revert c Hc.
  apply (forall_range (fun c => Bool.eqb (Ascii.eqb (shown c) "#") (match ia5 c with None => true | _ => false end))).
  vm_compute. reflexivity.
Qed.

Lemma char_codes_range : forall data, Forall (fun c => 0 <= c < 64) (char_codes data).
Proof.
  intros. unfold char_codes. apply Forall_forall. intros c Hc. apply List.in_map_iff in Hc as (k & <- & Hk).
  pose proof (bits_range (9 + 6 * k) (14 + 6 * k) data ltac:(lia)) as H.
  replace (14 + 6 * k - (9 + 6 * k) + 1) with 6 in H by lia. exact H.
Qed.

Lemma contains_sharp : forall l, Forall (fun c => 0 <= c < 64) l ->
  contains_any (text (List.map shown l)) "#" = true <-> ~ Forall (fun c => ia5 c <> None) l.
Proof.
  induction 1 as [|c l Hc Hl IH].
  - cbn. split; [discriminate|]. intros N. exfalso. apply N. constructor.
  - cbn [List.map text contains_any has_char]. pose proof (shown_sharp c ltac:(lia)) as S.
    destruct (Ascii.eqb (shown c) "#") eqn:E.
    + split; [|reflexivity]. intros _ N. inversion N; subst. destruct (ia5 c); congruence.
    + rewrite IH. split.
      * intros N F. inversion F; subst. auto.
      * intros N F. apply N. constructor; [|exact F]. destruct (ia5 c); congruence.
Qed.

Lemma coherent_text : forall data,
  contains_any (text (List.map shown (char_codes data))) "#" = false <-> legal_characters data.
Proof.
  intros. pose proof (contains_sharp (char_codes data) (char_codes_range data)) as H.
  unfold legal_characters.
  destruct (contains_any _ _).
  - split; [discriminate|]. intros L. exfalso. apply H; auto.
  - split; [|reflexivity]. intros _.
    destruct (List.Forall_dec (fun c => ia5 c <> None) ltac:(intros x; cbv beta; destruct (ia5 x); [left|right]; [intros N|intros N; apply N]; [discriminate N|reflexivity]) (char_codes data)); [assumption|].
    apply H in n. discriminate.
Qed.

Lemma shown_carries : forall l c, List.map ia5 c = List.map Some l -> List.map shown c = l.
Proof.
  induction l; intros [|x c] H; try discriminate; [reflexivity|].
  cbn in H. injection H as Hx Hc. cbn. unfold shown at 1. rewrite Hx. f_equal. apply IHl. exact Hc.
Qed.
