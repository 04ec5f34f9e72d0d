(* Gillham: C08, C09, and the altitude codes. *)
From Verif.Proofs Require Import Tac.
From Verif.Spec Require Import Altitude.
From Verif.Gen Require bitutils.
Local Open Scope Z_scope.

Definition bools : list bool := [false; true].

Lemma in_bools : forall b, In b bools.
Proof. destruct b; cbn; auto. Qed.

Lemma forall_bool : forall (P : bool -> bool), List.forallb P bools = true -> forall b, P b = true.
Proof. intros P H b. rewrite List.forallb_forall in H. apply H, in_bools. Qed.

(* A decoder in closed form: same result as the code, read from an inverted table *)
Definition ok_is (r : res Z) (z : Z) : bool := match r with Ok a => a =? z | _ => false end.
Definition is_err {A : Type} (r : res A) : bool := match r with Err _ => true | _ => false end.

(* the k such that the code is that of step k, if any *)
Fixpoint ungray_aux (n : nat) (g : Z) : Z :=
  match n with O => 0 | S n' => Z.lxor g (ungray_aux n' (g / 2)) end.
Definition ungray (g : Z) : Z := ungray_aux 9 g.

Definition steps : list Z := [-1; 0; 2; 1; 4; -1; 3; -1].
Definition step_of (g c : Z) : option Z :=
  let n := ungray g in
  let s := List.nth (Z.to_nat c) steps (-1) in
  if s =? -1 then None else Some (5 * n + (if Z.even n then s else 4 - s)).

Definition pair_eqb (x y : Z * Z) : bool := (fst x =? fst y) && (snd x =? snd y).

(* the check performed on every one of the 4096 settings *)
Definition gillham_check (d1 d2 d4 a1 a2 a4 b1 b2 b4 c1 c2 c4 : bool) : bool :=
  let g := number [d1; d2; d4; a1; a2; a4; b1; b2; b4] in
  let c := number [c1; c2; c4] in
  let r := bitutils.GillhamToAltitude d1 d2 d4 a1 a2 a4 b1 b2 b4 c1 c2 c4 in
  match step_of g c with
  | Some k => (0 <=? k) && (k <? 2560) && ok_is r (100 * k - 1200) && pair_eqb (g, c) (gillham_pulses k)
  | None => is_err r && ((c =? 0) || (c =? 5) || (c =? 7))
  end.

Lemma gillham_check_all : forall d1 d2 d4 a1 a2 a4 b1 b2 b4 c1 c2 c4,
  gillham_check d1 d2 d4 a1 a2 a4 b1 b2 b4 c1 c2 c4 = true.
Proof.
  intros. revert c4. apply forall_bool. revert c2. apply (forall_bool (fun c2 => List.forallb _ _)).
  revert c1. apply (forall_bool (fun c1 => List.forallb _ _)).
  revert b4. apply (forall_bool (fun x => List.forallb _ _)).
  revert b2. apply (forall_bool (fun x => List.forallb _ _)).
  revert b1. apply (forall_bool (fun x => List.forallb _ _)).
  revert a4. apply (forall_bool (fun x => List.forallb _ _)).
  revert a2. apply (forall_bool (fun x => List.forallb _ _)).
  revert a1. apply (forall_bool (fun x => List.forallb _ _)).
  revert d4. apply (forall_bool (fun x => List.forallb _ _)).
  revert d2. apply (forall_bool (fun x => List.forallb _ _)).
  revert d1. apply (forall_bool (fun x => List.forallb _ _)).
  vm_compute. reflexivity.
Qed.

(* the code of step k is decoded by step_of, so codes of distinct steps are distinct *)
Lemma step_of_pulses : forall k, 0 <= k < 2560 ->
  step_of (fst (gillham_pulses k)) (snd (gillham_pulses k)) = Some k.
Proof.
  intros k Hk.
  assert (H : (match step_of (fst (gillham_pulses k)) (snd (gillham_pulses k)) with
               | Some k' => k' =? k | None => false end) = true).
  { revert k Hk. apply (forall_range (fun k => match step_of (fst (gillham_pulses k)) (snd (gillham_pulses k)) with
               | Some k' => k' =? k | None => false end) 0 2560). vm_compute. reflexivity. }
  destruct (step_of _ _) as [k'|]; [|discriminate]. f_equal. lia.
Qed.

Lemma pair_eqb_eq : forall x y, pair_eqb x y = true -> x = y.
Proof. intros [a b] [c d] H. unfold pair_eqb in H. cbn in H. f_equal; lia. Qed.

Lemma gillham_decodes : forall d1 d2 d4 a1 a2 a4 b1 b2 b4 c1 c2 c4 feet,
  Gillham d1 d2 d4 a1 a2 a4 b1 b2 b4 c1 c2 c4 feet <->
  bitutils.GillhamToAltitude d1 d2 d4 a1 a2 a4 b1 b2 b4 c1 c2 c4 = Ok feet.
Proof.
  intros. pose proof (gillham_check_all d1 d2 d4 a1 a2 a4 b1 b2 b4 c1 c2 c4) as C.
  unfold gillham_check in C.
  set (g := number [d1; d2; d4; a1; a2; a4; b1; b2; b4]) in *.
  set (c := number [c1; c2; c4]) in *.
  set (r := bitutils.GillhamToAltitude d1 d2 d4 a1 a2 a4 b1 b2 b4 c1 c2 c4) in *.
  unfold Gillham. fold g c. split.
  - intros (k & Hk & -> & E). pose proof (step_of_pulses k Hk) as S. rewrite <- E in S. cbn [fst snd] in S.
    rewrite S in C. apply andb_true_iff in C as [C _]. apply andb_true_iff in C as [_ C].
    unfold ok_is in C. destruct r; try discriminate. f_equal. lia.
  - intros E. rewrite E in C. destruct (step_of g c) as [k|]; [|discriminate C].
    apply andb_true_iff in C as [C P]. apply andb_true_iff in C as [C O].
    exists k. cbn [ok_is] in O. split; [lia|]. split; [lia|]. apply pair_eqb_eq. exact P.
Qed.

Lemma gillham_rejects : forall d1 d2 d4 a1 a2 a4 b1 b2 b4 c1 c2 c4,
  (forall feet, ~ Gillham d1 d2 d4 a1 a2 a4 b1 b2 b4 c1 c2 c4 feet) <->
  exists e, bitutils.GillhamToAltitude d1 d2 d4 a1 a2 a4 b1 b2 b4 c1 c2 c4 = Err e.
Proof.
  intros. pose proof (gillham_check_all d1 d2 d4 a1 a2 a4 b1 b2 b4 c1 c2 c4) as C.
  unfold gillham_check in C. split.
  - intros N. destruct (bitutils.GillhamToAltitude d1 d2 d4 a1 a2 a4 b1 b2 b4 c1 c2 c4) as [a|e|] eqn:E.
    + exfalso. apply (N a). apply gillham_decodes. exact E.
    + exists e. reflexivity.
    + exfalso. cbn [ok_is is_err] in C. destruct (step_of _ _); [|discriminate].
      rewrite andb_false_r in C. discriminate.
  - intros [e E] feet G. apply gillham_decodes in G. congruence.
Qed.

Lemma gillham_no_panic : forall d1 d2 d4 a1 a2 a4 b1 b2 b4 c1 c2 c4,
  bitutils.GillhamToAltitude d1 d2 d4 a1 a2 a4 b1 b2 b4 c1 c2 c4 <> Panic.
Proof.
  intros * E. pose proof (gillham_check_all d1 d2 d4 a1 a2 a4 b1 b2 b4 c1 c2 c4) as C.
  unfold gillham_check in C. rewrite E in C. cbn [ok_is is_err] in C. destruct (step_of _ _); [|discriminate].
  rewrite andb_false_r in C. discriminate.
Qed.

(* C100: exactly the C codes 000, 101, 111 are illegal *)
Lemma gillham_illegal : forall d1 d2 d4 a1 a2 a4 b1 b2 b4 c1 c2 c4,
  (exists feet, Gillham d1 d2 d4 a1 a2 a4 b1 b2 b4 c1 c2 c4 feet) <->
  ~ ((c1 = c4 /\ c2 = c4 /\ c4 = false) \/ (c1 = true /\ c4 = true)).
Proof.
  intros. pose proof (gillham_check_all d1 d2 d4 a1 a2 a4 b1 b2 b4 c1 c2 c4) as C.
  split.
  - intros (feet & G) B. pose proof G as G'. apply gillham_decodes in G. unfold gillham_check in C. rewrite G in C.
    destruct (step_of _ _) as [k|] eqn:E; [|discriminate].
    unfold step_of in E. 
    destruct B as [(-> & -> & ->)|(-> & ->)]; [|destruct c2]; cbn in E; discriminate.
  - intros N. unfold gillham_check in C. 
    destruct (step_of _ _) as [k|] eqn:E.
    + apply andb_true_iff in C as [C P]. apply andb_true_iff in C as [C O].
      exists (100 * k - 1200). apply gillham_decodes.
      destruct (bitutils.GillhamToAltitude _ _ _ _ _ _ _ _ _ _ _ _); cbn [ok_is] in O; try discriminate.
      apply Z.eqb_eq in O. subst. reflexivity.
    + exfalso. apply N. apply andb_true_iff in C as [_ C].
      destruct c1, c2, c4; cbn in C; try discriminate; auto.
Qed.

(* ---- unit distance ---- *)

(* the n binary digits of z, most significant first *)
Fixpoint digits (n : nat) (z : Z) : list bool :=
  match n with O => [] | S n' => (digits n' (z / 2) ++ [Z.odd z])%list end.

Lemma number_app : forall l b, number (l ++ [b]) = 2 * number l + (if b then 1 else 0).
Proof. intros. unfold number. rewrite List.fold_left_app. reflexivity. Qed.

Lemma digits_number : forall l, digits (List.length l) (number l) = l.
Proof.
  induction l as [|b l IH] using rev_ind; [reflexivity|].
  rewrite List.app_length, number_app. cbn [List.length]. rewrite Nat.add_1_r. cbn [digits].
  replace ((2 * number l + (if b then 1 else 0)) / 2) with (number l).
  2:{ symmetry. rewrite Z.mul_comm, Z.div_add_l by lia. destruct b; cbn; lia. }
  rewrite IH. f_equal. f_equal. rewrite Z.odd_add, Z.odd_mul. destruct b; reflexivity.
Qed.

Definition gillham_list (k : Z) : list bool :=
  (digits 9 (fst (gillham_pulses k)) ++ digits 3 (snd (gillham_pulses k)))%list.

Lemma gillham_list_unit : forall k, 0 <= k < 2559 -> hamming (gillham_list k) (gillham_list (k + 1)) = 1.
Proof.
  intros k Hk. apply Z.eqb_eq. revert k Hk.
  apply (forall_range (fun k => hamming (gillham_list k) (gillham_list (k + 1)) =? 1) 0 2559). vm_compute. reflexivity.
Qed.

Lemma gillham_is_list : forall d1 d2 d4 a1 a2 a4 b1 b2 b4 c1 c2 c4 feet,
  Gillham d1 d2 d4 a1 a2 a4 b1 b2 b4 c1 c2 c4 feet ->
  exists k, 0 <= k < 2560 /\ feet = 100 * k - 1200 /\
    [d1; d2; d4; a1; a2; a4; b1; b2; b4; c1; c2; c4] = gillham_list k.
Proof.
  intros. destruct H as (k & Hk & -> & E). exists k. split; [lia|]. split; [reflexivity|].
  unfold gillham_list. rewrite <- E. cbn [fst snd].
  change 9%nat with (List.length [d1; d2; d4; a1; a2; a4; b1; b2; b4]).
  change 3%nat with (List.length [c1; c2; c4]).
  rewrite !digits_number. reflexivity.
Qed.

Lemma gillham_unit : forall d1 d2 d4 a1 a2 a4 b1 b2 b4 c1 c2 c4 d1' d2' d4' a1' a2' a4' b1' b2' b4' c1' c2' c4' feet,
  bitutils.GillhamToAltitude d1 d2 d4 a1 a2 a4 b1 b2 b4 c1 c2 c4 = Ok feet ->
  bitutils.GillhamToAltitude d1' d2' d4' a1' a2' a4' b1' b2' b4' c1' c2' c4' = Ok (feet + 100) ->
  hamming [d1; d2; d4; a1; a2; a4; b1; b2; b4; c1; c2; c4]
          [d1'; d2'; d4'; a1'; a2'; a4'; b1'; b2'; b4'; c1'; c2'; c4'] = 1.
Proof.
  intros * H H'. apply gillham_decodes, gillham_is_list in H as (k & Hk & E & ->).
  apply gillham_decodes, gillham_is_list in H' as (k' & Hk' & E' & ->).
  replace k' with (k + 1) by lia. apply gillham_list_unit. lia.
Qed.
