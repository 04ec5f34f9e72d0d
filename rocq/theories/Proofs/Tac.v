(* Symbolic execution tactics for the readers. *)
From Verif Require Export GoBase Bits.
From Verif.Gen Require bitutils.
From Coq Require Export Lia.
Local Open Scope Z_scope.

Lemma len_S : forall (A : Type) (l : list A) n, len l = n -> 0 < n ->
  exists a l', l = a :: l' /\ len l' = n - 1.
Proof.
  intros A [|a l] n H Hn; [unfold len in H; cbn in H; lia|].
  exists a, l. split; [reflexivity|]. rewrite len_cons in H. lia.
Qed.

Lemma len_0 : forall (A : Type) (l : list A), len l = 0 -> l = [].
Proof. intros A [|a l] H; [reflexivity|]. rewrite len_cons in H. pose proof (len_nonneg A l). lia. Qed.

(* replace a list of known length by a list of variables *)
Ltac split_list l H :=
  lazymatch type of H with
  | len l = 0 => apply len_0 in H; subst l
  | len l = ?n =>
      let a := fresh "d" in let l' := fresh "l" in let H' := fresh "H" in
      destruct (len_S _ l n H ltac:(reflexivity)) as (a & l' & -> & H');
      clear H;
      let m := eval vm_compute in (n - 1) in
      change (len l' = m) in H'; split_list l' H'
  end.

Ltac is_blist l :=
  lazymatch l with
  | nil => idtac
  | ?x :: ?l' => is_var x; is_blist l'
  end.

Ltac ev_idx :=
  repeat match goal with
  | |- context [idx ?l ?i] => is_blist l; is_zcst i;
      let r := eval vm_compute in (idx l i) in
      change (idx l i) with r
  | |- context [slice ?l ?i ?j] => is_blist l;
      let i' := eval vm_compute in i in let j' := eval vm_compute in j in
      is_zcst i'; is_zcst j';
      let r := eval vm_compute in (slice l i j) in
      change (slice l i j) with r
  end.

Ltac ev_len :=
  repeat match goal with
  | |- context [len (?a :: ?l)] => is_blist (a :: l);
      let r := eval vm_compute in (len (a :: l)) in
      change (len (a :: l)) with r
  end.

Ltac ev_cmp :=
  repeat match goal with
  | |- context [Z.eqb ?a ?b] => is_zcst a; is_zcst b;
      let r := eval vm_compute in (Z.eqb a b) in change (Z.eqb a b) with r
  | |- context [Z.ltb ?a ?b] => is_zcst a; is_zcst b;
      let r := eval vm_compute in (Z.ltb a b) in change (Z.ltb a b) with r
  | |- context [Z.leb ?a ?b] => is_zcst a; is_zcst b;
      let r := eval vm_compute in (Z.leb a b) in change (Z.leb a b) with r
  | |- context [Z.gtb ?a ?b] => is_zcst a; is_zcst b;
      let r := eval vm_compute in (Z.gtb a b) in change (Z.gtb a b) with r
  | |- context [Z.geb ?a ?b] => is_zcst a; is_zcst b;
      let r := eval vm_compute in (Z.geb a b) in change (Z.geb a b) with r
  end.

(* unfold the functions of type res applied to the data *)
Ltac unf :=
  match goal with
  | |- context [?f (?a :: ?l)] =>
      is_const f;
      let t := type of (f (a :: l)) in
      lazymatch t with res _ => unfold f end
  | |- context [?f (?a :: ?l) ?x] =>
      is_const f;
      let t := type of (f (a :: l) x) in
      lazymatch t with res _ => unfold f end
  end.

Ltac gostep := ev_len; ev_idx; ev_cmp; cbn [bind rmap negb andb orb].
Ltac gorun := repeat (gostep; unf); gostep.

Ltac unpack := unfold bitutils.Pack2Bytes, bitutils.Pack3Bytes, bitutils.Pack4Bytes.

Ltac normbits Hb :=
  lazymatch type of Hb with bytes ?l => bitsnf l Hb end.

(* bound on a field: bits i j data < 2^(j-i+1), as a hypothesis *)
Ltac bits_bound i j data :=
  let H := fresh "B" in
  pose proof (bits_range i j data ltac:(lia)) as H;
  let e := eval vm_compute in (2 ^ (j - i + 1)) in
  change (2 ^ (j - i + 1)) with e in H.

Lemma i32_small : forall z, -2147483648 <= z < 2147483648 -> i32 z = z.
Proof. intros. unfold i32. rewrite Z.mod_small; lia. Qed.

Lemma bits_of_zero : forall i j data a b, 1 <= i -> i <= a -> a <= b -> b <= j -> j <= 8 * len data ->
  bits i j data = 0 -> bits a b data = 0.
Proof.
  intros * Hi Ha Hab Hb Hj H. apply Z.bits_inj'. intros p Hp. rewrite Z.bits_0.
  rewrite bits_testbit by lia. destruct (Z.ltb_spec p (b - a + 1)); [|reflexivity].
  assert (T : Z.testbit (bits i j data) (j - b + p) = false) by (rewrite H; apply Z.bits_0).
  rewrite bits_testbit in T by lia. destruct (Z.ltb_spec (j - b + p) (j - i + 1)); [|lia].
  rewrite <- T. f_equal. lia.
Qed.

(* ---- floats: exact values, checked over a whole field by computation ---- *)
From Verif.Spec Require Export Floats.
Local Open Scope Z_scope.

Definition is_valueb (x : spec_float) (q : Q) : bool :=
  match x with
  | S754_zero _ => Qeq_bool q 0
  | S754_finite s m e => Qeq_bool q (dyadic (if s then Zneg m else Zpos m) e)
  | _ => false
  end.

Lemma is_valueb_ok : forall x q, is_valueb x q = true -> is_value x q.
Proof. intros [?|?| |? ? ?] q H; cbn in *; try discriminate; apply Qeq_bool_eq; exact H. Qed.

Lemma value_range : forall (f : Z -> spec_float) (q : Z -> Q) from n,
  List.forallb (fun z => is_valueb (f z) (q z)) (zseq from (Z.to_nat n)) = true ->
  forall z, from <= z < from + n -> is_value (f z) (q z).
Proof.
  intros f q from n H z Hz. apply is_valueb_ok.
  exact (forall_range (fun z => is_valueb (f z) (q z)) from n H z Hz).
Qed.

(* solve the conditions decided by the hypotheses *)
Ltac decide_if :=
  match goal with
  | |- context [if ?b then _ else _] =>
      let H := fresh in
      first [ assert (H : b = true) by (reflexivity || assumption || lia)
            | assert (H : b = false) by (reflexivity || assumption || lia) ];
      rewrite H; clear H
  end.

Ltac reg_run Hb := gorun; unpack; normbits Hb; rewrite ?mul_eq0, ?bit_neg0, ?bit_is0.

(* Exact behaviour of a reader that is a cascade of tests on numbers: the goal is
   [Spec data m <-> reader = Ok m] where [Spec] is an inductive relation. *)
Ltac tests H :=
  cbn [rmap bind andb orb negb] in H;
  repeat (match type of H with
  | context [if ?c then _ else _] =>
      lazymatch c with context [if _ then _ else _] => fail | _ => idtac end;
      let E := fresh "E" in destruct c eqn:E; cbn [rmap bind andb orb negb] in H; try discriminate H
  end).

Ltac reader_iff :=
  split;
  [ let H := fresh "H" in intros H; inversion H; subst; clear H; cbn [rmap bind];
    repeat (decide_if; cbn [rmap bind]); reflexivity
  | let H := fresh "H" in intros H; tests H; injection H as <-; constructor; lia ].

(* floats close to a rational, checked over a whole field by computation *)
Definition float_q (x : spec_float) : option Q :=
  match x with
  | S754_zero _ => Some 0%Q
  | S754_finite s m e => Some (dyadic (if s then Zneg m else Zpos m) e)
  | _ => None
  end.

Lemma float_q_ok : forall x v, float_q x = Some v -> is_value x v.
Proof. intros [?|?| |? ? ?] v H; cbn in *; try discriminate; injection H as <-; apply Qeq_refl. Qed.

Definition is_closeb (x : spec_float) (q err : Q) : bool :=
  match float_q x with Some v => Qle_bool (Qabs (v - q)) err | None => false end.

Lemma is_closeb_ok : forall x q err, is_closeb x q err = true -> is_close x q err.
Proof.
  intros x q err H. unfold is_closeb in H. destruct (float_q x) as [v|] eqn:E; [|discriminate].
  exists v. split; [apply float_q_ok; exact E|apply Qle_bool_iff; exact H].
Qed.

Lemma close_range : forall (f : Z -> spec_float) (q : Z -> Q) err from n,
  List.forallb (fun z => is_closeb (f z) (q z) err) (zseq from (Z.to_nat n)) = true ->
  forall z, from <= z < from + n -> is_close (f z) (q z) err.
Proof.
  intros f q err from n H z Hz. apply is_closeb_ok.
  exact (forall_range (fun z => is_closeb (f z) (q z) err) from n H z Hz).
Qed.
