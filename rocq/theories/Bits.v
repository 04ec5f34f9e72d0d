(* Bits: the specification vocabulary for bit fields, and a reflexive normaliser.

   SPECIFICATION (the only part a reader of the theorems needs):
     bytes data     -- every element of data is a byte
     be data        -- the big-endian number written by data
     bits i j data  -- the number written by bits i..j of data, where, as in
                       ICAO Annex 10 / Doc 9871, bit 1 is the most significant
                       bit of the first byte.
     bit i data     -- the truth value of bit i

   The rest is proof machinery: [bitsnf data] replaces, in the goal, every
   shift/mask/or/add expression over the bytes of [data] which selects a
   contiguous range of bits by [bits i j data].                              *)
From Verif Require Import GoBase.
From Coq Require Import Lia.
Local Open Scope Z_scope.

(* ------------------------------------------------------------------ *)
(* Specification                                                       *)

Definition byte (b : Z) : Prop := 0 <= b < 256.
Definition bytes (data : list Z) : Prop := Forall byte data.

Definition be (data : list Z) : Z := List.fold_left (fun acc b => 256 * acc + b) data 0.

Definition bits (i j : Z) (data : list Z) : Z :=
  (be data / 2 ^ (8 * len data - j)) mod 2 ^ (j - i + 1).

Definition bit (i : Z) (data : list Z) : bool := bits i i data =? 1.

(* ------------------------------------------------------------------ *)
(* be and its bits                                                     *)

Lemma fold_be_acc : forall l a,
  List.fold_left (fun acc b => 256 * acc + b) l a = a * 256 ^ len l + be l.
Proof.
  unfold be, len. induction l as [|b l IH]; intros a.
  - cbn. lia.
  - cbn [List.fold_left List.length]. rewrite IH. rewrite (IH (256 * 0 + b)).
    rewrite Nat2Z.inj_succ, Z.pow_succ_r by lia. ring.
Qed.

Lemma be_cons : forall b l, be (b :: l) = b * 256 ^ len l + be l.
Proof. intros. unfold be at 1. cbn [List.fold_left]. rewrite fold_be_acc. ring. Qed.

Lemma len_cons : forall (A : Type) (a : A) l, len (a :: l) = len l + 1.
Proof. intros. unfold len. cbn [List.length]. lia. Qed.

Lemma len_nonneg : forall (A : Type) (l : list A), 0 <= len l.
Proof. intros. unfold len. lia. Qed.

Lemma be_range : forall l, bytes l -> 0 <= be l < 256 ^ len l.
Proof.
  induction 1 as [|b l Hb Hl IH].
  - cbn. lia.
  - rewrite be_cons, len_cons. rewrite Z.pow_add_r by (try apply len_nonneg; lia).
    unfold byte in Hb. nia.
Qed.

Lemma be_app : forall l m, be (l ++ m) = be l * 256 ^ len m + be m.
Proof.
  intros. unfold be at 1. rewrite List.fold_left_app. rewrite fold_be_acc. reflexivity.
Qed.

Lemma bits_range : forall i j data, i <= j + 1 -> 0 <= bits i j data < 2 ^ (j - i + 1).
Proof. intros. unfold bits. apply Z.mod_pos_bound. apply Z.pow_pos_nonneg; lia. Qed.

Lemma pow256 : forall n, 0 <= n -> 256 ^ n = 2 ^ (8 * n).
Proof. intros. rewrite Z.pow_mul_r by lia. reflexivity. Qed.

Lemma testbit_high : forall x n p, 0 <= n -> 0 <= x < 2 ^ n -> n <= p -> Z.testbit x p = false.
Proof.
  intros x n p Hn Hx Hp. destruct (Z.eq_dec x 0) as [->|]; [apply Z.bits_0|].
  apply Z.bits_above_log2; [lia|]. apply Z.lt_le_trans with n; [|lia].
  apply Z.log2_lt_pow2; lia.
Qed.

(* testbit of the k-th byte (from the end) *)
Lemma be_testbit_byte : forall l k b m,
  bytes l -> List.nth_error l k = Some b -> 0 <= m < 8 ->
  Z.testbit b m = Z.testbit (be l) (8 * (len l - 1 - Z.of_nat k) + m).
Proof.
  induction l as [|a l IH]; intros k b m Hl Hk Hm.
  - destruct k; discriminate.
  - inversion Hl as [|? ? Ha Hl']; subst.
    rewrite be_cons, len_cons. pose proof (len_nonneg _ l).
    rewrite pow256 by lia. pose proof (be_range l Hl') as R. rewrite pow256 in R by lia.
    assert (E : a * 2 ^ (8 * len l) + be l = Z.lor (Z.shiftl a (8 * len l)) (be l)).
    { assert (Hd : Z.land (Z.shiftl a (8 * len l)) (be l) = 0).
      { apply Z.bits_inj'. intros p Hp. rewrite Z.land_spec, Z.bits_0.
        destruct (Z_lt_le_dec p (8 * len l)).
        - rewrite Z.shiftl_spec_low by lia. reflexivity.
        - rewrite (testbit_high (be l) (8 * len l)) by lia. apply andb_false_r. }
      rewrite <- Z.lxor_lor by exact Hd. rewrite <- Z.add_nocarry_lxor by exact Hd.
      rewrite Z.shiftl_mul_pow2 by lia. reflexivity. }
    rewrite E, Z.lor_spec.
    destruct k as [|k].
    + cbn in Hk. injection Hk as <-. 
      replace (8 * (len l + 1 - 1 - Z.of_nat 0) + m) with (8 * len l + m) by lia.
      rewrite Z.shiftl_spec by lia. replace (8 * len l + m - 8 * len l) with m by lia.
      rewrite (testbit_high (be l) (8 * len l)) by lia. rewrite orb_false_r. reflexivity.
    + cbn in Hk. rewrite (IH k b m Hl' Hk Hm).
      assert (k < List.length l)%nat by (apply List.nth_error_Some; congruence).
      unfold len in *. 
      rewrite Z.shiftl_spec_low by lia. cbn [orb]. f_equal. lia.
Qed.

Lemma byte_testbit_high : forall b m, byte b -> 8 <= m -> Z.testbit b m = false.
Proof. intros b m H Hm. apply (testbit_high b 8); [lia|exact H|lia]. Qed.

Lemma bits_testbit : forall i j data p, 1 <= i -> i <= j -> j <= 8 * len data -> 0 <= p ->
  Z.testbit (bits i j data) p =
  if p <? j - i + 1 then Z.testbit (be data) (8 * len data - j + p) else false.
Proof.
  intros. unfold bits. destruct (Z.ltb_spec p (j - i + 1)).
  - rewrite Z.mod_pow2_bits_low by lia. rewrite Z.div_pow2_bits by lia. f_equal. lia.
  - apply Z.mod_pow2_bits_high. lia.
Qed.

(* ------------------------------------------------------------------ *)
(* Symbolic bit vectors                                                *)

(* a vector lists, from the least significant, either Some k (bit k of
   [be data], counted from its least significant bit), or None (zero) *)
Definition vec := list (option Z).

Inductive bexp : Type :=
| EByte (k : nat)
| EConst (c : Z)
| ELand (a b : bexp)
| ELor (a b : bexp)
| EAdd (a b : bexp)
| EShr (a : bexp) (n : Z)
| EShl (a : bexp) (n : Z)
| EMul (a : bexp) (n : Z)        (* multiplication by 2^n, written c = 2^n *)
| EWrapU (n : Z) (a : bexp)
| EWrapS (n : Z) (a : bexp)
| EBits (i j : Z).

Definition wrapU (n z : Z) : Z := z mod 2 ^ n.
Definition wrapS (n z : Z) : Z := (z + 2 ^ (n - 1)) mod 2 ^ n - 2 ^ (n - 1).

Section Eval.
Variable data : list Z.

Fixpoint beval (e : bexp) : Z :=
  match e with
  | EByte k => List.nth k data 0
  | EConst c => c
  | ELand a b => Z.land (beval a) (beval b)
  | ELor a b => Z.lor (beval a) (beval b)
  | EAdd a b => beval a + beval b
  | EShr a n => Z.shiftr (beval a) n
  | EShl a n => Z.shiftl (beval a) n
  | EMul a n => beval a * 2 ^ n
  | EWrapU n a => wrapU n (beval a)
  | EWrapS n a => wrapS n (beval a)
  | EBits i j => bits i j data
  end.
End Eval.

(* only a hint on the order of unfolding, so that conversion never computes on [bits] *)
Strategy expand [beval wrapU wrapS List.nth].

Fixpoint zip_or (a b : vec) : option vec :=
  match a, b with
  | [], _ => Some b
  | _, [] => Some a
  | x :: a', y :: b' =>
      match zip_or a' b' with
      | None => None
      | Some r => match x, y with
                  | None, _ => Some (y :: r)
                  | _, None => Some (x :: r)
                  | Some _, Some _ => None
                  end
      end
  end.

(* conjunction with the constant c, digit by digit *)
Fixpoint and_const (a : vec) (c : Z) : vec :=
  match a with
  | [] => []
  | x :: a' => (if Z.odd c then x else None) :: and_const a' (Z.div2 c)
  end.

Fixpoint zrange (from : Z) (n : nat) : vec :=
  match n with O => [] | S n' => Some from :: zrange (from + 1) n' end.

(* the number of bytes of data *)
Fixpoint symb (nb : Z) (e : bexp) : option vec :=
  match e with
  | EByte k => if Z.of_nat k <? nb then Some (zrange (8 * (nb - 1 - Z.of_nat k)) 8) else None
  | EConst c => if c =? 0 then Some [] else None
  | ELand a (EConst c) =>
      if 0 <=? c then
        match symb nb a with Some v => Some (and_const v c) | None => None end
      else None
  | ELand _ _ => None
  | ELor a b | EAdd a b =>
      match symb nb a, symb nb b with
      | Some v, Some w => zip_or v w
      | _, _ => None
      end
  | EShr a n =>
      if 0 <=? n then
        match symb nb a with Some v => Some (List.skipn (Z.to_nat n) v) | None => None end
      else None
  | EShl a n | EMul a n =>
      if 0 <=? n then
        match symb nb a with
        | Some v => Some (List.repeat None (Z.to_nat n) ++ v)%list
        | None => None
        end
      else None
  | EWrapU n a =>
      if 0 <=? n then
        match symb nb a with Some v => Some (List.firstn (Z.to_nat n) v) | None => None end
      else None
  | EWrapS n a =>
      if 1 <=? n then
        match symb nb a with
        | Some v => if Z.of_nat (List.length v) <=? n - 1 then Some v else None
        | None => None
        end
      else None
  | EBits i j =>
      if (1 <=? i) && (i <=? j) && (j <=? 8 * nb)
      then Some (zrange (8 * nb - j) (Z.to_nat (j - i + 1))) else None
  end.

Definition den (data : list Z) (v : vec) (p : Z) : bool :=
  match List.nth_error v (Z.to_nat p) with
  | Some (Some k) => Z.testbit (be data) k
  | _ => false
  end.

Definition sound (data : list Z) (z : Z) (v : vec) : Prop :=
  0 <= z /\ forall p, 0 <= p -> Z.testbit z p = den data v p.

Lemma zrange_nth : forall n from p,
  List.nth_error (zrange from n) p =
  if (p <? n)%nat then Some (Some (from + Z.of_nat p)) else None.
Proof.
  induction n; intros from p.
  - destruct p; reflexivity.
  - destruct p.
    + cbn. rewrite Z.add_0_r. reflexivity.
    + cbn [zrange List.nth_error]. rewrite IHn. 
      change (S p <? S n)%nat with (p <? n)%nat. destruct (p <? n)%nat; [|reflexivity].
      do 2 f_equal. lia.
Qed.

Lemma and_const_nth : forall v c p, 
  List.nth_error (and_const v c) p =
  match List.nth_error v p with
  | Some x => Some (if Z.testbit c (Z.of_nat p) then x else None)
  | None => None
  end.
Proof.
  induction v; intros c p; [destruct p; reflexivity|].
  destruct p.
  - cbn [and_const List.nth_error]. change (Z.of_nat 0) with 0. rewrite Z.bit0_odd. reflexivity.
  - cbn [and_const List.nth_error]. rewrite IHv.
    destruct (List.nth_error v p); [|reflexivity].
    rewrite Z.div2_spec, Z.shiftr_spec by lia.
    replace (Z.of_nat p + 1) with (Z.of_nat (S p)) by lia. reflexivity.
Qed.

Lemma zip_or_nth : forall a b r, zip_or a b = Some r -> forall p,
  match List.nth_error a p with
  | Some (Some k) => List.nth_error r p = Some (Some k) /\
                     (List.nth_error b p = None \/ List.nth_error b p = Some None)
  | _ => match List.nth_error b p with
         | Some (Some k) => List.nth_error r p = Some (Some k)
         | _ => List.nth_error r p = None \/ List.nth_error r p = Some None
         end
  end.
Proof.
  induction a as [|x a IH]; intros b r H p.
  - cbn in H. injection H as <-. replace (List.nth_error (@nil (option Z)) p) with (@None (option Z)) by (destruct p; reflexivity).
    destruct (List.nth_error b p) as [[k|]|]; auto.
  - destruct b as [|y b].
    + cbn in H. injection H as <-. 
      replace (List.nth_error (@nil (option Z)) p) with (@None (option Z)) by (destruct p; reflexivity).
      destruct (List.nth_error (x :: a) p) as [[k|]|]; auto.
    + cbn in H. destruct (zip_or a b) as [r'|] eqn:E; [|discriminate].
      destruct p.
      * cbn. destruct x, y; try discriminate; injection H as <-; cbn; auto.
      * specialize (IH _ _ E p).
        change (List.nth_error (x :: a) (S p)) with (List.nth_error a p).
        change (List.nth_error (y :: b) (S p)) with (List.nth_error b p).
        assert (Hr : List.nth_error r (S p) = List.nth_error r' p).
        { destruct x, y; try discriminate; injection H as <-; reflexivity. }
        rewrite Hr. exact IH.
Qed.

Lemma nth_error_skipn : forall (A : Type) n (l : list A) p,
  List.nth_error (List.skipn n l) p = List.nth_error l (n + p).
Proof.
  induction n; intros l p; [reflexivity|].
  destruct l; [destruct p; reflexivity|]. cbn [List.skipn Nat.add List.nth_error]. apply IHn.
Qed.

Lemma nth_error_firstn : forall (A : Type) n (l : list A) p,
  List.nth_error (List.firstn n l) p = if (p <? n)%nat then List.nth_error l p else None.
Proof.
  induction n; intros l p; [destruct p; reflexivity|].
  destruct l; [destruct p; cbn [List.firstn List.nth_error]; destruct (_ <? _)%nat; reflexivity|].
  destruct p; [reflexivity|]. cbn [List.firstn List.nth_error]. rewrite IHn. reflexivity.
Qed.

Lemma sound_or : forall data x y v w r,
  sound data x v -> sound data y w -> zip_or v w = Some r ->
  sound data (Z.lor x y) r /\ Z.land x y = 0.
Proof.
  intros data x y v w r [Hx Bx] [Hy By] H.
  split; [split|].
  - apply Z.lor_nonneg; auto.
  - intros p Hp. rewrite Z.lor_spec, Bx, By by lia. unfold den.
    pose proof (zip_or_nth _ _ _ H (Z.to_nat p)) as K.
    destruct (List.nth_error v (Z.to_nat p)) as [[k|]|].
    + destruct K as [-> [->| ->]]; apply orb_false_r.
    + destruct (List.nth_error w (Z.to_nat p)) as [[k|]|]; [rewrite K|destruct K as [->| ->]|destruct K as [->| ->]]; reflexivity.
    + destruct (List.nth_error w (Z.to_nat p)) as [[k|]|]; [rewrite K|destruct K as [->| ->]|destruct K as [->| ->]]; reflexivity.
  - apply Z.bits_inj'. intros p Hp. rewrite Z.land_spec, Bx, By, Z.bits_0 by lia. unfold den.
    pose proof (zip_or_nth _ _ _ H (Z.to_nat p)) as K.
    destruct (List.nth_error v (Z.to_nat p)) as [[k|]|]; [|reflexivity|reflexivity].
    destruct K as [_ [->| ->]]; apply andb_false_r.
Qed.

Lemma sound_bound : forall data x v, sound data x v -> x < 2 ^ Z.of_nat (List.length v).
Proof.
  intros data x v [H0 H]. destruct (Z.eq_dec x 0) as [->|].
  - apply Z.pow_pos_nonneg; lia.
  - apply Z.log2_lt_pow2; [lia|]. 
    destruct (Z_lt_le_dec (Z.log2 x) (Z.of_nat (List.length v))); [assumption|].
    exfalso. pose proof (Z.bit_log2 x ltac:(lia)) as T.
    rewrite H in T by (apply Z.log2_nonneg). unfold den in T.
    replace (List.nth_error v (Z.to_nat (Z.log2 x))) with (@None (option Z)) in T; [discriminate|].
    symmetry. apply List.nth_error_None. lia.
Qed.

Lemma some_inj : forall (A : Type) (a b : A), Some a = Some b -> a = b.
Proof. congruence. Qed.

Lemma symb_sound : forall data nb e v,
  bytes data -> len data = nb -> symb nb e = Some v -> sound data (beval data e) v.
Proof.
  intros data nb e v Hd <-. revert v.
  induction e; intros v H; cbn [symb beval] in *.
  - destruct (Z.ltb_spec (Z.of_nat k) (len data)) as [Hk|]; [|discriminate].
    apply some_inj in H; subst v.
    assert (Hn : List.nth_error data k = Some (List.nth k data 0)).
    { apply List.nth_error_nth'. unfold len in Hk. lia. }
    assert (Hb : byte (List.nth k data 0)).
    { apply (proj1 (List.Forall_forall byte data) Hd). eapply List.nth_error_In. exact Hn. }
    split; [unfold byte in Hb; lia|].
    intros p Hp. unfold den.
    rewrite zrange_nth. destruct (Nat.ltb_spec (Z.to_nat p) 8).
    + rewrite (be_testbit_byte data k _ p Hd Hn) by lia. f_equal. lia.
    + apply byte_testbit_high; [assumption|lia].
  - destruct (Z.eqb_spec c 0); [|discriminate]. subst c. apply some_inj in H; subst v.
    split; [lia|]. intros p Hp. rewrite Z.bits_0. unfold den.
    destruct (Z.to_nat p); reflexivity.
  - destruct e2; try discriminate. cbn [beval].
    destruct (Z.leb_spec 0 c); [|discriminate].
    destruct (symb (len data) e1) as [w|]; [|discriminate]. apply some_inj in H; subst v.
    destruct (IHe1 w eq_refl) as [Hp Hb]. split; [apply Z.land_nonneg; auto|].
    intros p Hp'. rewrite Z.land_spec, Hb by lia. unfold den. rewrite and_const_nth.
    rewrite Z2Nat.id by lia.
    destruct (List.nth_error w (Z.to_nat p)) as [[k|]|]; try reflexivity.
    + destruct (Z.testbit c p); [apply andb_true_r|apply andb_false_r].
    + destruct (Z.testbit c p); reflexivity.
  - destruct (symb (len data) e1) as [w1|]; [|discriminate].
    destruct (symb (len data) e2) as [w2|]; [|discriminate].
    eapply sound_or; eauto.
  - destruct (symb (len data) e1) as [w1|]; [|discriminate].
    destruct (symb (len data) e2) as [w2|]; [|discriminate].
    destruct (sound_or _ _ _ _ _ _ (IHe1 _ eq_refl) (IHe2 _ eq_refl) H) as [S D].
    rewrite Z.add_nocarry_lxor by exact D. rewrite Z.lxor_lor by exact D. exact S.
  - destruct (Z.leb_spec 0 n); [|discriminate].
    destruct (symb (len data) e) as [w|]; [|discriminate]. apply some_inj in H; subst v.
    destruct (IHe w eq_refl) as [Hp Hb]. split; [apply Z.shiftr_nonneg; auto|].
    intros p Hp'. rewrite Z.shiftr_spec, Hb by lia. unfold den. rewrite nth_error_skipn.
    rewrite Z.add_comm, Z2Nat.inj_add by lia. reflexivity.
  - destruct (Z.leb_spec 0 n); [|discriminate].
    destruct (symb (len data) e) as [w|]; [|discriminate]. apply some_inj in H; subst v.
    destruct (IHe w eq_refl) as [Hp Hb]. split; [apply Z.shiftl_nonneg; auto|].
    intros p Hp'. rewrite Z.shiftl_spec by lia. unfold den.
    destruct (Z_lt_le_dec p n).
    + rewrite Z.testbit_neg_r by lia.
      rewrite List.nth_error_app1 by (rewrite List.repeat_length; lia).
      rewrite List.nth_error_repeat by lia. reflexivity.
    + rewrite Hb by lia. unfold den.
      rewrite List.nth_error_app2 by (rewrite List.repeat_length; lia).
      rewrite List.repeat_length. rewrite Z2Nat.inj_sub by lia. reflexivity.
  - destruct (Z.leb_spec 0 n); [|discriminate].
    destruct (symb (len data) e) as [w|]; [|discriminate]. apply some_inj in H; subst v.
    rewrite <- Z.shiftl_mul_pow2 by lia.
    destruct (IHe w eq_refl) as [Hp Hb]. split; [apply Z.shiftl_nonneg; auto|].
    intros p Hp'. rewrite Z.shiftl_spec by lia. unfold den.
    destruct (Z_lt_le_dec p n).
    + rewrite Z.testbit_neg_r by lia.
      rewrite List.nth_error_app1 by (rewrite List.repeat_length; lia).
      rewrite List.nth_error_repeat by lia. reflexivity.
    + rewrite Hb by lia. unfold den.
      rewrite List.nth_error_app2 by (rewrite List.repeat_length; lia).
      rewrite List.repeat_length. rewrite Z2Nat.inj_sub by lia. reflexivity.
  - destruct (Z.leb_spec 0 n); [|discriminate].
    destruct (symb (len data) e) as [w|]; [|discriminate]. apply some_inj in H; subst v.
    destruct (IHe w eq_refl) as [Hp Hb]. unfold wrapU. split.
    + apply Z.mod_pos_bound. apply Z.pow_pos_nonneg; lia.
    + intros p Hp'. unfold den. rewrite nth_error_firstn.
      destruct (Nat.ltb_spec (Z.to_nat p) (Z.to_nat n)).
      * rewrite Z.mod_pow2_bits_low by lia. apply Hb. lia.
      * apply Z.mod_pow2_bits_high. lia.
  - destruct (Z.leb_spec 1 n); [|discriminate].
    destruct (symb (len data) e) as [w|]; [|discriminate]. 
    destruct (Z.leb_spec (Z.of_nat (List.length w)) (n - 1)); [|discriminate].
    apply some_inj in H; subst v. pose proof (IHe w eq_refl) as Sd. pose proof (sound_bound _ _ _ Sd) as B.
    assert (beval data e < 2 ^ (n - 1)).
    { eapply Z.lt_le_trans; [exact B|]. apply Z.pow_le_mono_r; lia. }
    replace (wrapS n (beval data e)) with (beval data e); [exact Sd|].
    destruct Sd as [P _]. unfold wrapS.
    assert (E : 2 ^ n = 2 * 2 ^ (n - 1)) by (rewrite <- Z.pow_succ_r by lia; f_equal; lia).
    rewrite Z.mod_small; lia.
  - destruct (Z.leb_spec 1 i); [|discriminate]. destruct (Z.leb_spec i j); [|discriminate].
    destruct (Z.leb_spec j (8 * len data)); [|discriminate]. cbn [andb] in H. apply some_inj in H; subst v.
    split; [apply bits_range; lia|].
    intros p Hp. rewrite bits_testbit by lia. unfold den. rewrite zrange_nth.
    destruct (Z.ltb_spec p (j - i + 1)); destruct (Nat.ltb_spec (Z.to_nat p) (Z.to_nat (j - i + 1)));
      try lia; try reflexivity.
    f_equal. lia.
Qed.

(* Canonical form: s zero digits, then a contiguous run of data bits. *)
Fixpoint strip_zeros (v : vec) : Z * vec :=
  match v with
  | None :: v' => let '(s, w) := strip_zeros v' in (s + 1, w)
  | _ => (0, v)
  end.

Fixpoint run (from : Z) (v : vec) : option Z :=   (* length of the run; the tail must be zeros *)
  match v with
  | [] => Some 0
  | Some k :: v' => if k =? from then
                      match run (from + 1) v' with Some n => Some (n + 1) | None => None end
                    else None
  | None :: v' => if List.forallb (fun x => match x with None => true | _ => false end) v'
                  then Some 0 else None
  end.

(* the (i, j, s) such that the expression is bits i j data * 2^s *)
Definition canon (nb : Z) (e : bexp) : option (Z * Z * Z) :=
  match symb nb e with
  | None => None
  | Some v =>
      match strip_zeros v with
      | (s, Some k :: v') =>
          match run k (Some k :: v') with
          | Some n => Some (8 * nb - (k + n) + 1, 8 * nb - k, s)
          | None => None
          end
      | (_, _) => None
      end
  end.

Fixpoint drop_zeros (v : vec) : vec :=
  match v with
  | [] => []
  | x :: v' => match drop_zeros v' with
               | [] => match x with None => [] | Some _ => [x] end
               | w => x :: w
               end
  end.

Fixpoint vecs_eqb (a b : vec) : bool :=
  match a, b with
  | [], [] => true
  | None :: a', None :: b' => vecs_eqb a' b'
  | Some x :: a', Some y :: b' => (x =? y) && vecs_eqb a' b'
  | _, _ => false
  end.

Lemma vecs_eqb_eq : forall a b, vecs_eqb a b = true -> a = b.
Proof.
  induction a as [|[x|] a IH]; destruct b as [|[y|] b]; cbn; try discriminate; auto.
  - intros H. apply andb_true_iff in H as [H1 H2]. apply Z.eqb_eq in H1. subst.
    f_equal. auto.
  - intros H. f_equal. auto.
Qed.

Lemma den_drop : forall data v p, den data (drop_zeros v) p = den data v p.
Proof.
  intros data v p. unfold den. generalize (Z.to_nat p). clear p.
  induction v as [|x v IH]; intros n; [reflexivity|].
  cbn [drop_zeros]. destruct (drop_zeros v) as [|y w] eqn:E.
  - destruct x.
    + destruct n; [reflexivity|]. cbn. specialize (IH n).
      replace (List.nth_error (@nil (option Z)) n) with (@None (option Z)) in * by (destruct n; reflexivity). exact IH.
    + destruct n; [reflexivity|]. cbn [List.nth_error]. specialize (IH n). 
      replace (List.nth_error (@nil (option Z)) n) with (@None (option Z)) in IH by (destruct n; reflexivity).
      exact IH.
  - destruct n; [reflexivity|]. cbn [List.nth_error]. exact (IH n).
Qed.

(* equality of two expressions, decided on their symbolic vectors *)
Definition same (nb : Z) (e f : bexp) : bool :=
  match symb nb e, symb nb f with
  | Some v, Some w => vecs_eqb (drop_zeros v) (drop_zeros w)
  | _, _ => false
  end.

Lemma same_sound : forall data nb e f,
  bytes data -> len data = nb -> same nb e f = true -> beval data e = beval data f.
Proof.
  intros data nb e f Hd Hn H. unfold same in H.
  destruct (symb nb e) as [v|] eqn:Ee; [|discriminate].
  destruct (symb nb f) as [w|] eqn:Ef; [|discriminate].
  destruct (symb_sound _ _ _ _ Hd Hn Ee) as [Pe Be].
  destruct (symb_sound _ _ _ _ Hd Hn Ef) as [Pf Bf].
  apply vecs_eqb_eq in H. apply Z.bits_inj'. intros p Hp. rewrite Be, Bf by lia.
  rewrite <- den_drop, <- (den_drop data w), H. reflexivity.
Qed.

(* ------------------------------------------------------------------ *)
(* Tactics                                                             *)

Lemma u8_wrap : forall z, u8 z = wrapU 8 z. Proof. reflexivity. Qed.
Lemma u16_wrap : forall z, u16 z = wrapU 16 z. Proof. reflexivity. Qed.
Lemma u32_wrap : forall z, u32 z = wrapU 32 z. Proof. reflexivity. Qed.
Lemma u64_wrap : forall z, u64 z = wrapU 64 z. Proof. reflexivity. Qed.
Lemma i16_wrap : forall z, i16 z = wrapS 16 z. Proof. reflexivity. Qed.
Lemma i32_wrap : forall z, i32 z = wrapS 32 z. Proof. reflexivity. Qed.
Lemma i64_wrap : forall z, i64 z = wrapS 64 z. Proof. reflexivity. Qed.

Ltac pos_in x l :=
  match l with
  | x :: _ => constr:(O)
  | _ :: ?l' => let n := pos_in x l' in constr:(S n)
  end.

Ltac is_zcst t :=
  match t with
  | Z0 => idtac
  | Zpos ?p => is_pcst p
  | Zneg ?p => is_pcst p
  end
with is_pcst p :=
  match p with
  | xH => idtac
  | xO ?q => is_pcst q
  | xI ?q => is_pcst q
  end.

Ltac reify data t :=
  lazymatch t with
  | Z.land ?a ?b =>
      let ea := reify data a in let eb := reify data b in constr:(ELand ea eb)
  | Z.lor ?a ?b =>
      let ea := reify data a in let eb := reify data b in constr:(ELor ea eb)
  | Z.add ?a ?b =>
      let ea := reify data a in let eb := reify data b in constr:(EAdd ea eb)
  | Z.shiftr ?a ?n => let ea := reify data a in constr:(EShr ea n)
  | Z.shiftl ?a ?n => let ea := reify data a in constr:(EShl ea n)
  | Z.mul ?a ?c => let _ := match goal with _ => is_zcst c end in
                   let ea := reify data a in
                   let n := eval vm_compute in (Z.log2 c) in
                   let c' := eval vm_compute in (2 ^ n) in
                   let _ := match goal with _ => unify c c' end in
                   constr:(EMul ea n)
  | u8 ?a => let ea := reify data a in constr:(EWrapU 8 ea)
  | u16 ?a => let ea := reify data a in constr:(EWrapU 16 ea)
  | u32 ?a => let ea := reify data a in constr:(EWrapU 32 ea)
  | u64 ?a => let ea := reify data a in constr:(EWrapU 64 ea)
  | i16 ?a => let ea := reify data a in constr:(EWrapS 16 ea)
  | i32 ?a => let ea := reify data a in constr:(EWrapS 32 ea)
  | i64 ?a => let ea := reify data a in constr:(EWrapS 64 ea)
  | bits ?i ?j data => constr:(EBits i j)
  | Z0 => constr:(EConst t)
  | Zpos _ => constr:(EConst t)
  | _ => let k := pos_in t data in constr:(EByte k)
  end.

Ltac zlen l :=
  let n := eval vm_compute in (len l) in constr:(n).

Ltac blen l :=
  lazymatch l with
  | nil => constr:(0)
  | _ :: ?l' => let n := blen l' in let m := eval vm_compute in (n + 1) in constr:(m)
  end.

(* rewrite the term t of the goal into bits i j data, times 2^s *)
Ltac canon_term data Hd t :=
  let nb := blen data in
  let e := reify data t in
  let r := eval vm_compute in (canon nb e) in
  lazymatch r with
  | Some (?i, ?j, 0) =>
      let H := fresh in
      assert (H : t = bits i j data)
        by exact (same_sound data nb e (EBits i j) Hd eq_refl
                    (eq_refl : same nb e (EBits i j) = true));
      rewrite H; clear H
  | Some (?i, ?j, ?s) =>
      let c := eval vm_compute in (2 ^ s) in
      let H := fresh in
      assert (H : t = bits i j data * c)
        by exact (same_sound data nb e (EMul (EBits i j) s) Hd eq_refl
                    (eq_refl : same nb e (EMul (EBits i j) s) = true));
      rewrite H; clear H
  end.

Ltac bitsnf data Hd :=
  repeat match goal with
  | |- context [u64 ?a] => progress (canon_term data Hd (u64 a))
  | |- context [u32 ?a] => progress (canon_term data Hd (u32 a))
  | |- context [u16 ?a] => progress (canon_term data Hd (u16 a))
  | |- context [u8 ?a] => progress (canon_term data Hd (u8 a))
  | |- context [i64 ?a] => progress (canon_term data Hd (i64 a))
  | |- context [i32 ?a] => progress (canon_term data Hd (i32 a))
  | |- context [i16 ?a] => progress (canon_term data Hd (i16 a))
  | |- context [Z.lor ?a ?b] => progress (canon_term data Hd (Z.lor a b))
  | |- context [Z.add ?a ?b] => progress (canon_term data Hd (Z.add a b))
  | |- context [Z.shiftr ?a ?b] => progress (canon_term data Hd (Z.shiftr a b))
  | |- context [Z.shiftl ?a ?b] => progress (canon_term data Hd (Z.shiftl a b))
  | |- context [Z.land ?a ?b] => progress (canon_term data Hd (Z.land a b))
  end.

(* prove an equality between two bit expressions over data *)
Ltac bveq data Hd :=
  lazymatch goal with
  | |- ?a = ?b =>
      let nb := blen data in
      let ea := reify data a in
      let eb := reify data b in
      exact (same_sound data nb ea eb Hd eq_refl (eq_refl : same nb ea eb = true))
  end.

(* bits of one byte, written as bits of the whole *)
Lemma bits_1 : forall i data, bits i i data = 0 \/ bits i i data = 1.
Proof.
  intros. pose proof (bits_range i i data ltac:(lia)) as H.
  replace (i - i + 1) with 1 in H by lia. change (2 ^ 1) with 2 in H. lia.
Qed.

Lemma bit_spec : forall i data, bits i i data = if bit i data then 1 else 0.
Proof.
  intros. unfold bit. destruct (bits_1 i data) as [-> | ->]; reflexivity.
Qed.

Lemma bit_neg0 : forall i data, negb (bits i i data =? 0) = bit i data.
Proof. intros. unfold bit. destruct (bits_1 i data) as [-> | ->]; reflexivity. Qed.

Lemma bit_is0 : forall i data, (bits i i data =? 0) = negb (bit i data).
Proof. intros. unfold bit. destruct (bits_1 i data) as [-> | ->]; reflexivity. Qed.

Lemma mul_eq0 : forall x c, (x * Zpos c =? 0) = (x =? 0).
Proof. intros. destruct (Z.eqb_spec (x * Zpos c) 0); destruct (Z.eqb_spec x 0); lia. Qed.

(* exhaustive check over [0, n) *)
Fixpoint zseq (from : Z) (n : nat) : list Z :=
  match n with O => [] | S n' => from :: zseq (from + 1) n' end.

Lemma zseq_in : forall n from z, from <= z < from + Z.of_nat n -> In z (zseq from n).
Proof.
  induction n; intros from z H; [lia|].
  cbn [zseq]. destruct (Z.eq_dec from z); [left; auto|right]. apply IHn. lia.
Qed.

Lemma forall_range : forall (P : Z -> bool) from n,
  List.forallb P (zseq from (Z.to_nat n)) = true ->
  forall z, from <= z < from + n -> P z = true.
Proof.
  intros P from n H z Hz. rewrite List.forallb_forall in H. apply H.
  apply zseq_in. lia.
Qed.

Lemma bytes_cons : forall b l, bytes (b :: l) <-> byte b /\ bytes l.
Proof. intros. split; [inversion 1; auto|intros []; constructor; auto]. Qed.


(* bytes i to j of a frame, counted from 1 *)
Definition octets (i j : Z) (frame : list Z) : list Z :=
  List.firstn (Z.to_nat (j - i + 1)) (List.skipn (Z.to_nat (i - 1)) frame).
