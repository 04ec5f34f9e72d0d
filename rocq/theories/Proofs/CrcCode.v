(* computeParity computes the remainder by G. *)
From Verif.Proofs Require Import Tac CrcPoly.
From Verif.Spec Require Import Crc.
From Verif.Gen Require bitutils.
From Verif.Model Require Import Crc.
Local Open Scope Z_scope.

Lemma testbit_split : forall k a x n, 0 <= k -> 0 <= x < 2 ^ k -> 0 <= n ->
  Z.testbit (a * 2 ^ k + x) n = if n <? k then Z.testbit x n else Z.testbit a (n - k).
Proof.
  intros k a x n Hk Hx Hn.
  destruct (Z.ltb_spec n k).
  - rewrite <- (Z.mod_pow2_bits_low _ k) by lia.
    rewrite Z.add_comm, Z.mod_add by lia. rewrite Z.mod_small by lia. reflexivity.
  - replace n with (n - k + k) at 1 by lia. rewrite <- Z.div_pow2_bits by lia.
    rewrite Z.div_add_l by lia. rewrite Z.div_small by lia. rewrite Z.add_0_r. reflexivity.
Qed.

Lemma lxor_range : forall k a b, 0 <= k -> 0 <= a < 2 ^ k -> 0 <= b < 2 ^ k -> 0 <= Z.lxor a b < 2 ^ k.
Proof.
  intros k a b Hk Ha Hb. assert (N : 0 <= Z.lxor a b) by (apply Z.lxor_nonneg; lia).
  split; [exact N|]. destruct (Z.eq_dec (Z.lxor a b) 0) as [->|]; [apply Z.pow_pos_nonneg; lia|].
  apply Z.log2_lt_pow2; [lia|].
  destruct (Z_lt_le_dec (Z.log2 (Z.lxor a b)) k) as [L|L]; [exact L|exfalso].
  assert (B : Z.testbit (Z.lxor a b) (Z.log2 (Z.lxor a b)) = true) by (apply Z.bit_log2; lia).
  rewrite Z.lxor_spec in B. rewrite !(testbit_high _ k) in B by lia. discriminate.
Qed.

Lemma lxor_split : forall k a b x y, 0 <= k -> 0 <= x < 2 ^ k -> 0 <= y < 2 ^ k ->
  Z.lxor (a * 2 ^ k + x) (b * 2 ^ k + y) = Z.lxor a b * 2 ^ k + Z.lxor x y.
Proof.
  intros. apply Z.bits_inj'. intros n Hn.
  rewrite Z.lxor_spec, !testbit_split by (try apply lxor_range; lia).
  destruct (n <? k); rewrite Z.lxor_spec; reflexivity.
Qed.

Lemma be_lxor : forall l m, bytes l -> bytes m -> len l = len m ->
  be (List.map (fun p => Z.lxor (fst p) (snd p)) (List.combine l m)) = Z.lxor (be l) (be m).
Proof.
  induction l as [|a l IH]; intros [|b m] Hl Hm E; try (unfold len in E; cbn in E; lia).
  - reflexivity.
  - apply bytes_cons in Hl as [Ha Hl]. apply bytes_cons in Hm as [Hb Hm].
    rewrite !len_cons in E. cbn [List.combine List.map fst snd].
    rewrite !be_cons. rewrite IH by (auto; lia).
    assert (EL : len (List.map (fun p => Z.lxor (fst p) (snd p)) (List.combine l m)) = len l).
    { unfold len in *. rewrite List.map_length, List.combine_length. lia. }
    rewrite EL. replace (len m) with (len l) by lia.
    pose proof (len_nonneg _ l). rewrite !pow256 by lia.
    pose proof (be_range l Hl) as Rl. pose proof (be_range m Hm) as Rm.
    replace (len m) with (len l) in Rm by lia. rewrite !pow256 in Rl, Rm by lia.
    symmetry. apply lxor_split; lia.
Qed.

(* the bit shifted in by step i *)
Definition next (data : list Z) (i : Z) : bool := Z.testbit (be data * 2 ^ 24) (8 * len data - 1 - i).

Lemma land1 : forall z, Z.land z 1 = Z.b2z (Z.testbit z 0).
Proof. intros. change 1 with (Z.ones 1). rewrite Z.land_ones by lia. rewrite Z.bit0_mod. reflexivity. Qed.

Lemma next_bit : forall data i, bytes data -> 0 <= i < 8 * len data ->
  forall c2,
  (if Z.quot (3 * 8 + i) 8 <? len data then
     let* d := idx data (Z.quot (3 * 8 + i) 8) in
     Ok (Z.lor (u8 (Z.shiftl c2 1)) (Z.land (Z.shiftr d (7 - Z.rem i 8)) 1))
   else Ok (u8 (Z.shiftl c2 1))) = Ok (Z.lor (u8 (Z.shiftl c2 1)) (Z.b2z (next data i))).
Proof.
  intros data i Hd Hi c2. rewrite Z.quot_div_nonneg, Z.rem_mod_nonneg by lia.
  pose proof (Z.div_mod i 8 ltac:(lia)) as E. pose proof (Z.mod_pos_bound i 8 ltac:(lia)) as M.
  assert (Q : (3 * 8 + i) / 8 = 3 + i / 8) by (rewrite Z.div_add_l by lia; reflexivity).
  rewrite Q. pose proof (Z.div_pos i 8 ltac:(lia) ltac:(lia)).
  unfold next.
  assert (T : Z.testbit (be data * 2 ^ 24) (8 * len data - 1 - i) =
    if 8 * len data - 1 - i <? 24 then false else Z.testbit (be data) (8 * len data - 1 - i - 24)).
  { replace (be data * 2 ^ 24) with (be data * 2 ^ 24 + 0) by lia.
    rewrite testbit_split by lia. destruct (_ <? 24); [apply Z.bits_0|reflexivity]. }
  rewrite T. clear T.
  destruct (Z.ltb_spec (3 + i / 8) (len data)) as [L|L].
  - unfold idx. destruct (Z.ltb_spec (3 + i / 8) 0); [lia|].
    destruct (List.nth_error data (Z.to_nat (3 + i / 8))) as [d|] eqn:Ed.
    2:{ apply List.nth_error_None in Ed. unfold len in L. lia. }
    cbn [bind]. f_equal. f_equal. rewrite land1, Z.shiftr_spec by lia. f_equal.
    rewrite Z.add_0_l, (be_testbit_byte data _ d (7 - i mod 8) Hd Ed) by lia.
    rewrite Z2Nat.id by lia.
    destruct (Z.ltb_spec (8 * len data - 1 - i) 24); [lia|]. f_equal. lia.
  - destruct (Z.ltb_spec (8 * len data - 1 - i) 24); [|lia].
    cbn [Z.b2z]. rewrite Z.lor_0_r. reflexivity.
Qed.

Lemma be3 : forall x y z, be [x; y; z] = x * 65536 + y * 256 + z.
Proof. intros. unfold be. cbn [List.fold_left]. lia. Qed.

Lemma parityStep_ok : forall data i c0 c1 c2,
  bytes data -> 0 <= i < 8 * len data -> byte c0 -> byte c1 -> byte c2 ->
  exists c0' c1' c2', parityStep data i (c0, c1, c2) = Ok (c0', c1', c2') /\
    byte c0' /\ byte c1' /\ byte c2' /\
    be [c0'; c1'; c2'] =
      let s := 2 * be [c0; c1; c2] + (if next data i then 1 else 0) in
      if 2 ^ 24 <=? s then Z.lxor s G else s.
Proof.
  intros data i c0 c1 c2 Hd Hi H0 H1 H2. unfold parityStep.
  cbv zeta. rewrite next_bit by assumption. cbn [bind].
  set (D := if next data i then 128 else 0).
  assert (HD : byte D) by (unfold D, byte; destruct (next data i); lia).
  assert (HL : bytes [c0; c1; c2; D]) by (repeat (apply bytes_cons; split; [assumption|]); constructor).
  assert (EB : Z.b2z (next data i) = Z.shiftr (Z.land D 128) 7) by (unfold D; destruct (next data i); reflexivity).
  assert (ES : (if next data i then 1 else 0) = Z.shiftr (Z.land D 128) 7) by (unfold D; destruct (next data i); reflexivity).
  rewrite EB, ES. clear EB ES. clearbody D. clear Hi Hd.
  set (L := [c0; c1; c2; D]) in *.
  assert (E0 : Z.lor (u8 (Z.shiftl c0 1)) (Z.land (Z.shiftr c1 7) 1) = bits 2 9 L) by (unfold L; bveq [c0; c1; c2; D] HL).
  assert (E1 : Z.lor (u8 (Z.shiftl c1 1)) (Z.land (Z.shiftr c2 7) 1) = bits 10 17 L) by (unfold L; bveq [c0; c1; c2; D] HL).
  assert (E2 : Z.lor (u8 (Z.shiftl c2 1)) (Z.shiftr (Z.land D 128) 7) = bits 18 25 L) by (unfold L; bveq [c0; c1; c2; D] HL).
  assert (E3 : Z.land c0 128 = bits 1 1 L * 128) by (unfold L; bveq [c0; c1; c2; D] HL).
  assert (E4 : (c0 * 65536 + c1 * 256 + c2) * 2 + Z.shiftr (Z.land D 128) 7 = bits 1 25 L) by (unfold L; bveq [c0; c1; c2; D] HL).
  assert (E5 : bits 2 9 L * 65536 + bits 10 17 L * 256 + bits 18 25 L = bits 2 25 L) by (unfold L; bveq [c0; c1; c2; D] HL).
  assert (E6 : bits 1 25 L = bits 1 1 L * 16777216 + bits 2 25 L) by (unfold L; bveq [c0; c1; c2; D] HL).
  rewrite E0, E1, E2, E3, mul_eq0, bit_neg0, be3. rewrite (Z.mul_comm 2), E4, E6, bit_spec.
  assert (R0 : byte (bits 2 9 L)) by (apply (bits_range 2 9 L); lia).
  assert (R1 : byte (bits 10 17 L)) by (apply (bits_range 10 17 L); lia).
  assert (R2 : byte (bits 18 25 L)) by (apply (bits_range 18 25 L); lia).
  bits_bound 2 25 L.
  destruct (bit 1 L).
  - eexists _, _, _. split; [reflexivity|].
    assert (X : forall a b, byte a -> byte b -> byte (Z.lxor a b)) by (intros a b Ha Hb; apply (lxor_range 8); [lia|exact Ha|exact Hb]).
    assert (P0 : byte 255) by (unfold byte; lia). assert (P1 : byte 244) by (unfold byte; lia).
    assert (P2 : byte 9) by (unfold byte; lia).
    split; [apply X; assumption|]. split; [apply X; assumption|]. split; [apply X; assumption|].
    change (2 ^ 24) with 16777216. destruct (Z.leb_spec 16777216 (1 * 16777216 + bits 2 25 L)); [|lia].
    transitivity (Z.lxor (be [bits 2 9 L; bits 10 17 L; bits 18 25 L]) (be [255; 244; 9])).
    { rewrite <- be_lxor; [reflexivity|..|reflexivity]; repeat (apply bytes_cons; split; [assumption|]); constructor. }
    rewrite be3, E5.
    change G with (1 * 2 ^ 24 + be [255; 244; 9]). change 16777216 with (2 ^ 24).
    rewrite lxor_split; [reflexivity|lia|..]; [|vm_compute; split; [discriminate|reflexivity]].
    change (2 ^ 24) with 16777216. lia.
  - eexists _, _, _. split; [reflexivity|]. split; [assumption|]. split; [assumption|]. split; [assumption|].
    change (2 ^ 24) with 16777216. destruct (Z.leb_spec 16777216 (0 * 16777216 + bits 2 25 L)); [lia|].
    rewrite be3, E5. lia.
Qed.

(* the k first bits of the message followed by zeros *)
Definition prefix (data : list Z) (k : Z) : Z := be data * 2 ^ 24 / 2 ^ (8 * len data - k).

Lemma prefix_next : forall data i, bytes data -> 0 <= i < 8 * len data ->
  prefix data (i + 1) = 2 * prefix data i + (if next data i then 1 else 0).
Proof.
  intros data i Hd Hi. unfold prefix, next.
  set (x := be data * 2 ^ 24). set (m := 8 * len data - 1 - i).
  replace (8 * len data - (i + 1)) with m by lia. replace (8 * len data - i) with (Z.succ m) by lia.
  assert (0 <= m) by lia. rewrite Z.pow_succ_r, (Z.mul_comm 2 (2 ^ m)) by lia.
  rewrite <- Z.div_div by lia. 
  pose proof (Z.div_mod (x / 2 ^ m) 2 ltac:(lia)) as E. pose proof (Z.bit0_mod (x / 2 ^ m)) as B.
  rewrite Z.div_pow2_bits, Z.add_0_l in B by lia.
  destruct (Z.testbit x m); cbn [Z.b2z] in B; lia.
Qed.

Lemma parityLoop_ok : forall n data i c0 c1 c2,
  bytes data -> 0 <= i -> i + Z.of_nat n <= 8 * len data -> byte c0 -> byte c1 -> byte c2 ->
  codeword (Z.lxor (prefix data i) (be [c0; c1; c2])) ->
  exists c0' c1' c2', parityLoop data n i (c0, c1, c2) = Ok (c0', c1', c2') /\
    byte c0' /\ byte c1' /\ byte c2' /\
    codeword (Z.lxor (prefix data (i + Z.of_nat n)) (be [c0'; c1'; c2'])).
Proof.
  induction n as [|n IH]; intros data i c0 c1 c2 Hd Hi Hn H0 H1 H2 C.
  - exists c0, c1, c2. rewrite Z.add_0_r. cbn [parityLoop]. auto.
  - cbn [parityLoop].
    destruct (parityStep_ok data i c0 c1 c2) as (d0 & d1 & d2 & E & B0 & B1 & B2 & V); try assumption; [lia|].
    rewrite E. cbn [bind].
    destruct (IH data (i + 1) d0 d1 d2) as (e0 & e1 & e2 & E' & X); try assumption; try lia.
    + rewrite V. cbv zeta.
      assert (S : codeword (Z.lxor (prefix data (i + 1)) (2 * be [c0; c1; c2] + (if next data i then 1 else 0)))).
      { rewrite prefix_next by (assumption || lia).
        assert (0 <= prefix data i).
        { unfold prefix. apply Z.div_pos; [|apply Z.pow_pos_nonneg; lia]. pose proof (be_range data Hd). lia. }
        assert (0 <= be [c0; c1; c2]) by (rewrite be3; unfold byte in *; lia).
        rewrite lxor_bit0 by assumption. rewrite xorb_nilpotent, Z.add_0_r.
        apply codeword_double. exact C. }
      destruct (2 ^ 24 <=? _); [|exact S].
      rewrite <- Z.lxor_assoc. apply codeword_lxor; [exact S|apply codeword_G].
    + exists e0, e1, e2. split; [exact E'|]. replace (i + Z.of_nat (S n)) with (i + 1 + Z.of_nat n) by lia. exact X.
Qed.

Lemma pack3_be : forall x y z, byte x -> byte y -> byte z -> bitutils.Pack3Bytes x y z = be [x; y; z].
Proof.
  unfold byte. intros x y z Hx Hy Hz. unfold bitutils.Pack3Bytes, u32. rewrite be3.
  rewrite !Z.shiftl_mul_pow2 by lia. change (2 ^ 8) with 256. change (2 ^ 16) with 65536.
  repeat match goal with |- context [?x mod ?m] => rewrite (Z.mod_small x m) by lia end. reflexivity.
Qed.

Theorem computeParity_ok : forall data, bytes data -> 3 <= len data ->
  exists r, computeParity data = Ok r /\ Parity data r.
Proof.
  intros data Hd Hl.
  destruct data as [|a0 [|a1 [|a2 l]]]; try (unfold len in Hl; cbn in Hl; lia).
  pose proof Hd as Hd'. apply bytes_cons in Hd' as [B0 Hd']. apply bytes_cons in Hd' as [B1 Hd'].
  apply bytes_cons in Hd' as [B2 Hd'].
  unfold computeParity.
  change (idx (a0 :: a1 :: a2 :: l) 0) with (Ok a0). change (idx (a0 :: a1 :: a2 :: l) 1) with (Ok a1).
  change (idx (a0 :: a1 :: a2 :: l) 2) with (Ok a2). cbn [bind].
  set (data := a0 :: a1 :: a2 :: l) in *.
  destruct (parityLoop_ok (Z.to_nat (len data * 8)) data 0 a0 a1 a2) as (e0 & e1 & e2 & E & X0 & X1 & X2 & C);
    try assumption; try lia.
  { assert (P : prefix data 0 = be [a0; a1; a2]).
    { unfold prefix. change data with ([a0; a1; a2] ++ l). rewrite be_app.
      assert (L : len ([a0; a1; a2] ++ l) = 3 + len l) by (unfold len; cbn [List.app List.length]; lia).
      rewrite L. pose proof (be_range l Hd') as R. pose proof (len_nonneg _ l). rewrite pow256 in R by lia.
      rewrite pow256 by lia.
      replace (8 * (3 + len l) - 0) with (8 * len l + 24) by lia. rewrite Z.pow_add_r by lia.
      rewrite Z.div_mul_cancel_r by lia. rewrite Z.div_add_l by lia. rewrite Z.div_small by lia. lia. }
    rewrite P, Z.lxor_nilpotent. apply codeword_0. }
  rewrite E. cbn [bind]. rewrite pack3_be by assumption. eexists. split; [reflexivity|]. split.
  - rewrite be3. unfold byte in *. change (2 ^ 24) with 16777216. lia.
  - replace (0 + Z.of_nat (Z.to_nat (len data * 8))) with (8 * len data) in C by lia.
    unfold prefix in C. rewrite Z.sub_diag in C. rewrite Z.div_1_r in C. exact C.
Qed.
