(* Arithmetic of polynomials over GF(2), and the Mode S generator. *)
From Verif.Proofs Require Import Tac.
From Verif.Spec Require Import Crc.
From Coq Require Import FSets.FMapPositive MSets.MSetPositive.
Local Open Scope Z_scope.

Lemma lxor_double : forall a b, 2 * Z.lxor a b = Z.lxor (2 * a) (2 * b).
Proof.
  intros. rewrite !(Z.mul_comm 2). change 2 with (2 ^ 1).
  rewrite <- !Z.shiftl_mul_pow2 by lia. apply Z.shiftl_lxor.
Qed.

Lemma lxor_4 : forall a b c d, Z.lxor (Z.lxor a b) (Z.lxor c d) = Z.lxor (Z.lxor a c) (Z.lxor b d).
Proof.
  intros. apply Z.bits_inj'. intros n Hn. rewrite !Z.lxor_spec.
  destruct (Z.testbit a n), (Z.testbit b n), (Z.testbit c n), (Z.testbit d n); reflexivity.
Qed.

Lemma clmul_0 : forall b, clmul 0 b = 0.
Proof. reflexivity. Qed.

Lemma clmul_double : forall a b, 0 <= a -> clmul (2 * a) b = 2 * clmul a b.
Proof. intros [|p|p] b H; [reflexivity|reflexivity|lia]. Qed.

Lemma clmul_double1 : forall a b, 0 <= a -> clmul (2 * a + 1) b = Z.lxor b (2 * clmul a b).
Proof. intros [|p|p] b H; [cbn; rewrite Z.lxor_0_r; reflexivity|reflexivity|lia]. Qed.

Lemma clmul_1 : forall b, clmul 1 b = b.
Proof. reflexivity. Qed.

Lemma half : forall a, 0 <= a -> exists a' (o : bool), 0 <= a' /\ a = 2 * a' + (if o then 1 else 0) /\ (0 < a -> a' < a).
Proof.
  intros a H. exists (a / 2), (Z.odd a). pose proof (Z.div_mod a 2 ltac:(lia)) as E.
  rewrite Zmod_odd in E. split; [apply Z.div_pos; lia|]. split; [exact E|].
  intros. apply Z.div_lt; lia.
Qed.

Lemma lxor_bit0 : forall a b (x y : bool), 0 <= a -> 0 <= b ->
  Z.lxor (2 * a + (if x then 1 else 0)) (2 * b + (if y then 1 else 0))
  = 2 * Z.lxor a b + (if xorb x y then 1 else 0).
Proof.
  intros. apply Z.bits_inj'. intros n Hn. rewrite Z.lxor_spec.
  assert (T : forall c (z : bool), Z.testbit (2 * c + (if z then 1 else 0)) n =
      if n =? 0 then z else Z.testbit c (n - 1)).
  { intros c z. destruct (Z.eqb_spec n 0) as [->|N].
    - change (if z then 1 else 0) with (Z.b2z z). apply Z.testbit_0_r.
    - change (if z then 1 else 0) with (Z.b2z z). replace n with (Z.succ (n - 1)) at 1 by lia.
      apply Z.testbit_succ_r. lia. }
  rewrite !T. destruct (n =? 0); [reflexivity|]. rewrite Z.lxor_spec. reflexivity.
Qed.

Lemma clmul_lxor : forall a a' b, 0 <= a -> 0 <= a' ->
  clmul (Z.lxor a a') b = Z.lxor (clmul a b) (clmul a' b).
Proof.
  intros a a' b Ha. revert a Ha a' b.
  apply (Zlt_0_ind (fun a => forall a' b, 0 <= a' -> clmul (Z.lxor a a') b = Z.lxor (clmul a b) (clmul a' b))).
  intros a IH Ha a' b Ha'.
  destruct (half a Ha) as (h & o & Hh & E & L). destruct (half a' Ha') as (h' & o' & Hh' & E' & L').
  destruct (Z.eq_dec a 0) as [->|N]; [rewrite Z.lxor_0_l; reflexivity|].
  rewrite E, E', lxor_bit0 by assumption.
  assert (I : clmul (Z.lxor h h') b = Z.lxor (clmul h b) (clmul h' b)) by (apply IH; lia).
  assert (P : 0 <= Z.lxor h h') by (apply Z.lxor_nonneg; lia).
  assert (D : forall c (z : bool), 0 <= c -> clmul (2 * c + (if z then 1 else 0)) b
     = Z.lxor (if z then b else 0) (2 * clmul c b)).
  { intros c [] Hc; [apply clmul_double1; exact Hc|]. rewrite Z.add_0_r, Z.lxor_0_l. apply clmul_double, Hc. }
  rewrite !D by assumption. rewrite I, lxor_double, (lxor_4 (if o then b else 0)). f_equal.
  destruct o, o'; cbn [xorb]; rewrite ?Z.lxor_nilpotent, ?Z.lxor_0_l, ?Z.lxor_0_r; reflexivity.
Qed.

(* ---- codewords ---- *)

Lemma G_pos : 0 < G. Proof. reflexivity. Qed.

Lemma codeword_0 : codeword 0.
Proof. exists 0. split; [lia|reflexivity]. Qed.

Lemma codeword_G : codeword G.
Proof. exists 1. split; [lia|reflexivity]. Qed.

Lemma codeword_lxor : forall x y, codeword x -> codeword y -> codeword (Z.lxor x y).
Proof.
  intros x y (q & Hq & ->) (q' & Hq' & ->). exists (Z.lxor q q'). split; [apply Z.lxor_nonneg; lia|].
  symmetry. apply clmul_lxor; assumption.
Qed.

Lemma codeword_double : forall x, codeword x -> codeword (2 * x).
Proof.
  intros x (q & Hq & ->). exists (2 * q). split; [lia|]. symmetry. apply clmul_double. exact Hq.
Qed.

Lemma lxor_cancel : forall x y, Z.lxor (Z.lxor x y) y = x.
Proof. intros. rewrite Z.lxor_assoc, Z.lxor_nilpotent, Z.lxor_0_r. reflexivity. Qed.

Lemma clmul_G_log : forall p, 2 ^ (24 + Z.log2 (Zpos p)) <= clmul (Zpos p) G < 2 ^ (25 + Z.log2 (Zpos p)).
Proof.
  induction p as [p IH|p IH|].
  - assert (E : clmul (Z.pos p~1) G = Z.lxor G (2 * clmul (Zpos p) G)) by reflexivity.
    rewrite E. clear E. set (x := clmul (Z.pos p) G) in *.
    replace (Z.log2 (Z.pos p~1)) with (Z.log2 (Zpos p) + 1).
    2:{ change (Z.pos p~1) with (2 * Zpos p + 1). rewrite Z.log2_succ_double by lia. lia. }
    set (l := Z.log2 (Zpos p)) in *. assert (0 <= l) by apply Z.log2_nonneg.
    replace (24 + (l + 1)) with (Z.succ (24 + l)) by lia. replace (25 + (l + 1)) with (Z.succ (25 + l)) by lia.
    rewrite !Z.pow_succ_r by lia.
    assert (E25 : 2 ^ 25 <= 2 ^ (25 + l)) by (apply Z.pow_le_mono_r; lia).
    assert (E25' : 2 ^ (25 + l) = 2 * 2 ^ (24 + l)) by (rewrite <- Z.pow_succ_r by lia; f_equal; lia).
    assert (Hx : 2 ^ (25 + l) <= 2 * x < 2 ^ (26 + l)).
    { replace (26 + l) with (Z.succ (25 + l)) by lia. rewrite Z.pow_succ_r by lia. lia. }
    assert (Lx : Z.log2 (2 * x) = 25 + l).
    { apply Z.log2_unique; [lia|]. replace (Z.succ (25 + l)) with (26 + l) by lia. exact Hx. }
    assert (B : Z.testbit (Z.lxor G (2 * x)) (25 + l) = true).
    { rewrite Z.lxor_spec. rewrite <- Lx. rewrite Z.bit_log2 by lia.
      rewrite (testbit_high G 25); [reflexivity|lia|vm_compute; split; [discriminate|reflexivity]|lia]. }
    assert (NN : 0 <= Z.lxor G (2 * x)) by (pose proof G_pos; apply Z.lxor_nonneg; lia).
    assert (L2 : Z.log2 (Z.lxor G (2 * x)) <= 25 + l).
    { etransitivity; [apply Z.log2_lxor; [pose proof G_pos; lia|lia]|]. rewrite Lx. change (Z.log2 G) with 24. lia. }
    assert (NZ : Z.lxor G (2 * x) <> 0) by (intros Z0; rewrite Z0, Z.bits_0 in B; discriminate).
    pose proof (Z.log2_spec (Z.lxor G (2 * x)) ltac:(lia)) as [S1 S2].
    assert (L3 : 25 + l <= Z.log2 (Z.lxor G (2 * x))).
    { destruct (Z_le_gt_dec (25 + l) (Z.log2 (Z.lxor G (2 * x)))); [assumption|].
      rewrite Z.bits_above_log2 in B; [discriminate|lia|lia]. }
    replace (Z.log2 (Z.lxor G (2 * x))) with (25 + l) in * by lia.
    rewrite Z.pow_succ_r in S2 by lia. lia.
  - assert (E : clmul (Z.pos p~0) G = 2 * clmul (Zpos p) G) by reflexivity.
    rewrite E. clear E. set (x := clmul (Z.pos p) G) in *.
    replace (Z.log2 (Z.pos p~0)) with (Z.log2 (Zpos p) + 1).
    2:{ change (Z.pos p~0) with (2 * Zpos p). rewrite Z.log2_double by lia. lia. }
    set (l := Z.log2 (Zpos p)) in *. assert (0 <= l) by apply Z.log2_nonneg.
    replace (24 + (l + 1)) with (Z.succ (24 + l)) by lia. replace (25 + (l + 1)) with (Z.succ (25 + l)) by lia.
    rewrite !Z.pow_succ_r by lia. lia.
  - vm_compute. split; [discriminate|reflexivity].
Qed.

Lemma codeword_small : forall x, codeword x -> x < 2 ^ 24 -> x = 0.
Proof.
  intros x (q & Hq & ->) Hx. destruct q as [|p|p]; [reflexivity| |lia].
  pose proof (clmul_G_log p) as [L _]. pose proof (Z.log2_nonneg (Zpos p)).
  assert (2 ^ 24 <= 2 ^ (24 + Z.log2 (Z.pos p))) by (apply Z.pow_le_mono_r; lia). lia.
Qed.

Lemma codeword_nonneg : forall x, codeword x -> 0 <= x.
Proof.
  intros x (q & Hq & ->). destruct q as [|p|p]; [reflexivity| |lia].
  pose proof (clmul_G_log p) as [L _]. 
  pose proof (Z.pow_nonneg 2 (24 + Z.log2 (Z.pos p))). lia.
Qed.

(* a codeword divisible by x is x times a codeword *)
Lemma codeword_half : forall x, codeword (2 * x) -> codeword x.
Proof.
  intros x (q & Hq & E). destruct (half q Hq) as (h & o & Hh & -> & _).
  destruct o.
  - rewrite clmul_double1 in E by exact Hh.
    apply (f_equal Z.odd) in E. rewrite Z.odd_mul in E. cbn [Z.odd andb] in E.
    rewrite <- Z.bit0_odd, Z.lxor_spec, !Z.bit0_odd, Z.odd_mul in E. cbn in E. discriminate.
  - rewrite Z.add_0_r, clmul_double in E by exact Hh. exists h. split; [exact Hh|lia].
Qed.

Lemma codeword_shift : forall n x, codeword (x * 2 ^ Z.of_nat n) -> codeword x.
Proof.
  induction n as [|n IH]; intros x H.
  - rewrite Z.mul_1_r in H. exact H.
  - apply codeword_half. apply IH. rewrite Nat2Z.inj_succ, Z.pow_succ_r in H by lia.
    replace (2 * x * 2 ^ Z.of_nat n) with (x * (2 * 2 ^ Z.of_nat n)) by ring. exact H.
Qed.

Lemma parity_unique : forall body r r', Parity body r -> Parity body r' -> r = r'.
Proof.
  intros body r r' [R C] [R' C']. pose proof (codeword_lxor _ _ C C') as D.
  rewrite lxor_4, Z.lxor_nilpotent, Z.lxor_0_l in D.
  apply codeword_small in D.
  - apply Z.lxor_eq in D. exact D.
  - destruct (Z.eq_dec (Z.lxor r r') 0) as [->|N]; [lia|].
    assert (0 <= Z.lxor r r') by (apply Z.lxor_nonneg; lia).
    apply Z.log2_lt_pow2; [lia|]. eapply Z.le_lt_trans; [apply Z.log2_lxor; lia|].
    apply Z.max_lub_lt; (destruct (Z.eq_dec r 0), (Z.eq_dec r' 0); subst; try (cbn; lia); try (apply Z.log2_lt_pow2; lia)).
Qed.

(* ---- weight ---- *)

(* parity of the number of one bits *)
Fixpoint podd (p : positive) : bool :=
  match p with xH => true | xO p => podd p | xI p => negb (podd p) end.
Definition wodd (z : Z) : bool := match z with Zpos p => podd p | _ => false end.

Lemma wodd_double : forall a, wodd (2 * a) = wodd a.
Proof. intros [|p|p]; reflexivity. Qed.
Lemma wodd_bit : forall a (o : bool), 0 <= a -> wodd (2 * a + (if o then 1 else 0)) = xorb (wodd a) o.
Proof.
  intros a [] Ha; [|rewrite Z.add_0_r, wodd_double; destruct (wodd a); reflexivity].
  destruct a as [|p|p]; [reflexivity| |lia]. cbn. destruct (podd p); reflexivity.
Qed.
Lemma wodd_lxor : forall a b, 0 <= a -> 0 <= b -> wodd (Z.lxor a b) = xorb (wodd a) (wodd b).
Proof.
  intros a b Ha. revert a Ha b.
  apply (Zlt_0_ind (fun a => forall b, 0 <= b -> wodd (Z.lxor a b) = xorb (wodd a) (wodd b))).
  intros a IH Ha b Hb.
  destruct (half a Ha) as (h & o & Hh & E & L). destruct (half b Hb) as (h' & o' & Hh' & E' & L').
  destruct (Z.eq_dec a 0) as [->|N]; [rewrite Z.lxor_0_l; destruct (wodd b); reflexivity|].
  rewrite E, E', lxor_bit0 by assumption.
  rewrite !wodd_bit by (try apply Z.lxor_nonneg; lia). rewrite IH by lia.
  destruct (wodd h), (wodd h'), o, o'; reflexivity.
Qed.

Lemma codeword_even : forall x, codeword x -> wodd x = false.
Proof.
  intros x (q & Hq & ->). revert q Hq.
  apply (Zlt_0_ind (fun q => wodd (clmul q G) = false)). intros q IH Hq.
  destruct (half q Hq) as (h & o & Hh & E & L).
  destruct (Z.eq_dec q 0) as [->|N]; [reflexivity|]. specialize (IH h ltac:(lia)). rewrite E.
  pose proof (codeword_nonneg (clmul h G) ltac:(exists h; split; [lia|reflexivity])).
  destruct o.
  - rewrite clmul_double1 by lia. rewrite wodd_lxor by (pose proof G_pos; lia). rewrite wodd_double, IH. reflexivity.
  - rewrite Z.add_0_r, clmul_double, wodd_double by lia. exact IH.
Qed.
