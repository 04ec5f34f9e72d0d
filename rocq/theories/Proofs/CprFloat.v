(* Compact position reporting in binary64: which parts of the computation are exact, and the
   error of the others. *)
From Verif Require Import GoBase.
From Coq Require Import ZArith Reals Lia Lra Psatz.
From Coq Require Import Floats.SpecFloat.
From Flocq Require Import Core.
From Verif.Proofs Require Import FloatR FloatOps.
From Verif.Model Require Import Geo.
Local Open Scope Z_scope.

(* x is exactly a / 2^17 *)
Definition dy (x : f64) (a : Z) : Prop := fl x (IZR a / 131072).

Lemma dy_bpow : forall a, (IZR a / 131072 = IZR a * bpow radix2 (-17))%R.
Proof. intros a. unfold Rdiv. f_equal. Qed.

Lemma dy_rnd : forall a, Z.abs a < 2 ^ 53 -> rnd (IZR a / 131072) = (IZR a / 131072)%R.
Proof. intros a H. rewrite dy_bpow. apply rnd_exact; lia. Qed.

Lemma dy_big : forall a, Z.abs a < 2 ^ 53 -> (Rabs (IZR a / 131072) <= big)%R.
Proof.
  intros a H. rewrite dy_bpow, Rabs_mult, <- abs_IZR. rewrite (Rabs_pos_eq (bpow _ _)) by apply bpow_ge_0.
  apply Rle_trans with (bpow radix2 53 * bpow radix2 (-17))%R.
  - apply Rmult_le_compat_r; [apply bpow_ge_0|]. change (bpow radix2 53) with (IZR (2 ^ 53)). apply IZR_le. lia.
  - rewrite <- bpow_plus. apply bpow_le. lia.
Qed.

Lemma dy_add : forall x y a b, dy x a -> dy y b -> Z.abs (a + b) < 2 ^ 53 -> dy (f64_add x y) (a + b).
Proof.
  intros x y a b Hx Hy H. unfold dy. rewrite <- dy_rnd by exact H.
  replace (IZR (a + b) / 131072)%R with (IZR a / 131072 + IZR b / 131072)%R by (rewrite plus_IZR; field).
  apply fl_add; auto. replace (IZR a / 131072 + IZR b / 131072)%R with (IZR (a + b) / 131072)%R by (rewrite plus_IZR; field).
  apply dy_big; exact H.
Qed.

Lemma dy_sub : forall x y a b, dy x a -> dy y b -> Z.abs (a - b) < 2 ^ 53 -> dy (f64_sub x y) (a - b).
Proof.
  intros x y a b Hx Hy H. unfold dy. rewrite <- dy_rnd by exact H.
  replace (IZR (a - b) / 131072)%R with (IZR a / 131072 - IZR b / 131072)%R by (rewrite minus_IZR; field).
  apply fl_sub; auto. replace (IZR a / 131072 - IZR b / 131072)%R with (IZR (a - b) / 131072)%R by (rewrite minus_IZR; field).
  apply dy_big; exact H.
Qed.

Lemma dy_int : forall x n, fl x (IZR n) <-> dy x (131072 * n).
Proof.
  intros x n. unfold dy. rewrite mult_IZR. replace (131072 * IZR n / 131072)%R with (IZR n) by field. tauto.
Qed.

Lemma dy_mul : forall x y n a, fl x (IZR n) -> dy y a -> Z.abs (n * a) < 2 ^ 53 -> dy (f64_mul x y) (n * a).
Proof.
  intros x y n a Hx Hy H. unfold dy. rewrite <- dy_rnd by exact H.
  replace (IZR (n * a) / 131072)%R with (IZR n * (IZR a / 131072))%R by (rewrite mult_IZR; field).
  apply fl_mul; auto. replace (IZR n * (IZR a / 131072))%R with (IZR (n * a) / 131072)%R by (rewrite mult_IZR; field).
  apply dy_big; exact H.
Qed.

Lemma dy_mul' : forall x y n a, dy x a -> fl y (IZR n) -> Z.abs (a * n) < 2 ^ 53 -> dy (f64_mul x y) (a * n).
Proof.
  intros x y n a Hx Hy H. unfold dy. rewrite <- dy_rnd by exact H.
  replace (IZR (a * n) / 131072)%R with ((IZR a / 131072) * IZR n)%R by (rewrite mult_IZR; field).
  apply fl_mul; auto. replace ((IZR a / 131072) * IZR n)%R with (IZR (a * n) / 131072)%R by (rewrite mult_IZR; field).
  apply dy_big; exact H.
Qed.

Lemma dy_floor : forall x a, dy x a -> fl (f64_floor x) (IZR (a / 131072)).
Proof.
  intros x a H. replace (a / 131072) with (Zfloor (IZR a / 131072)).
  - apply fl_floor. exact H.
  - apply (Zfloor_div a 131072). lia.
Qed.

Lemma dy_code : forall c, 0 <= c < 2 ^ 32 -> dy (f64_div (f64_of_Z c) (f64_lit 131072 1)) c.
Proof.
  intros c H. unfold dy. rewrite <- dy_rnd by lia.
  assert (L : fl (f64_lit 131072 1) 131072).
  { replace (f64_lit 131072 1) with (f64_of_Z 131072) by (vm_compute; reflexivity). apply (fl_of_Z 131072). lia. }
  apply fl_div; [apply fl_of_Z; lia|exact L|lra|apply dy_big; lia].
Qed.

Lemma mod_int : forall m x y j n, fl x (IZR j) -> fl y (IZR n) -> Z.abs j < 2 ^ 20 -> 0 < n < 2 ^ 20 ->
  fl (mod_ (floats m) x y) (IZR (j mod n)).
Proof.
  intros m x y j n Hx Hy Hj Hn. unfold mod_, floats. cbn [sub mul floor div].
  assert (N : (IZR n <> 0)%R) by (apply not_0_IZR; lia).
  assert (B : (Rabs (IZR j / IZR n) <= big)%R).
  { unfold Rdiv. rewrite Rabs_mult, <- abs_IZR. rewrite Rabs_inv, <- abs_IZR.
    apply Rle_trans with (IZR (Z.abs j)).
    - rewrite <- (Rmult_1_r (IZR (Z.abs j))) at 2. apply Rmult_le_compat_l; [apply IZR_le; lia|].
      rewrite <- Rinv_1. apply Rinv_le; [lra|]. apply IZR_le. lia.
    - apply Rle_trans with (IZR (2 ^ 20)); [apply IZR_le; lia|]. change (IZR (2 ^ 20)) with (bpow radix2 20). apply bpow_le. lia. }
  pose proof (fl_floor _ _ (fl_div _ _ _ _ Hx Hy N B)) as F. rewrite Zfloor_rnd_div in F by assumption.
  apply dy_int in Hx. assert (Hm : dy (f64_mul y (f64_floor (f64_div x y))) (n * (131072 * (j / n)))).
  { apply dy_mul; [exact Hy|apply dy_int; exact F|]. 
    pose proof (Z.div_mod j n ltac:(lia)). pose proof (Z.mod_pos_bound j n ltac:(lia)). nia. }
  apply dy_int. replace (131072 * (j mod n)) with (131072 * j - n * (131072 * (j / n))).
  - apply dy_sub; auto. pose proof (Z.div_mod j n ltac:(lia)). pose proof (Z.mod_pos_bound j n ltac:(lia)). nia.
  - pose proof (Z.div_mod j n ltac:(lia)). nia.
Qed.

Ltac flc := match goal with
  | |- fl (f64_lit ?n 1) _ => replace (f64_lit n 1) with (f64_of_Z n) by (vm_compute; reflexivity); apply (fl_of_Z n); lia
  | |- fl (lit (floats _) ?n 1) _ => change (lit (floats _) n 1) with (f64_lit n 1); flc
  end.

Lemma dy_half : dy (f64_lit 1 2) 65536.
Proof.
  replace (f64_lit 1 2) with (f64_div (f64_of_Z 1) (f64_of_Z 2)) by (vm_compute; reflexivity).
  unfold dy. rewrite <- dy_rnd by lia. replace (IZR 65536 / 131072)%R with (1 / 2)%R by lra.
  apply fl_div; [apply (fl_of_Z 1); lia|apply (fl_of_Z 2); lia|lra|].
  rewrite Rabs_pos_eq by lra. apply Rle_trans with (bpow radix2 0); [cbn; lra|apply bpow_le; lia].
Qed.

Lemma big_le : forall r, (Rabs r <= 1000000)%R -> (Rabs r <= big)%R.
Proof.
  intros r H. apply Rle_trans with (1 := H). apply Rle_trans with (bpow radix2 20); [cbn; lra|]. apply bpow_le. lia.
Qed.

Lemma index_left : forall x y a b e o, fl x (IZR a) -> fl y (IZR b) -> Z.abs a <= 60 -> Z.abs b <= 60 ->
  0 <= e < 131072 -> 0 <= o < 131072 ->
  fl (f64_floor (f64_add (f64_sub (f64_mul x (f64_div (f64_of_Z e) (f64_lit 131072 1)))
                                  (f64_mul y (f64_div (f64_of_Z o) (f64_lit 131072 1)))) (f64_lit 1 2)))
     (IZR ((a * e - b * o + 65536) / 131072)).
Proof.
  intros x y a b e o Hx Hy Ha Hb He Ho. apply dy_floor. apply dy_add; [|apply dy_half|nia].
  apply dy_sub; [| |nia]; apply dy_mul; try assumption; try nia; apply dy_code; lia.
Qed.

Lemma index_right : forall x y a b e o, fl x (IZR a) -> fl y (IZR b) -> Z.abs a <= 60 -> Z.abs b <= 60 ->
  0 <= e < 131072 -> 0 <= o < 131072 ->
  fl (f64_floor (f64_add (f64_sub (f64_mul (f64_div (f64_of_Z e) (f64_lit 131072 1)) x)
                                  (f64_mul (f64_div (f64_of_Z o) (f64_lit 131072 1)) y)) (f64_lit 1 2)))
     (IZR ((a * e - b * o + 65536) / 131072)).
Proof.
  intros x y a b e o Hx Hy Ha Hb He Ho. apply dy_floor. apply dy_add; [|apply dy_half|nia].
  replace (a * e) with (e * a) by ring. replace (b * o) with (o * b) by ring.
  apply dy_sub; [| |nia]; apply dy_mul'; try assumption; try nia; apply dy_code; lia.
Qed.

(* mod(j, n) + code *)
Lemma zone_sum : forall m x y j n c, fl x (IZR j) -> fl y (IZR n) -> Z.abs j < 2 ^ 20 -> 0 < n <= 60 -> 0 <= c < 131072 ->
  dy (f64_add (mod_ (floats m) x y) (f64_div (f64_of_Z c) (f64_lit 131072 1))) (131072 * (j mod n) + c).
Proof.
  intros m x y j n c Hx Hy Hj Hn Hc. pose proof (Z.mod_pos_bound j n ltac:(lia)).
  apply dy_add; [apply dy_int, mod_int; auto; lia|apply dy_code; lia|lia].
Qed.

Lemma scaled : forall x y c ex T, about x c ex -> dy y T -> (0 < c <= 360)%R -> (ex <= 1)%R -> 0 <= T < 131072 * 60 ->
  (c * (IZR T / 131072) <= 400)%R ->
  about (f64_mul x y) (c * (IZR T / 131072)) (60 * ex + bpow radix2 (-44)).
Proof.
  intros x y c ex T (vx & Fx & Ex) Hy Hc Hex HT Hb.
  assert (Q : (0 <= IZR T / 131072 <= 60)%R).
  { assert (0 <= IZR T <= 131072 * 60)%R by (split; [apply IZR_le; lia|rewrite <- mult_IZR; apply IZR_le; lia]). lra. }
  apply Rabs_le_inv in Ex. set (t := (IZR T / 131072)%R) in *.
  assert (B : (Rabs (vx * t) <= 512)%R).
  { apply Rabs_le. assert (vx * t = c * t + (vx - c) * t)%R by ring. nra. }
  exists (rnd (vx * t)). split.
  - apply fl_mul; [exact Fx|exact Hy|apply big_le; lra].
  - pose proof (rnd_err 9 (vx * t) ltac:(lia) B) as R. change (9 - 53) with (-44) in R.
    apply Rabs_le_inv in R. apply Rabs_le. assert (vx * t = c * t + (vx - c) * t)%R by ring. nra.
Qed.

Lemma about_weaken : forall x r e e', about x r e -> (e <= e')%R -> about x r e'.
Proof. intros x r e e' (v & F & H) L. exists v. split; [exact F|lra]. Qed.

Lemma about_fl : forall x r, fl x r -> about x r 0.
Proof. intros x r F. exists r. split; [exact F|]. rewrite Rminus_diag_eq, Rabs_R0 by reflexivity. lra. Qed.
