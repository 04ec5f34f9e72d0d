(* The arithmetic of compact position reporting, over the integers and the reals. *)
From Coq Require Import ZArith Reals Lia Lra Psatz.
From Flocq Require Import Core.
From Verif.Spec Require Import Cpr.
Local Open Scope Z_scope.

(* an encoded coordinate: its zone k and its code c *)
Definition encoded (zone x : R) (c k : Z) : Prop :=
  0 <= c < 131072 /\ (Rabs (131072 * (x / zone) - IZR (131072 * k + c)) <= 1 / 2)%R.

Lemma Zfloor_shift : forall x z, Zfloor (x - IZR z) = Zfloor x - z.
Proof.
  intros x z. apply Zfloor_imp. rewrite minus_IZR, plus_IZR, minus_IZR.
  pose proof (Zfloor_lb x). pose proof (Zfloor_ub x). lra.
Qed.

Lemma encode_shift : forall Nb zone x, (17 <= Nb)%Z -> zone <> 0%R ->
  encode Nb zone x = Zfloor (IZR (2 ^ Nb) * (x / zone) + 1 / 2) mod 131072.
Proof.
  intros Nb zone x HN Hz. unfold encode, MOD.
  replace (IZR (2 ^ Nb) * ((x - zone * IZR (Zfloor (x / zone))) / zone) + 1 / 2)%R
    with (IZR (2 ^ Nb) * (x / zone) + 1 / 2 - IZR (2 ^ Nb * Zfloor (x / zone)))%R
    by (rewrite mult_IZR; field; exact Hz).
  rewrite Zfloor_shift. set (y := Zfloor (_ + 1 / 2)). set (f := Zfloor (x / zone)).
  replace Nb with (17 + (Nb - 17)) by ring. rewrite Z.pow_add_r by lia.
  replace (y - 2 ^ 17 * 2 ^ (Nb - 17) * f) with (y + (- (2 ^ (Nb - 17) * f)) * 131072) by (change (2 ^ 17) with 131072; ring).
  apply Z_mod_plus_full.
Qed.

Lemma encoded_of_floor : forall zone x, 
  let y := Zfloor (131072 * (x / zone) + 1 / 2) in encoded zone x (y mod 131072) (y / 131072).
Proof.
  intros zone x y. split; [apply Z.mod_pos_bound; lia|].
  rewrite <- Z.div_mod by lia. unfold y.
  pose proof (Zfloor_lb (131072 * (x / zone) + 1 / 2)). pose proof (Zfloor_ub (131072 * (x / zone) + 1 / 2)).
  apply Rabs_le. lra.
Qed.

Lemma encoded_17 : forall zone x, (0 < zone)%R -> exists k, encoded zone x (encode 17 zone x) k.
Proof.
  intros zone x Hz. rewrite encode_shift by (lia || lra). eexists. apply encoded_of_floor.
Qed.

Lemma encoded_19 : forall zone x, (0 < zone)%R -> exists k, encoded (zone / 4) x (encode 19 zone x) k.
Proof.
  intros zone x Hz. rewrite encode_shift by (lia || lra).
  replace (IZR (2 ^ 19) * (x / zone))%R with (131072 * (x / (zone / 4)))%R.
  - eexists. apply encoded_of_floor.
  - change (IZR (2 ^ 19)) with 524288%R. field. lra.
Qed.

Lemma encoded_near : forall zone x c k, (0 < zone)%R -> encoded zone x c k ->
  (Rabs (x - zone * (IZR k + IZR c / 131072)) <= zone / 262144)%R.
Proof.
  intros zone x c k Hz [Hc H].
  replace (x - zone * (IZR k + IZR c / 131072))%R with (zone / 131072 * (131072 * (x / zone) - IZR (131072 * k + c)))%R
    by (rewrite plus_IZR, mult_IZR; field; lra).
  rewrite Rabs_mult, (Rabs_pos_eq (zone / 131072)) by lra.
  apply Rle_trans with (zone / 131072 * (1 / 2))%R; [|lra].
  apply Rmult_le_compat_l; lra.
Qed.

(* the zone index of the global decoding, from a pair of codes in n and n - 1 zones (turn / n and
   turn / (n - 1) wide): it determines both zones *)
Lemma index_pair : forall turn n x e ke o ko, (0 < turn)%R -> 2 <= n <= 60 ->
  encoded (turn / IZR n) x e ke -> encoded (turn / IZR (n - 1)) x o ko ->
  ((n - 1) * e - n * o + 65536) / 131072 = n * ko - (n - 1) * ke.
Proof.
  intros turn n x e ke o ko Ht Hn [He De] [Ho Do].
  assert (N : (2 <= IZR n)%R) by (apply IZR_le; lia).
  assert (N1 : IZR (n - 1) = (IZR n - 1)%R) by (rewrite minus_IZR; ring).
  set (y := (131072 * (x / turn))%R) in *.
  assert (Ye : (131072 * (x / (turn / IZR n)) = IZR n * y)%R) by (unfold y; field; lra).
  assert (Yo : (131072 * (x / (turn / IZR (n - 1))) = (IZR n - 1) * y)%R) by (unfold y; rewrite N1; field; lra).
  rewrite Ye in De. rewrite Yo in Do. apply Rabs_le_inv in De, Do.
  set (Y := 131072 * ke + e) in *. set (W := 131072 * ko + o) in *.
  assert (B : - n < (n - 1) * Y - n * W < n).
  { split; apply lt_IZR; rewrite minus_IZR, !mult_IZR, N1; try rewrite opp_IZR; nra. }
  replace ((n - 1) * e - n * o + 65536) with ((n * ko - (n - 1) * ke) * 131072 + ((n - 1) * Y - n * W + 65536))
    by (unfold Y, W; ring).
  rewrite Z.div_add_l by lia. rewrite (Z.div_small ((n - 1) * Y - n * W + 65536)) by lia. ring.
Qed.

Lemma index_even : forall n ke ko, 2 <= n -> (n * ko - (n - 1) * ke) mod n = ke mod n.
Proof.
  intros n ke ko Hn. replace (n * ko - (n - 1) * ke) with (ke + (ko - ke) * n) by ring. apply Z_mod_plus_full.
Qed.

Lemma index_odd : forall n ke ko, 2 <= n -> (n * ko - (n - 1) * ke) mod (n - 1) = ko mod (n - 1).
Proof.
  intros n ke ko Hn. replace (n * ko - (n - 1) * ke) with (ko + (ko - ke) * (n - 1)) by ring. apply Z_mod_plus_full.
Qed.

Lemma zone_index_Z : forall n e o, zone_index n e o = ((n - 1) * e - n * o + 65536) / 131072.
Proof.
  intros n e o. unfold zone_index. rewrite <- (Zfloor_div ((n - 1) * e - n * o + 65536) 131072) by lia. f_equal.
  rewrite plus_IZR, !minus_IZR, !mult_IZR, !minus_IZR. lra.
Qed.
