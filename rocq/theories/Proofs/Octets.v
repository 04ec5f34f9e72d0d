(* Bits of a part of a frame. *)
From Verif.Proofs Require Import Tac.
Local Open Scope Z_scope.

Lemma len_app : forall (A : Type) (l m : list A), len (l ++ m) = len l + len m.
Proof. intros. unfold len. rewrite List.app_length. lia. Qed.

Lemma bits_app_r : forall A L i j, 1 <= i -> i <= j -> j <= 8 * len L ->
  bits (8 * len A + i) (8 * len A + j) (A ++ L) = bits i j L.
Proof.
  intros A L i j Hi Hij Hj. unfold bits. rewrite len_app, be_app.
  rewrite pow256 by apply len_nonneg.
  replace (8 * (len A + len L) - (8 * len A + j)) with (8 * len L - j) by lia.
  replace (8 * len A + j - (8 * len A + i) + 1) with (j - i + 1) by lia.
  replace (2 ^ (8 * len L)) with (2 ^ (i - 1) * 2 ^ (j - i + 1) * 2 ^ (8 * len L - j))
    by (rewrite <- !Z.pow_add_r by lia; f_equal; lia).
  rewrite !Z.mul_assoc, Z.add_comm, Z.div_add by (apply Z.pow_nonzero; lia).
  rewrite Z.mod_add by (apply Z.pow_nonzero; lia). reflexivity.
Qed.

Lemma bits_app_l : forall L B i j, bytes B -> 1 <= i -> i <= j -> j <= 8 * len L ->
  bits i j (L ++ B) = bits i j L.
Proof.
  intros L B i j HB Hi Hij Hj. unfold bits. rewrite len_app, be_app.
  pose proof (be_range B HB) as R. pose proof (len_nonneg _ B) as N. rewrite pow256 in * by assumption.
  replace (8 * (len L + len B) - j) with (8 * len B + (8 * len L - j)) by lia.
  rewrite Z.pow_add_r by lia. rewrite <- Z.div_div; [|apply Z.pow_nonzero; lia|apply Z.pow_pos_nonneg; lia].
  rewrite Z.add_comm, Z.div_add by (apply Z.pow_nonzero; lia). rewrite (Z.div_small (be B)) by lia. reflexivity.
Qed.

Lemma bytes_app : forall l m, bytes (l ++ m) <-> bytes l /\ bytes m.
Proof. intros. unfold bytes. apply List.Forall_app. Qed.

Lemma octets_split : forall a b f, 1 <= a -> a <= b -> b <= len f ->
  exists A B, f = A ++ octets a b f ++ B /\ len A = a - 1 /\ len (octets a b f) = b - a + 1.
Proof.
  intros a b f Ha Hab Hb. unfold octets.
  exists (List.firstn (Z.to_nat (a - 1)) f), (List.skipn (Z.to_nat (b - a + 1)) (List.skipn (Z.to_nat (a - 1)) f)).
  rewrite List.firstn_skipn, List.firstn_skipn. split; [reflexivity|].
  unfold len in *. rewrite !List.firstn_length, List.skipn_length. lia.
Qed.

Lemma octets_bytes : forall a b f, bytes f -> bytes (octets a b f).
Proof.
  intros a b f H. unfold octets.
  rewrite <- (List.firstn_skipn (Z.to_nat (a - 1)) f) in H. apply bytes_app in H as [_ H].
  rewrite <- (List.firstn_skipn (Z.to_nat (b - a + 1)) (List.skipn _ f)) in H. apply bytes_app in H as [H _]. exact H.
Qed.

Lemma octets_len : forall a b f, 1 <= a -> a <= b -> b <= len f -> len (octets a b f) = b - a + 1.
Proof. intros. destruct (octets_split a b f) as (? & ? & _ & _ & H2); auto. Qed.

(* bit i of a part of a frame *)
Lemma bits_octets : forall a b f i j, bytes f -> 1 <= a -> a <= b -> b <= len f ->
  1 <= i -> i <= j -> j <= 8 * (b - a + 1) ->
  bits i j (octets a b f) = bits (8 * (a - 1) + i) (8 * (a - 1) + j) f.
Proof.
  intros a b f i j Hf Ha Hab Hb Hi Hij Hj. destruct (octets_split a b f Ha Hab Hb) as (A & B & E & EA & EO).
  rewrite E at 2. assert (HB : bytes B) by (rewrite E in Hf; apply bytes_app in Hf as [_ Hf]; apply bytes_app in Hf; tauto).
  rewrite <- EA. rewrite bits_app_r; [|lia|lia|rewrite len_app; pose proof (len_nonneg _ B); lia].
  rewrite bits_app_l; auto. lia.
Qed.
