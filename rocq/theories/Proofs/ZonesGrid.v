(* C107: the number of longitude zones at the latitudes airborne position messages stand for. *)
From Verif Require Import GoBase.
From Verif.Model Require Import Geo.
From Coq Require Import ZArith Reals Lia Lra Psatz List.
From Coq Require Import Floats.SpecFloat.
From Flocq Require Import Core.
From Verif.Spec Require Import Binary64 Cpr Geodesy MathLib ZoneTable Precise Sent.
From Verif.Proofs Require Import FloatR FloatOps CprFloat CprGlobal CprLocal GeoReals ZonesReal ZonesFloat ZoneTable ZonesFine Equator.
Import ListNotations.
Local Open Scope R_scope.

(* in units of 1 / (N * 131072 * 10^8) degree, the latitudes are the multiples of 36 * 10^9; those of the table are at
   least d of these units from them *)
Definition separate (N d t : Z) : bool :=
  (let r := (t * N * 131072) mod 36000000000 in (d <=? r) && (r <=? 36000000000 - d))%Z.

Lemma rows_59 : forallb (fun kt => separate 59 (8 * 59 * 131072) (snd kt)) nl_table = true.
Proof. vm_compute. reflexivity. Qed.

Lemma rows_60 : forallb (fun kt => (snd kt =? 8700000000)%Z || separate 60 (8 * 60 * 131072) (snd kt)) nl_table = true.
Proof. vm_compute. reflexivity. Qed.

Lemma separate_ok : forall N d t T, separate N d t = true -> (36000000000 * T + d <= t * N * 131072 \/ t * N * 131072 <= 36000000000 * T - d)%Z.
Proof.
  intros N d t T H. unfold separate in H. apply andb_prop in H. destruct H as [H1 H2]. apply Z.leb_le in H1, H2.
  pose proof (Z.div_mod (t * N * 131072) 36000000000 ltac:(lia)) as D.
  set (b := (t * N * 131072)%Z) in *. set (r := (b mod 36000000000)%Z) in *. set (q := (b / 36000000000)%Z) in *. clearbody b r q.
  destruct (Z_le_gt_dec T q); [left|right]; lia.
Qed.

Lemma separate_away : forall N d t T, (1 <= N)%Z -> separate N (d * N * 131072) t = true ->
  IZR d / 100000000 <= Rabs (360 / IZR N * (IZR T / 131072) - degrees t).
Proof.
  intros N d t T HN S. apply (separate_ok _ _ _ T) in S. assert (NR : 1 <= IZR N) by (apply IZR_le; lia).
  assert (E : (360 / IZR N * (IZR T / 131072) - degrees t) * (IZR N * 13107200000000) = IZR (36000000000 * T - t * N * 131072)).
  { rewrite minus_IZR, !mult_IZR. unfold degrees. field. lra. }
  set (g := 360 / IZR N * (IZR T / 131072) - degrees t) in *. clearbody g.
  destruct S as [S|S].
  - apply Rle_trans with (- g); [|rewrite <- Rabs_Ropp; apply Rle_abs].
    assert (L : (36000000000 * T - t * N * 131072 <= - (d * N * 131072))%Z) by lia.
    apply IZR_le in L. rewrite <- E, opp_IZR, !mult_IZR in L. apply Rmult_le_reg_r with (IZR N * 13107200000000); lra.
  - apply Rle_trans with g; [|apply Rle_abs].
    assert (L : (d * N * 131072 <= 36000000000 * T - t * N * 131072)%Z) by lia.
    apply IZR_le in L. rewrite <- E, !mult_IZR in L. apply Rmult_le_reg_r with (IZR N * 13107200000000); lra.
Qed.

(* the latitude number T in N zones *)
Definition grid (N T : Z) : R := 360 / IZR N * (IZR T / 131072).

Lemma grid_abs : forall N T, (1 <= N)%Z -> Rabs (grid N T) = grid N (Z.abs T).
Proof.
  intros N T H. unfold grid. assert (1 <= IZR N) by (apply IZR_le; lia).
  rewrite Rabs_mult, (Rabs_pos_eq (360 / IZR N)) by (apply Rlt_le, Rdiv_lt_0_compat; lra). f_equal.
  unfold Rdiv. rewrite Rabs_mult, (Rabs_pos_eq (/ 131072)), <- abs_IZR by lra. reflexivity.
Qed.

Lemma grid_away : forall N T, (N = 59 \/ N = 60)%Z -> (N = 60%Z /\ Rabs (grid N T) = 87) \/
  away (8 / 100000000) (grid N T) /\ (Rabs (grid N T) <= 87 - 0.0000124 \/ 87 < Rabs (grid N T)).
Proof.
  intros N T [-> | ->].
  - right. split.
    + intros k t H. rewrite grid_abs by lia. unfold grid. apply (separate_away 59 8); [lia|].
      exact (proj1 (forallb_forall _ _) rows_59 _ H).
    + rewrite grid_abs by lia. set (A := Z.abs T). unfold grid.
      assert (C : (A <= 1868868 \/ 1868869 <= A)%Z) by lia. destruct C as [C|C]; apply IZR_le in C; [left|right]; lra.
  - rewrite grid_abs by lia. assert (0 <= Z.abs T)%Z by lia.
    destruct (Z.eq_dec (Z.abs T) 1900544) as [E|E].
    { left. split; [reflexivity|]. rewrite E. unfold grid. lra. }
    right. split.
    + intros k t H0. rewrite grid_abs by lia. pose proof (proj1 (forallb_forall _ _) rows_60 _ H0) as R. cbn [snd] in R.
      apply Bool.orb_prop in R. destruct R as [R|R].
      * apply Z.eqb_eq in R. subst t. unfold grid, degrees. set (A := Z.abs T) in *.
        assert (C : (A <= 1900543 \/ 1900545 <= A)%Z) by lia. destruct C as [C|C]; apply IZR_le in C;
          [rewrite <- Rabs_Ropp; eapply Rle_trans; [|apply Rle_abs]|eapply Rle_trans; [|apply Rle_abs]]; lra.
      * apply (separate_away 60 8); [lia|exact R].
    + set (A := Z.abs T) in *. unfold grid.
      assert (C : (A <= 1900543 \/ 1900545 <= A)%Z) by lia. destruct C as [C|C]; apply IZR_le in C; [left|right]; lra.
Qed.

Lemma zones_abs : forall lat n, zones_at lat n -> zones_at (Rabs lat) n.
Proof.
  intros lat n Z. unfold Rabs. destruct (Rcase_abs lat); [|exact Z]. apply -> zones_symmetric. exact Z.
Qed.

(* 87 degrees: two zones *)
Lemma zones_87 : forall n, zones_at 87 n -> n = 2%Z.
Proof.
  intros n [B Z]. assert (2 <= n)%Z.
  { apply Z; [lia|]. apply within_ratio; [lra|]. apply ratio_2. lra. }
  destruct (Z_le_gt_dec 3 n) as [L|L]; [exfalso|lia].
  assert (I : In (3%Z, 8653536998%Z) nl_table) by (cbn; tauto).
  destruct (row 3 8653536998 I) as (_ & _ & R). apply (R 87).
  - rewrite Rabs_pos_eq by lra. unfold degrees. cbn. lra.
  - apply Z; lia.
Qed.

(* a latitude g which is not too close to those of the table, and its value v in binary64 *)
Lemma zones_point : forall m g v x n, sharp m -> Rabs g <= 90 ->
  fl x v -> Rabs (v - g) <= 1 / 10000000000 -> v = 0 \/ 0.000045775 <= Rabs v -> (Rabs g = 87 -> v = g) ->
  Rabs g = 87 \/ away (5 / 100000000) g /\ (Rabs g <= 87 - 0.0000124 \/ 87 < Rabs g) ->
  zones_at g n -> fl (getNumberOfLongitude (floats m) x) (IZR n).
Proof.
  intros m g0 v x n Sh B90 Fx Hv V0 V87 Place Zn.
  assert (Hw : Rabs (Rabs v - Rabs g0) <= 1 / 10000000000) by (apply Rle_trans with (2 := Hv); apply Rabs_triang_inv2).
  pose proof (fl_abs _ _ Fx) as Fw.
  assert (F0 : fl (f64_lit 0 1) 0) by flc. assert (F87 : fl (f64_lit 87 1) 87) by flc.
  destruct Place as [E2|[Aw Sep]].
  { (* 87 degrees exactly *)
    assert (W : Rabs v = 87) by (rewrite (V87 E2); exact E2). rewrite W in Fw.
    assert (n = 2%Z) as -> by (apply zones_87; rewrite <- E2; apply zones_abs; exact Zn).
    unfold getNumberOfLongitude.
    cbn [floats num of_Z lit litpi add sub mul div ltb leb eqb floor abs max sqrt cos sin acos atan2 pow].
    rewrite (fl_eqb_R _ _ _ _ Fx F0), (fl_eqb_R _ _ _ _ Fw F87).
    rewrite Req_bool_false by (intros Q; rewrite Q, Rabs_R0 in W; lra). rewrite Req_bool_true by reflexivity. flc. }
  assert (Tab : tabulated (Rabs g0) n).
  { apply zones_tabulated; [rewrite Rabs_pos_eq by apply Rabs_pos; exact B90| |apply zones_abs; exact Zn].
    intros k t H. specialize (Aw k t H). rewrite (Rabs_pos_eq (Rabs g0)) by apply Rabs_pos. lra. }
  assert (Aw' : away (5 / 100000000) (Rabs g0)).
  { intros k t H. specialize (Aw k t H). rewrite (Rabs_pos_eq (Rabs g0)) by apply Rabs_pos. exact Aw. }
  set (g := Rabs g0) in *.
  assert (Near : forall w, Rabs (w - g) <= 0.0000000352 -> zones_at w n).
  { intros w Dw. destruct (tabulated_side _ g w Aw' ltac:(lra)) as [A2 T2]. apply zones_tabulated_wide.
    - replace w with ((w - g) + g) by ring. eapply Rle_trans; [apply Rabs_triang|]. rewrite (Rabs_pos_eq g) by (unfold g; apply Rabs_pos). lra.
    - intros k t H. specialize (A2 k t H). lra.
    - apply T2, Tab. }
  apply Rabs_le_inv in Hw.
  destruct (Rle_lt_dec (Rabs v) 0.001) as [Small|Large].
  { (* near the equator *)
    assert (n = 59%Z) as -> by (apply (low_zones10 g); [unfold g in *; pose proof (Rabs_pos g0); lra|apply zones_abs in Zn; exact Zn]).
    apply zones_equator with v; [apply sharp_precise, Sh|exact Fx|exact V0|lra]. }
  pose proof (Near (Rabs v - dd) ltac:(unfold dd; apply Rabs_le; lra)) as Z1.
  pose proof (Near (Rabs v + dd) ltac:(unfold dd; apply Rabs_le; lra)) as Z2.
  set (w := Rabs v) in *.
  unfold getNumberOfLongitude.
  cbn [floats num of_Z lit litpi add sub mul div ltb leb eqb floor abs max sqrt cos sin acos atan2 pow].
  rewrite (fl_eqb_R _ _ _ _ Fx F0), (fl_eqb_R _ _ _ _ Fw F87), (fl_ltb_R _ _ _ _ F87 Fw).
  rewrite Req_bool_false by (intros Q; unfold w in Large; rewrite Q, Rabs_R0 in Large; lra).
  destruct Sep as [Sep|Sep].
  - rewrite Req_bool_false by lra. rewrite Rlt_bool_false by lra. apply zones_fine with w; auto. lra.
  - assert (G87 : 87 + 0.00000004 <= g).
    { assert (I : In (2%Z, 8700000000%Z) nl_table) by (cbn; tauto). specialize (Aw' _ _ I). unfold degrees in Aw'.
      rewrite (Rabs_pos_eq g) in Aw' by lra. rewrite Rabs_pos_eq in Aw' by lra. lra. }
    assert (n = 1%Z) as ->.
    { destruct Zn as [B Z]. destruct (Z_le_gt_dec 2 n) as [L|L]; [exfalso|lia].
      apply (zones_polar g0 2); [fold g; lra|lia|]. apply Z; lia. }
    rewrite Req_bool_false by lra. rewrite Rlt_bool_true by lra. flc.
Qed.

Theorem zones_grid : forall m N T v x n, sharp m -> (N = 59 \/ N = 60)%Z -> Rabs (grid N T) <= 90 ->
  fl x v -> Rabs (v - grid N T) <= 1 / 10000000000 -> (T = 0%Z -> v = 0) -> (N = 60%Z -> v = grid N T) ->
  zones_at (grid N T) n -> fl (getNumberOfLongitude (floats m) x) (IZR n).
Proof.
  intros m N T v x n Sh HN B90 Fx Hv V0 V60 Zn. apply zones_point with (grid N T) v; auto.
  - destruct (Z.eq_dec T 0) as [T0|T0]; [left; apply V0, T0|right].
    assert (G : 0.000045776 <= Rabs (grid N T)).
    { rewrite grid_abs by (destruct HN; lia). assert (1 <= Z.abs T)%Z as A by lia. apply IZR_le in A. unfold grid.
      destruct HN as [-> | ->]; lra. }
    pose proof (Rabs_triang_inv (grid N T) v) as R. rewrite Rabs_minus_sym in R. lra.
  - intros E. destruct (grid_away N T HN) as [[E1 _]|[_ [Sep|Sep]]]; [apply V60, E1|lra|lra].
  - destruct (grid_away N T HN) as [[_ E2]|[Aw Sep]]; [left; exact E2|right]. split; [|exact Sep].
    intros k t H. specialize (Aw k t H). lra.
Qed.
