(* The table of the longitude zones (C103): the latitudes of the table are those of the
   formula, within a hundred-millionth of a degree. The cosines are bounded by their series,
   computed with integers, in units of 2^-60. *)
From Verif Require Import GoBase.
From Verif.Model Require Import Geo.
From Coq Require Import ZArith Reals Lra Lia List.
From Coq Require Import Rtrigo_def Rtrigo_alt.
From Flocq Require Import Core BinarySingleNaN.
From Verif.Model Require Import GeoReal.
From Verif.Spec Require Import Geodesy MathLib Binary64 ZoneTable.
From Verif.Proofs Require Import ZonesReal GeoReals ZonesFloat.
Import ListNotations.
Local Open Scope R_scope.

(* the series of the cosine of x from the rank j on, divided by its term of rank j, up to the
   rank j + n; x2 = x * x *)
Fixpoint horner (x2 : R) (n j : nat) : R :=
  match n with
  | O => 1
  | S m => 1 - horner x2 m (S j) * (x2 * / INR ((2 * j + 1) * (2 * j + 2)))
  end.

Lemma term_next : forall a j, cos_term a (S j) = - (cos_term a j * (a * a * / INR ((2 * j + 1) * (2 * j + 2)))).
Proof.
  intros a j. unfold cos_term. replace (2 * S j)%nat with (S (S (2 * j))) by lia.
  rewrite !fact_simpl, !mult_INR. cbn [pow].
  replace (S (S (2 * j)))%nat with (2 * j + 2)%nat by lia. replace (S (2 * j)) with (2 * j + 1)%nat by lia.
  pose proof (INR_fact_neq_0 (2 * j)).
  assert (INR (2 * j + 1) <> 0) by (apply not_0_INR; lia).
  assert (INR (2 * j + 2) <> 0) by (apply not_0_INR; lia).
  field. auto.
Qed.

Lemma horner_ok : forall x n j, cos_term x j * horner (x * x) n j = sum_f_R0 (fun i => cos_term x (j + i)) n.
Proof.
  intros x n. induction n as [|m IH]; intros j.
  - cbn [horner sum_f_R0]. rewrite Nat.add_0_r. ring.
  - cbn [horner]. rewrite decomp_sum by lia. cbn [pred]. cbv beta. rewrite Nat.add_0_r.
    assert (E : sum_f_R0 (fun i => cos_term x (j + S i)) m = sum_f_R0 (fun i => cos_term x (S j + i)) m).
    { apply sum_eq. intros i _. f_equal. lia. }
    change (Init.Nat.pred (S m)) with m. rewrite E, <- IH, term_next. ring.
Qed.

Lemma horner_cos : forall x n, horner (x * x) n 0 = cos_approx x n.
Proof.
  intros x n. unfold cos_approx. rewrite <- (Rmult_1_l (horner _ _ _)).
  replace 1 with (cos_term x 0) at 1 by (unfold cos_term; cbn; field).
  rewrite horner_ok. reflexivity.
Qed.

(* the same with integers *)
Definition unit : Z := 1152921504606846976.
Fixpoint series (t2 : Z) (n j : nat) : Z :=
  match n with
  | O => unit
  | S m => unit - (series t2 m (S j) * t2) / (unit * unit * Z.of_nat ((2 * j + 1) * (2 * j + 2)))
  end.

Definition u : R := IZR unit.
Lemma u_value : u = 1152921504606846976.
Proof. reflexivity. Qed.

Lemma IZR_div : forall a b, (0 < b)%Z -> IZR a / IZR b - 1 < IZR (a / b) <= IZR a / IZR b.
Proof.
  intros a b H. pose proof (Z.div_mod a b ltac:(lia)) as E. pose proof (Z.mod_pos_bound a b H) as M.
  assert (B : 0 < IZR b) by (apply IZR_lt; lia).
  assert (E' : IZR a = IZR b * IZR (a / b) + IZR (a mod b)) by (rewrite <- mult_IZR, <- plus_IZR; f_equal; lia).
  assert (M1 : 0 <= IZR (a mod b)) by (apply IZR_le; lia). assert (M2 : IZR (a mod b) < IZR b) by (apply IZR_lt; lia).
  split.
  - apply Rmult_lt_reg_l with (IZR b); [lra|]. replace (IZR b * (IZR a / IZR b - 1)) with (IZR a - IZR b) by (field; lra). lra.
  - apply Rmult_le_reg_l with (IZR b); [lra|]. replace (IZR b * (IZR a / IZR b)) with (IZR a) by (field; lra). lra.
Qed.

Lemma series_step : forall t2 n j e, (0 <= t2)%Z ->
  Rabs (IZR (series t2 n (S j)) - u * horner (IZR t2 / (u * u)) n (S j)) <= e ->
  Rabs (IZR (series t2 (S n) j) - u * horner (IZR t2 / (u * u)) (S n) j) <=
    1 + e * (IZR t2 / (u * u) / INR ((2 * j + 1) * (2 * j + 2))).
Proof.
  intros t2 n j e H B. cbn [series horner]. set (c := ((2 * j + 1) * (2 * j + 2))%nat).
  assert (Hc : (0 < c)%nat) by (unfold c; nia). assert (C : 0 < INR c) by (apply lt_0_INR; exact Hc).
  set (s := series t2 n (S j)) in *. set (h := horner (IZR t2 / (u * u)) n (S j)) in *.
  pose proof (IZR_div (s * t2) (unit * unit * Z.of_nat c) ltac:(unfold unit; lia)) as D.
  set (d := ((s * t2) / (unit * unit * Z.of_nat c))%Z) in *. clearbody d.
  rewrite !mult_IZR, <- INR_IZR_INZ in D. fold u in D. rewrite minus_IZR. fold u.
  assert (T : 0 <= IZR t2) by (apply IZR_le; lia). pose proof u_value as U. clearbody s h. clear H Hc. clearbody c.
  set (f := IZR t2 / (u * u) / INR c).
  assert (F : 0 <= f). { unfold f, Rdiv. rewrite U. pose proof (Rinv_0_lt_compat _ C). assert (0 <= IZR t2 * / (1152921504606846976 * 1152921504606846976)) by lra. nra. }
  assert (E1 : IZR s * IZR t2 / (u * u * INR c) = IZR s * f) by (unfold f; field; split; lra).
  assert (E2 : h * (IZR t2 / (u * u) * / INR c) = h * f) by (unfold f; field; split; lra).
  rewrite E1 in D. rewrite E2. clearbody f. clear E1 E2.
  replace (u - IZR d - u * (1 - h * f)) with ((IZR s * f - IZR d) - (IZR s - u * h) * f) by ring.
  eapply Rle_trans; [apply Rabs_triang|]. rewrite Rabs_Ropp, Rabs_mult, (Rabs_pos_eq f) by exact F.
  apply Rplus_le_compat; [apply Rabs_le; lra|]. apply Rmult_le_compat_r; assumption.
Qed.

Lemma series_tail : forall t2 n j, (0 <= t2)%Z -> IZR t2 / (u * u) <= 4 ->
  Rabs (IZR (series t2 n (S j)) - u * horner (IZR t2 / (u * u)) n (S j)) <= 2.
Proof.
  intros t2 n. induction n as [|n IH]; intros j H B.
  - cbn [series horner]. fold u. rewrite Rmult_1_r, Rminus_diag_eq, Rabs_R0 by reflexivity. lra.
  - eapply Rle_trans; [apply series_step; [exact H|apply IH; assumption]|].
    assert (C : 12 <= INR ((2 * S j + 1) * (2 * S j + 2))).
    { replace 12 with (INR 12) by (cbn; lra). apply le_INR. nia. }
    set (c := INR _) in *. clearbody c. set (x := IZR t2 / (u * u)) in *. clearbody x.
    assert (x / c <= 4 / 12); [|lra]. apply Rmult_le_reg_r with c; [lra|].
    replace (x / c * c) with x by (field; lra). lra.
Qed.

Lemma series_ok : forall t2 n, (0 <= t2)%Z -> IZR t2 / (u * u) <= 4 ->
  Rabs (IZR (series t2 (S n) 0) - u * horner (IZR t2 / (u * u)) (S n) 0) <= 5.
Proof.
  intros t2 n H B. eapply Rle_trans; [apply series_step; [exact H|apply series_tail; assumption]|].
  cbn [Nat.mul Nat.add]. change (INR (1 + 1)) with 2. replace (INR 2) with 2 by (cbn; lra). lra.
Qed.

(* the angle PI * p / q *)
Definition turn (p q : Z) : Z := (3141592653589793 * p * unit) / (1000000000000000 * q).

Lemma turn_ok : forall p q, (0 <= p)%Z -> (0 < q)%Z -> (2 * p <= q)%Z ->
  Rabs (IZR (turn p q) / u - PI * (IZR p / IZR q)) <= 0.000000000000002 /\ 0 <= IZR p / IZR q <= 1 / 2 /\ (0 <= turn p q)%Z.
Proof.
  intros p q H1 H2 H3. unfold turn.
  pose proof (IZR_div (3141592653589793 * p * unit) (1000000000000000 * q) ltac:(lia)) as D.
  assert (N : (0 <= 3141592653589793 * p * unit / (1000000000000000 * q))%Z) by (apply Z.div_pos; [unfold unit; lia|lia]).
  set (d := (3141592653589793 * p * unit / (1000000000000000 * q))%Z) in *. clearbody d.
  rewrite !mult_IZR in D. fold u in D. pose proof PI_tight as P. pose proof u_value as U.
  assert (Q : 0 < IZR q) by (apply IZR_lt; lia).
  assert (E : 3141592653589793 * IZR p * u / (1000000000000000 * IZR q) = (3141592653589793 / 1000000000000000) * (IZR p / IZR q) * u) by (field; lra).
  rewrite E in D. clear E.
  assert (R : 0 <= IZR p / IZR q <= 1 / 2).
  { apply IZR_le in H1. apply IZR_le in H3. rewrite mult_IZR in H3. split; apply Rmult_le_reg_r with (IZR q); try lra;
    replace (IZR p / IZR q * IZR q) with (IZR p) by (field; lra); lra. }
  set (r := IZR p / IZR q) in *. clearbody r. split; [|split; assumption].
  rewrite U in *. apply Rabs_le.
  assert (0 <= (PI - 3.141592653589793) * r <= 0.000000000000001 * (1/2)) by (split; nra). lra.
Qed.

(* bounds of the cosine of PI * p / q, for 0 <= p / q <= 1/2 *)
Definition cos_lo (p q : Z) : Z := (let t := turn p q in series (t * t) 9 0 - 2400)%Z.
Definition cos_hi (p q : Z) : Z := (let t := turn p q in series (t * t) 10 0 + 2400)%Z.

Lemma cos_pi_bounds : forall p q, (0 <= p)%Z -> (0 < q)%Z -> (2 * p <= q)%Z ->
  IZR (cos_lo p q) / u <= Rtrigo_def.cos (PI * (IZR p / IZR q)) <= IZR (cos_hi p q) / u.
Proof.
  intros p q H1 H2 H3. destruct (turn_ok p q H1 H2 H3) as [T [R N]]. clear H1 H2 H3.
  unfold cos_lo, cos_hi. cbv zeta. set (t := turn p q) in *. clearbody t. set (r := IZR p / IZR q) in *. clearbody r.
  pose proof PI_tight as P. pose proof u_value as U.
  set (a := IZR t / u) in *. apply Rabs_le_inv in T.
  assert (B : -2 <= a <= 2) by nra.
  assert (A0 : 0 <= a) by (unfold a; apply IZR_le in N; apply Rmult_le_pos; [exact N|left; apply Rinv_0_lt_compat; lra]).
  assert (E : IZR (t * t) / (u * u) = a * a) by (unfold a; rewrite mult_IZR; field; lra).
  assert (B4 : IZR (t * t) / (u * u) <= 4) by (rewrite E; nra).
  destruct (pre_cos_bound a 4 ltac:(lra) ltac:(lra)) as [L V]. cbn [Nat.mul Nat.add] in L, V.
  rewrite <- horner_cos in L, V.
  pose proof (series_ok (t * t) 8 ltac:(nia) B4) as S9. pose proof (series_ok (t * t) 9 ltac:(nia) B4) as S10.
  rewrite E in S9, S10. apply Rabs_le_inv in S9, S10.
  set (h9 := horner (a * a) 9 0) in *. set (h10 := horner (a * a) 10 0) in *. clearbody h9 h10.
  set (s9 := series (t * t) 9 0) in *. set (s10 := series (t * t) 10 0) in *. clearbody s9 s10.
  pose proof (cos_lip (PI * r) a) as C.
  assert (D : Rabs (PI * r - a) <= 0.000000000000002) by (apply Rabs_le; lra).
  assert (C' : Rabs (Rtrigo_def.cos (PI * r) - Rtrigo_def.cos a) <= 0.000000000000002) by lra.
  apply Rabs_le_inv in C'. rewrite minus_IZR, plus_IZR. rewrite U in *. lra.
Qed.

(* the two sides of the condition of the zone k, at the latitude of t / 10^8 degrees *)
Definition sixty_lo : Z := Eval vm_compute in (unit - cos_hi 1 30)%Z.
Definition sixty_hi : Z := Eval vm_compute in (unit - cos_lo 1 30)%Z.

Definition square (a : Z) : Z := (a * a)%Z.
Definition condition_in (s w l h : Z) : bool :=
  ((0 <=? l) && (0 <=? h) && (h <=? w) && (s * square w * w <=? square l * (2 * square w - 2 * square h)))%Z.
Definition condition_out (s w l h : Z) : bool :=
  ((0 <=? l) && (0 <=? h) && (square h * (2 * square w - 2 * square l) <? s * square w * w))%Z.
Notation inside k t := (condition_in sixty_hi unit (cos_lo t 18000000000) (cos_hi 1 k)).
Notation outside k t := (condition_out sixty_lo unit (Z.max 0 (cos_lo 1 k)) (cos_hi t 18000000000)).

Lemma rows : forallb (fun kt => inside (fst kt) (snd kt - 1) && outside (fst kt) (snd kt + 1)) nl_table = true.
Proof. vm_compute. reflexivity. Qed.

Lemma table_range : forallb (fun kt => (2 <=? fst kt) && (fst kt <=? 59) && (1000000000 <=? snd kt) && (snd kt <=? 8700000000))%Z nl_table = true.
Proof. reflexivity. Qed.

Lemma sixty_bounds : IZR sixty_lo / u <= 1 - Rtrigo_def.cos (PI / 30) <= IZR sixty_hi / u.
Proof.
  pose proof (cos_pi_bounds 1 30 ltac:(lia) ltac:(lia) ltac:(lia)) as B.
  replace (PI * (1 / 30)) with (PI / 30) in B by field.
  change sixty_lo with (unit - cos_hi 1 30)%Z. change sixty_hi with (unit - cos_lo 1 30)%Z.
  rewrite !minus_IZR. fold u. pose proof u_value as U.
  replace ((u - IZR (cos_hi 1 30)) / u) with (1 - IZR (cos_hi 1 30) / u) by (field; lra).
  replace ((u - IZR (cos_lo 1 30)) / u) with (1 - IZR (cos_lo 1 30) / u) by (field; lra).
  lra.
Qed.

Lemma double : forall k, (2 <= k)%Z ->
  1 - Rtrigo_def.cos (2 * PI / IZR k) = 2 - 2 * (Rtrigo_def.cos (PI * (1 / IZR k)) * Rtrigo_def.cos (PI * (1 / IZR k))).
Proof.
  intros k H. assert (0 < IZR k) by (apply IZR_lt; lia).
  replace (2 * PI / IZR k) with (2 * (PI * (1 / IZR k))) by (field; lra). rewrite cos_2a_cos. ring.
Qed.

Lemma cos_even : forall x, Rtrigo_def.cos (rad x) = Rtrigo_def.cos (rad (Rabs x)).
Proof.
  intros x. unfold Rabs. destruct (Rcase_abs x); [|reflexivity].
  replace (rad (- x)) with (- rad x) by (unfold rad; field). rewrite cos_neg. reflexivity.
Qed.

Lemma cos_order : forall x y, 0 <= x <= y -> y <= 90 -> 0 <= Rtrigo_def.cos (rad y) <= Rtrigo_def.cos (rad x).
Proof.
  intros x y H1 H2. pose proof PI_tight. unfold rad. split.
  - apply cos_ge_0; nra.
  - apply cos_decr_1; nra.
Qed.

Lemma rad_table : forall t, rad (degrees t) = PI * (IZR t / 18000000000).
Proof. intros t. unfold rad, degrees. field. Qed.

Lemma zone_cos_pos : forall k, (2 <= k)%Z -> 0 <= Rtrigo_def.cos (PI * (1 / IZR k)).
Proof.
  intros k H. pose proof PI_tight. assert (2 <= IZR k) by (apply IZR_le; lia).
  assert (0 <= 1 / IZR k <= 1 / 2).
  { split; apply Rmult_le_reg_r with (IZR k); try lra; replace (1 / IZR k * IZR k) with 1 by (field; lra); lra. }
  apply cos_ge_0; nra.
Qed.

Lemma inside_algebra : forall (l0 h0 s0 w : Z) (v c c0 z s : R), (0 < w)%Z -> v = IZR w -> condition_in s0 w l0 h0 = true ->
  s <= IZR s0 / v -> IZR l0 / v <= c0 -> c0 <= c -> 0 <= z -> z <= IZR h0 / v ->
  s <= c * c * (2 - 2 * (z * z)).
Proof.
  intros l0 h0 s0 w v c c0 z s W0 Ev I S0 L O Z1 Z0. unfold condition_in in I.
  apply andb_prop in I. destruct I as [I I4]. apply andb_prop in I. destruct I as [I I3].
  apply andb_prop in I. destruct I as [I1 I2]. apply Z.leb_le in I1, I2, I3, I4. unfold square in I4.
  apply IZR_le in I1, I2, I3, I4. apply IZR_lt in W0. rewrite ?mult_IZR, ?minus_IZR, ?mult_IZR in I4.
  rewrite <- Ev in *. clear Ev.
  assert (El : IZR l0 = IZR l0 / v * v) by (field; lra). assert (Eh : IZR h0 = IZR h0 / v * v) by (field; lra).
  assert (Es : IZR s0 = IZR s0 / v * v) by (field; lra).
  rewrite El in I1, I4. rewrite Eh in I2, I3, I4. rewrite Es in I4. clear El Eh Es.
  set (l := IZR l0 / v) in *. set (h := IZR h0 / v) in *. set (sh := IZR s0 / v) in *. clearbody l h sh.
  assert (L0 : 0 <= l) by nra. assert (H0 : 0 <= h) by nra. assert (H1 : h <= 1) by nra.
  assert (X : sh <= l * l * (2 - 2 * (h * h))).
  { assert (V : 0 < v * v * v * v) by (repeat apply Rmult_lt_0_compat; exact W0).
    apply Rmult_le_reg_r with (v * v * v * v); [exact V|]. lra. }
  assert (Y1 : l * l <= c * c) by nra. assert (Y2 : z * z <= h * h) by nra. assert (Y3 : h * h <= 1) by nra.
  apply Rle_trans with sh; [lra|]. apply Rle_trans with (l * l * (2 - 2 * (h * h))); [exact X|].
  clear - Y1 Y2 Y3 L0. apply Rmult_le_compat; nra.
Qed.

Lemma outside_algebra : forall (l0 h0 s0 w : Z) (v c c0 z s : R), (0 < w)%Z -> v = IZR w -> condition_out s0 w l0 h0 = true ->
  IZR s0 / v <= s -> c0 <= IZR h0 / v -> 0 <= c -> c <= c0 -> 0 <= z <= 1 -> IZR l0 / v <= z ->
  c * c * (2 - 2 * (z * z)) < s.
Proof.
  intros l0 h0 s0 w v c c0 z s W0 Ev I S0 L O1 O2 Z1 Z0. unfold condition_out in I.
  apply andb_prop in I. destruct I as [I I4].
  apply andb_prop in I. destruct I as [I1 I2]. apply Z.leb_le in I1, I2. apply Z.ltb_lt in I4. unfold square in I4.
  apply IZR_le in I1, I2. apply IZR_lt in I4. apply IZR_lt in W0. rewrite ?mult_IZR, ?minus_IZR, ?mult_IZR in I4.
  rewrite <- Ev in *. clear Ev.
  assert (El : IZR l0 = IZR l0 / v * v) by (field; lra). assert (Eh : IZR h0 = IZR h0 / v * v) by (field; lra).
  assert (Es : IZR s0 = IZR s0 / v * v) by (field; lra).
  rewrite El in I1, I4. rewrite Eh in I2, I4. rewrite Es in I4. clear El Eh Es.
  set (l := IZR l0 / v) in *. set (h := IZR h0 / v) in *. set (sl := IZR s0 / v) in *. clearbody l h sl.
  assert (L0 : 0 <= l) by nra. assert (H0 : 0 <= h) by nra.
  assert (X : h * h * (2 - 2 * (l * l)) < sl).
  { assert (V : 0 < v * v * v * v) by (repeat apply Rmult_lt_0_compat; exact W0).
    apply Rmult_lt_reg_r with (v * v * v * v); [exact V|]. lra. }
  assert (Y1 : c * c <= h * h) by nra. assert (Y2 : l * l <= z * z) by nra. assert (Y3 : z * z <= 1) by nra.
  assert (c * c * (2 - 2 * (z * z)) <= h * h * (2 - 2 * (l * l))); [|lra].
  clear - Y1 Y2 Y3 O1. apply Rmult_le_compat; nra.
Qed.

Lemma zone_bounds : forall k, (2 <= k)%Z -> IZR (cos_lo 1 k) / u <= Rtrigo_def.cos (PI * (1 / IZR k)) <= IZR (cos_hi 1 k) / u.
Proof. intros k Hk. exact (cos_pi_bounds 1 k ltac:(lia) ltac:(lia) ltac:(lia)). Qed.

Lemma lat_bounds : forall t, (0 <= t <= 9000000000)%Z ->
  IZR (cos_lo t 18000000000) / u <= Rtrigo_def.cos (rad (degrees t)) <= IZR (cos_hi t 18000000000) / u.
Proof. intros t Ht. rewrite rad_table. exact (cos_pi_bounds t 18000000000 ltac:(lia) ltac:(lia) ltac:(lia)). Qed.

Lemma inside_ok : forall k t lat, (2 <= k)%Z -> (0 <= t <= 9000000000)%Z -> inside k t = true ->
  Rabs lat <= degrees t -> within_transition k lat.
Proof.
  intros k t lat Hk Ht I B. unfold within_transition. rewrite (double k Hk), cos_even.
  assert (D : degrees t <= 90) by (unfold degrees; destruct Ht as [_ Ht]; apply IZR_le in Ht; lra).
  pose proof (cos_order (Rabs lat) (degrees t) (conj (Rabs_pos lat) B) D) as O.
  pose proof (lat_bounds t Ht) as L.
  pose proof (zone_bounds k Hk) as Z0.
  exact (inside_algebra _ _ _ unit u _ (Rtrigo_def.cos (rad (degrees t))) _ _ eq_refl eq_refl I
           (proj2 sixty_bounds) (proj1 L) (proj2 O) (zone_cos_pos k Hk) (proj2 Z0)).
Qed.

Lemma outside_ok : forall k t lat, (2 <= k)%Z -> (0 <= t <= 9000000000)%Z -> outside k t = true ->
  degrees t <= Rabs lat <= 90 -> ~ within_transition k lat.
Proof.
  intros k t lat Hk Ht I [B B90] W. unfold within_transition in W. rewrite (double k Hk), cos_even in W.
  assert (D : 0 <= degrees t) by (unfold degrees; destruct Ht as [Ht _]; apply IZR_le in Ht; lra).
  pose proof (cos_order (degrees t) (Rabs lat) (conj D B) B90) as O.
  pose proof (lat_bounds t Ht) as L.
  pose proof (zone_bounds k Hk) as Z0.
  assert (M : IZR (Z.max 0 (cos_lo 1 k)) / u <= Rtrigo_def.cos (PI * (1 / IZR k))).
  { apply Z.max_case; [|exact (proj1 Z0)].
    unfold Rdiv. rewrite Rmult_0_l. apply zone_cos_pos. exact Hk. }
  apply (Rlt_irrefl (1 - Rtrigo_def.cos (PI / 30))). eapply Rle_lt_trans; [exact W|].
  exact (outside_algebra _ _ _ unit u _ (Rtrigo_def.cos (rad (degrees t))) _ _ eq_refl eq_refl I
           (proj1 sixty_bounds) (proj2 L) (proj1 O) (proj2 O) (conj (zone_cos_pos k Hk) (proj2 (COS_bound _))) M).
Qed.

(* each row of the table is the latitude of the formula *)
Lemma row : forall k t, In (k, t) nl_table -> (2 <= k <= 59)%Z /\
  (forall lat, Rabs lat <= degrees (t - 1) -> within_transition k lat) /\
  (forall lat, degrees (t + 1) <= Rabs lat <= 90 -> ~ within_transition k lat).
Proof.
  intros k t H. pose proof (proj1 (forallb_forall _ _) rows _ H) as R. pose proof (proj1 (forallb_forall _ _) table_range _ H) as T.
  cbn [fst snd] in R, T. apply andb_prop in R. destruct R as [R1 R2].
  assert (T' : (2 <= k <= 59 /\ 1000000000 <= t <= 8700000000)%Z) by lia. destruct T' as [T1 T2].
  split; [exact T1|]. split; intros lat B.
  - apply inside_ok with (t - 1)%Z; try assumption; lia.
  - apply outside_ok with (t + 1)%Z; try assumption; lia.
Qed.

Lemma table_full : forall k, (2 <= k <= 59)%Z -> exists t, In (k, t) nl_table.
Proof.
  intros k H. assert (E : In k (map fst nl_table)).
  { assert (F : forall n, (n <= 57)%nat -> In (Z.of_nat n + 2)%Z (map fst nl_table)).
    { intros n L. do 58 (destruct n as [|n]; [cbn; lia|]). lia. }
    replace k with (Z.of_nat (Z.to_nat (k - 2)) + 2)%Z by lia. apply F. lia. }
  apply in_map_iff in E. destruct E as [[a b] [E I]]. cbn in E. subst a. exists b. exact I.
Qed.

Theorem zones_tabulated : forall lat n, Rabs lat <= 90 -> away (1 / 100000000) lat -> (zones_at lat n <-> tabulated lat n).
Proof.
  intros lat n B A.
  assert (K : forall k t, In (k, t) nl_table -> (within_transition k lat <-> Rabs lat < degrees t)).
  { intros k t H. destruct (row k t H) as [_ [R1 R2]]. specialize (A k t H).
    assert (E1 : degrees (t - 1) = degrees t - 1 / 100000000) by (unfold degrees; rewrite minus_IZR; field).
    assert (E2 : degrees (t + 1) = degrees t + 1 / 100000000) by (unfold degrees; rewrite plus_IZR; field).
    destruct (Rlt_le_dec (Rabs lat) (degrees t)) as [L|L].
    - split; [intros _; exact L|intros _]. apply R1. rewrite Rabs_left in A by lra. lra.
    - split; [|lra]. intros W. exfalso. apply (R2 lat); [|exact W]. rewrite Rabs_pos_eq in A by lra. lra. }
  split; intros [R F]; (split; [exact R|]); intros k.
  - intros t H. rewrite <- (K k t H). apply F. apply row in H. apply H.
  - intros H. destruct (table_full k H) as [t T]. rewrite (K k t T). apply F. exact T.
Qed.

Lemma tabulated_side : forall d lat lat', away d lat -> Rabs (lat' - lat) < d -> away (d - Rabs (lat' - lat)) lat' /\
  forall n, tabulated lat n -> tabulated lat' n.
Proof.
  intros d lat lat' A B.
  assert (T : Rabs (Rabs lat' - Rabs lat) <= Rabs (lat' - lat)) by apply Rabs_triang_inv2.
  set (e := Rabs (lat' - lat)) in *. clearbody e. apply Rabs_le_inv in T. split.
  - intros k t H. specialize (A k t H). destruct (Rlt_le_dec (Rabs lat) (degrees t)) as [L|L].
    + rewrite Rabs_left in A by lra. rewrite Rabs_left by lra. lra.
    + rewrite Rabs_pos_eq in A by lra. rewrite Rabs_pos_eq by lra. lra.
  - intros n [R F]. split; [exact R|]. intros k t H. rewrite (F k t H). specialize (A k t H).
    destruct (Rlt_le_dec (Rabs lat) (degrees t)) as [L|L].
    + rewrite Rabs_left in A by lra. split; lra.
    + rewrite Rabs_pos_eq in A by lra. split; lra.
Qed.

Lemma beyond_pole : forall k lat, 90 <= Rabs lat -> (within_transition k lat <-> within_transition k (180 - Rabs lat)).
Proof.
  intros k lat H. unfold within_transition. rewrite (cos_even lat).
  replace (rad (180 - Rabs lat)) with (PI - rad (Rabs lat)) by (unfold rad; field).
  rewrite Rtrigo_facts.cos_pi_minus.
  replace (- Rtrigo_def.cos (rad (Rabs lat)) * - Rtrigo_def.cos (rad (Rabs lat)))
    with (Rtrigo_def.cos (rad (Rabs lat)) * Rtrigo_def.cos (rad (Rabs lat))) by ring. reflexivity.
Qed.

Theorem zones_tabulated_wide : forall lat n, Rabs lat <= 91 -> away (1 / 100000000) lat -> tabulated lat n -> zones_at lat n.
Proof.
  intros lat n B A T. destruct (Rle_lt_dec (Rabs lat) 90) as [L|L].
  - apply zones_tabulated; assumption.
  - destruct T as [R F]. split; [exact R|]. intros k K. rewrite beyond_pole by lra.
    assert (E : Rabs (180 - Rabs lat) = 180 - Rabs lat) by (apply Rabs_pos_eq; lra).
    destruct (table_full k K) as [t I]. pose proof (row k t I) as [_ [_ R2]].
    pose proof (proj1 (forallb_forall _ _) table_range _ I) as TR. cbn [fst snd] in TR.
    assert (Tt : (t + 1 <= 8700000001)%Z) by lia. apply IZR_le in Tt.
    assert (D : degrees (t + 1) <= 88) by (unfold degrees; lra).
    assert (D' : degrees t <= 88) by (unfold degrees in *; rewrite plus_IZR in D; lra).
    rewrite (F k t I). split; [lra|]. intros W. exfalso. apply (R2 (180 - Rabs lat)); [|exact W]. rewrite E. lra.
Qed.

(* away from the latitudes of the table, the number of zones is that of the table in the whole neighbourhood *)
Theorem clear_by_table : forall lat n, 1 / 1000 <= Rabs lat <= 90 -> away (1 / 9000) lat -> tabulated lat n ->
  clear_of_transitions lat n.
Proof.
  intros lat n B A T. split; [exact B|]. intros lat' D.
  destruct (tabulated_side (1 / 9000) lat lat' A ltac:(lra)) as [A' T'].
  apply zones_tabulated_wide.
  - replace lat' with ((lat' - lat) + lat) by ring. eapply Rle_trans; [apply Rabs_triang|]. lra.
  - intros k t H. specialize (A' k t H). lra.
  - apply T'. exact T.
Qed.

Theorem table_exact : forall lat n, Rabs lat <= 90 -> away (1 / 100000000) lat -> tabulated lat n ->
  getNumberOfLongitude reals lat = IZR n.
Proof.
  intros lat n B A T. destruct (number_of_zones lat B) as [n' [E Z]]. rewrite E. f_equal.
  apply (zones_unique lat); [exact Z|]. apply zones_tabulated; assumption.
Qed.

Theorem table_binary64 : forall m lat n x, accurate m -> 1 / 1000 <= Rabs lat <= 90 -> away (1 / 9000) lat ->
  tabulated lat n -> fl x lat -> fl (getNumberOfLongitude (floats m) x) (IZR n).
Proof.
  intros m lat n x M B A T X. destruct (clear_by_table lat n B A T) as [_ C].
  apply (zones_binary64 m lat n M B C x lat X). rewrite Rminus_diag_eq, Rabs_R0 by reflexivity. lra.
Qed.

(* every latitude has one number of zones in the table *)
Theorem tabulated_one : forall lat n n', tabulated lat n -> tabulated lat n' -> n = n'.
Proof.
  intros lat n n' [R F] [R' F'].
  assert (C : forall a b, (1 <= a <= 59)%Z -> (1 <= b <= 59)%Z ->
    (forall k t, In (k, t) nl_table -> (k <= a)%Z <-> Rabs lat < degrees t) ->
    (forall k t, In (k, t) nl_table -> (k <= b)%Z <-> Rabs lat < degrees t) -> (a <= b)%Z).
  { intros a b A B Fa Fb. destruct (Z.eq_dec a 1) as [|N]; [lia|].
    destruct (table_full a ltac:(lia)) as [t I]. apply (Fb a t I). apply (Fa a t I). lia. }
  apply Z.le_antisymm; apply C; assumption.
Qed.

(* 52.2572 degrees (the position of the guides to ADS-B): 36 zones *)
Example amsterdam : tabulated 52.2572 36 /\ away (1 / 9000) 52.2572.
Proof.
  assert (E : Rabs 52.2572 = 52.2572) by (apply Rabs_pos_eq; lra).
  split; [split; [lia|]|]; intros k t H; rewrite E; unfold degrees.
  - cbn [nl_table In] in H.
    repeat (destruct H as [H|H]; [inversion H; subst k t; split; intros; first [lra|lia|exfalso; lra]|]). destruct H.
  - cbn [nl_table In] in H.
    repeat (destruct H as [H|H]; [inversion H; subst k t; unfold Rabs; destruct (Rcase_abs _); lra|]). destruct H.
Qed.
