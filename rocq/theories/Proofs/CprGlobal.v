(* C50, C52: global decoding of airborne positions. *)
From Verif Require Import GoBase.
From Coq Require Import ZArith Reals Lia Lra Psatz.
From Coq Require Import Floats.SpecFloat.
From Flocq Require Import Core.
From Verif.Spec Require Import Cpr.
From Verif.Proofs Require Import FloatR FloatOps CprFloat CprReal.
From Verif.Model Require Import Geo.
Local Open Scope Z_scope.

Definition eps : R := bpow radix2 (-37).

Lemma eps_small : (0 < eps < 1 / 100000000000)%R.
Proof. unfold eps. split; [apply bpow_gt_0|]. cbn. lra. Qed.

(* ---- latitude ---- *)

Lemma lat_even : forall m j x c, fl x (IZR j) -> Z.abs j < 2 ^ 20 -> 0 <= c < 131072 ->
  fl (f64_mul (f64_lit 360 60) (f64_add (mod_ (floats m) x (f64_lit 60 1)) (f64_div (f64_of_Z c) (f64_lit 131072 1))))
     (6 * (IZR (j mod 60) + IZR c / 131072)).
Proof.
  intros m j x c Hx Hj Hc. pose proof (Z.mod_pos_bound j 60 ltac:(lia)).
  replace (6 * (IZR (j mod 60) + IZR c / 131072))%R with (IZR (6 * (131072 * (j mod 60) + c)) / 131072)%R
    by (rewrite mult_IZR, plus_IZR, mult_IZR; field).
  apply dy_mul; [|apply zone_sum; auto; try lia; flc|lia].
  replace (f64_lit 360 60) with (f64_of_Z 6) by (vm_compute; reflexivity). apply (fl_of_Z 6). lia.
Qed.

Definition p50 : R := bpow radix2 (-50).

Lemma c360_59 : about (f64_lit 360 59) (360 / 59) p50.
Proof.
  replace (f64_lit 360 59) with (f64_div (f64_of_Z 360) (f64_of_Z 59)) by (vm_compute; reflexivity).
  exists (rnd (360 / 59)). split.
  - apply fl_div; [apply (fl_of_Z 360); lia|apply (fl_of_Z 59); lia|lra|]. apply big_le. rewrite Rabs_pos_eq; lra.
  - apply (rnd_err 3); [lia|]. rewrite Rabs_pos_eq by lra. cbn. lra.
Qed.

Lemma lat_odd : forall m j x c, fl x (IZR j) -> Z.abs j < 2 ^ 20 -> 0 <= c < 131072 ->
  about (f64_mul (f64_lit 360 59) (f64_add (mod_ (floats m) x (f64_lit 59 1)) (f64_div (f64_of_Z c) (f64_lit 131072 1))))
     (360 / 59 * (IZR (j mod 59) + IZR c / 131072)) (60 * p50 + bpow radix2 (-44)).
Proof.
  intros m j x c Hx Hj Hc. pose proof (Z.mod_pos_bound j 59 ltac:(lia)).
  replace (IZR (j mod 59) + IZR c / 131072)%R with (IZR (131072 * (j mod 59) + c) / 131072)%R
    by (rewrite plus_IZR, mult_IZR; field).
  apply scaled; [exact c360_59|apply zone_sum; auto; try lia; flc|lra|unfold p50; cbn; lra|lia|].
  assert (IZR (131072 * (j mod 59) + c) <= 131072 * 59)%R by (rewrite <- mult_IZR; apply IZR_le; lia). lra.
Qed.

(* the middle value 44.25, which is 270 degrees, comes out right *)
Lemma lat_odd_270 : forall y, dy y 5799936 -> fl (f64_mul (f64_lit 360 59) y) 270.
Proof.
  intros y Hy. destruct c360_59 as (v & Fv & Ev). apply Rabs_le_inv in Ev.
  assert (B : (Rabs (v * (IZR 5799936 / 131072)) <= big)%R).
  { apply big_le. apply Rabs_le. unfold p50 in Ev. cbn in Ev. lra. }
  pose proof (fl_mul _ _ _ _ Fv Hy B) as F.
  assert (Y0 : dy (f64_lit 177 4) 5799936).
  { replace (f64_lit 177 4) with (f64_div (f64_of_Z 5799936) (f64_lit 131072 1)) by (vm_compute; reflexivity). apply dy_code. lia. }
  pose proof (fl_mul _ _ _ _ Fv Y0 B) as F0.
  assert (V : f64_mul (f64_lit 360 59) (f64_lit 177 4) = f64_of_Z 270) by (vm_compute; reflexivity).
  rewrite V in F0. rewrite (fl_unique _ _ _ F0 (fl_of_Z 270 ltac:(lia))) in F. exact F.
Qed.


Lemma wrap_even : forall x a, dy x a -> 0 <= a < 360 * 131072 ->
  fl (if fl_leb (f64_lit 270 1) x then f64_sub x (f64_lit 360 1) else x) (southern (IZR a / 131072)).
Proof.
  intros x a Hx Ha. rewrite (fl_leb_R (f64_lit 270 1) x 270 (IZR a / 131072)) by (flc || exact Hx). unfold southern.
  destruct (Rle_bool_spec 270 (IZR a / 131072)); [|exact Hx].
  replace (IZR a / 131072 - 360)%R with (IZR (a - 131072 * 360) / 131072)%R by (rewrite minus_IZR, mult_IZR; field).
  apply dy_sub; [exact Hx|apply dy_int; flc|lia].
Qed.

Definition p42 : R := bpow radix2 (-42).

Lemma wrap_odd : forall y T, dy y T -> 0 <= T < 131072 * 59 ->
  about (f64_mul (f64_lit 360 59) y) (360 / 59 * (IZR T / 131072)) (60 * p50 + bpow radix2 (-44)) ->
  about (if fl_leb (f64_lit 270 1) (f64_mul (f64_lit 360 59) y) then f64_sub (f64_mul (f64_lit 360 59) y) (f64_lit 360 1)
         else f64_mul (f64_lit 360 59) y) (southern (360 / 59 * (IZR T / 131072))) p42.
Proof.
  intros y T Hy HT (v & Fv & Ev). apply Rabs_le_inv in Ev.
  rewrite (fl_leb_R (f64_lit 270 1) (f64_mul (f64_lit 360 59) y) 270 v) by (exact Fv || flc). unfold southern.
  assert (E : (60 * p50 + bpow radix2 (-44) <= 1 / 1000000000000)%R) by (unfold p50; cbn; lra).
  assert (E2 : (60 * p50 + bpow radix2 (-44) + bpow radix2 (-44) <= p42)%R) by (unfold p50, p42; cbn; lra).
  assert (P2 : (0 < bpow radix2 (-44))%R) by apply bpow_gt_0.
  assert (R : (0 <= IZR T <= 131072 * 59)%R) by (split; [apply IZR_le; lia|rewrite <- mult_IZR; apply IZR_le; lia]).
  assert (D : Rle_bool 270 v = Rle_bool 270 (360 / 59 * (IZR T / 131072))).
  { destruct (Z.lt_trichotomy T 5799936) as [L|[->|L]].
    - assert (IZR T <= 5799935)%R by (apply IZR_le; lia). rewrite !Rle_bool_false by lra. reflexivity.
    - rewrite (fl_unique _ _ _ Fv (lat_odd_270 y Hy)). rewrite !Rle_bool_true by lra. reflexivity.
    - assert (5799937 <= IZR T)%R by (apply IZR_le; lia). rewrite !Rle_bool_true by lra. reflexivity. }
  rewrite D. destruct (Rle_bool_spec 270 (360 / 59 * (IZR T / 131072))).
  - assert (B : (Rabs (v - 360) <= 512)%R) by (apply Rabs_le; lra).
    exists (rnd (v - 360)). split; [apply fl_sub; [exact Fv|flc|apply big_le; lra]|].
    pose proof (rnd_err 9 (v - 360) ltac:(lia) B) as Re. change (9 - 53) with (-44) in Re. apply Rabs_le_inv in Re.
    apply Rabs_le. lra.
  - exists v. split; [exact Fv|]. apply Rabs_le. lra.
Qed.

(* ---- longitude ---- *)

Lemma lon_zone : forall m turn t j n x y c, (turn = 360 \/ turn = 90)%Z -> fl t (IZR turn) ->
  fl x (IZR j) -> Z.abs j < 2 ^ 20 -> fl y (IZR n) -> 1 <= n <= 60 -> 0 <= c < 131072 ->
  about (f64_mul (f64_div t y) (f64_add (mod_ (floats m) x y) (f64_div (f64_of_Z c) (f64_lit 131072 1))))
     (IZR turn / IZR n * (IZR (j mod n) + IZR c / 131072)) (bpow radix2 (-37) - bpow radix2 (-40)).
Proof.
  intros m turn t j n x y c Ht Ft Hx Hj Hy Hn Hc. pose proof (Z.mod_pos_bound j n ltac:(lia)) as Hm.
  replace (IZR (j mod n) + IZR c / 131072)%R with (IZR (131072 * (j mod n) + c) / 131072)%R
    by (rewrite plus_IZR, mult_IZR; field).
  assert (N : (1 <= IZR n <= 60)%R) by (split; apply IZR_le; lia).
  assert (T : (90 <= IZR turn <= 360)%R) by (split; apply IZR_le; lia).
  assert (Q : (0 < IZR turn / IZR n <= 360)%R).
  { split; [apply Rdiv_lt_0_compat; lra|]. apply Rmult_le_reg_r with (IZR n); [lra|].
    unfold Rdiv. rewrite Rmult_assoc, Rinv_l by lra. nra. }
  apply about_weaken with (60 * bpow radix2 (-44) + bpow radix2 (-44))%R; [|cbn; lra].
  apply scaled.
  - exists (rnd (IZR turn / IZR n)). split.
    + apply fl_div; [exact Ft|exact Hy|lra|]. apply big_le. rewrite Rabs_pos_eq; lra.
    + apply (rnd_err 9); [lia|]. rewrite Rabs_pos_eq by lra. cbn. lra.
  - apply zone_sum; auto; lia.
  - exact Q.
  - cbn; lra.
  - nia.
  - apply Rle_trans with (IZR turn / IZR n * IZR n)%R.
    + apply Rmult_le_compat_l; [lra|].
      assert (IZR (131072 * (j mod n) + c) <= 131072 * IZR n)%R by (rewrite <- mult_IZR; apply IZR_le; nia). lra.
    + unfold Rdiv. rewrite Rmult_assoc, Rinv_l by lra. lra.
Qed.

Lemma southern_0 : forall T, 0 <= T < 131072 * 59 -> southern (360 / 59 * (IZR T / 131072)) = 0%R -> T = 0.
Proof.
  intros T HT E. assert (0 <= IZR T <= 131072 * 59 - 1)%R by (split; [apply IZR_le; lia|rewrite <- mult_IZR, <- minus_IZR; apply IZR_le; lia]).
  unfold southern in E. apply eq_IZR. destruct (Rle_bool_spec 270 (360 / 59 * (IZR T / 131072))); lra.
Qed.

(* the equator is decoded exactly *)
Lemma odd_0 : forall y, fl y 0 ->
  fl (if fl_leb (f64_lit 270 1) (f64_mul (f64_lit 360 59) y) then f64_sub (f64_mul (f64_lit 360 59) y) (f64_lit 360 1)
         else f64_mul (f64_lit 360 59) y) 0.
Proof.
  intros y Hy. destruct c360_59 as (v & Fv & Ev).
  pose proof (fl_mul _ _ _ _ Fv Hy) as F. rewrite Rmult_0_r in F.
  assert (Z0 : rnd 0 = 0%R) by (apply round_0; typeclasses eauto). rewrite Z0 in F.
  specialize (F ltac:(apply big_le; rewrite Rabs_R0; lra)).
  rewrite (fl_leb_R (f64_lit 270 1) _ 270 0) by (exact F || flc). rewrite Rle_bool_false by lra. exact F.
Qed.

Lemma airborne_decode0 : forall m evenLat evenLon oddLat oddLon last,
  code evenLat -> code evenLon -> code oddLat -> code oddLon ->
  let result := GetCPRAirborneGlobalPosition (floats m) evenLat evenLon oddLat oddLon last in
  exists xe xo,
    about xe (airborne_decoded_latitude false evenLat oddLat) (1 / 100000000000) /\
    about xo (airborne_decoded_latitude true evenLat oddLat) (1 / 100000000000) /\
    fl xe (airborne_decoded_latitude false evenLat oddLat) /\
    (airborne_decoded_latitude true evenLat oddLat = 0%R -> fl xo 0) /\
    let ne := getNumberOfLongitude (floats m) xe in
    let no := getNumberOfLongitude (floats m) xo in
    (fl_eqb ne no = false -> exists error, result = Err error) /\
    (forall n, 1 <= n <= 59 -> fl ne (IZR n) -> fl no (IZR n) ->
       exists lon v, result = Ok ((if last then xe else xo), lon) /\ fl lon v /\ (-180 < v <= 180)%R /\
         same_angle v (decoded 360 (longitude_zones n (negb last)) (zone_index n evenLon oddLon)
                               (if last then evenLon else oddLon)) (1 / 100000000000)).
Proof.
  intros m e E o O last He HE Ho HO result. unfold code in *.
  set (j := (59 * e - 60 * o + 65536) / 131072).
  assert (J : fl (f64_floor (f64_add (f64_sub (f64_mul (f64_lit 59 1) (f64_div (f64_of_Z e) (f64_lit 131072 1)))
                                  (f64_mul (f64_lit 60 1) (f64_div (f64_of_Z o) (f64_lit 131072 1)))) (f64_lit 1 2)))
     (IZR j)) by (apply index_left; try flc; lia).
  assert (Bj : Z.abs j < 2 ^ 20).
  { unfold j. pose proof (Z.div_mod (59 * e - 60 * o + 65536) 131072 ltac:(lia)).
    pose proof (Z.mod_pos_bound (59 * e - 60 * o + 65536) 131072 ltac:(lia)). lia. }
  unfold result, GetCPRAirborneGlobalPosition.
  cbn [floats num of_Z lit litpi add sub mul div ltb leb eqb floor abs max sqrt cos sin acos atan2 pow].
  set (jf := f64_floor _) in *.
  set (ye := f64_add (mod_ (floats m) jf (f64_lit 60 1)) _).
  set (yo := f64_add (mod_ (floats m) jf (f64_lit 59 1)) _).
  set (xe := if fl_leb (f64_lit 270 1) (f64_mul (f64_lit 360 60) ye) then _ else _).
  set (xo := if fl_leb (f64_lit 270 1) (f64_mul (f64_lit 360 59) yo) then _ else _).
  exists xe, xo.
  pose proof (Z.mod_pos_bound j 60 ltac:(lia)) as B60. pose proof (Z.mod_pos_bound j 59 ltac:(lia)) as B59.
  assert (Xe : fl xe (airborne_decoded_latitude false e o)).
  { unfold airborne_decoded_latitude, decoded, latitude_zones. rewrite zone_index_Z. change (60 - 1) with 59. fold j.
    replace (360 / 60 * (IZR (j mod 60) + IZR e / 131072))%R with (IZR (6 * (131072 * (j mod 60) + e)) / 131072)%R
      by (rewrite mult_IZR, plus_IZR, mult_IZR; field).
    apply wrap_even; [|lia].
    unfold dy. replace (IZR (6 * (131072 * (j mod 60) + e)) / 131072)%R with (6 * (IZR (j mod 60) + IZR e / 131072))%R
      by (rewrite mult_IZR, plus_IZR, mult_IZR; field).
    apply lat_even; assumption. }
  split; [|split; [|split; [exact Xe|split; [|split]]]].
  - apply about_weaken with 0%R; [|lra]. apply about_fl. exact Xe.
  - apply about_weaken with p42; [|unfold p42; cbn; lra].
    unfold airborne_decoded_latitude, decoded, latitude_zones. rewrite zone_index_Z. change (60 - 1) with 59. fold j.
    replace (IZR (j mod 59) + IZR o / 131072)%R with (IZR (131072 * (j mod 59) + o) / 131072)%R
      by (rewrite plus_IZR, mult_IZR; field).
    apply wrap_odd; [apply zone_sum; auto; try lia; flc|lia|].
    replace (IZR (131072 * (j mod 59) + o) / 131072)%R with (IZR (j mod 59) + IZR o / 131072)%R
      by (rewrite plus_IZR, mult_IZR; field).
    apply lat_odd; assumption.
  - unfold airborne_decoded_latitude, decoded, latitude_zones. rewrite zone_index_Z. change (60 - 1) with 59. fold j.
    replace (IZR (j mod 59) + IZR o / 131072)%R with (IZR (131072 * (j mod 59) + o) / 131072)%R
      by (rewrite plus_IZR, mult_IZR; field).
    intros Z0. apply southern_0 in Z0; [|lia]. apply odd_0.
    assert (Y : dy yo (131072 * (j mod 59) + o)) by (apply zone_sum; auto; try lia; flc).
    rewrite Z0 in Y. unfold dy in Y. replace (0 / 131072)%R with 0%R in Y by lra. exact Y.
  - intros N. rewrite N. cbn [negb]. eexists. reflexivity.
  - intros n Hn Fe Fo.
    assert (Eq : fl_eqb (getNumberOfLongitude (floats m) xe) (getNumberOfLongitude (floats m) xo) = true)
      by (rewrite (fl_eqb_R _ _ _ _ Fe Fo); apply Req_bool_true; reflexivity).
    rewrite Eq. cbn [negb].
    set (nl := getNumberOfLongitude (floats m) xe) in *.
    assert (Fm1 : fl (f64_sub nl (f64_lit 1 1)) (IZR (n - 1))).
    { apply dy_int. replace (131072 * (n - 1)) with (131072 * n - 131072 * 1) by ring.
      apply dy_sub; [apply dy_int; exact Fe|apply dy_int; flc|lia]. }
    assert (Fm0 : fl (f64_sub nl (f64_lit 0 1)) (IZR n)).
    { apply dy_int. replace (131072 * n) with (131072 * n - 131072 * 0) by ring.
      apply dy_sub; [apply dy_int; exact Fe|apply dy_int; flc|lia]. }
    assert (F1 : fl (f64_lit 1 1) 1) by flc.
    assert (Ne : fl (f64_max (f64_sub nl (f64_lit 0 1)) (f64_lit 1 1)) (IZR (longitude_zones n false))).
    { unfold longitude_zones. replace (IZR (Z.max n 1)) with (Rmax (IZR n) 1). apply fl_max; assumption.
      assert (1 <= IZR n)%R by (apply IZR_le; lia). rewrite Rmax_left by lra. f_equal. lia. }
    assert (No : fl (f64_max (f64_sub nl (f64_lit 1 1)) (f64_lit 1 1)) (IZR (longitude_zones n true))).
    { unfold longitude_zones. replace (IZR (Z.max (n - 1) 1)) with (Rmax (IZR (n - 1)) 1). apply fl_max; assumption.
      destruct (Z.eq_dec n 1) as [->|D].
      - cbn. rewrite Rmax_right by lra. reflexivity.
      - assert (1 <= IZR (n - 1))%R by (apply IZR_le; lia). rewrite Rmax_left by lra. f_equal. lia. }
    set (M := ((n - 1) * E - n * O + 65536) / 131072).
    assert (FM : fl (f64_floor (f64_add (f64_sub (f64_mul (f64_div (f64_of_Z E) (f64_lit 131072 1)) (f64_sub nl (f64_lit 1 1)))
                                  (f64_mul (f64_div (f64_of_Z O) (f64_lit 131072 1)) nl)) (f64_lit 1 2))) (IZR M)).
    { apply index_right; auto; lia. }
    assert (BM : Z.abs M < 2 ^ 20).
    { unfold M. pose proof (Z.div_mod ((n - 1) * E - n * O + 65536) 131072 ltac:(lia)).
      pose proof (Z.mod_pos_bound ((n - 1) * E - n * O + 65536) 131072 ltac:(lia)). nia. }
    set (Mf := f64_floor (f64_add (f64_sub (f64_mul (f64_div (f64_of_Z E) (f64_lit 131072 1)) (f64_sub nl (f64_lit 1 1)))
                                  (f64_mul (f64_div (f64_of_Z O) (f64_lit 131072 1)) nl)) (f64_lit 1 2))) in *.
    assert (Z0 : 1 <= longitude_zones n false <= 60) by (unfold longitude_zones; lia).
    assert (Z1 : 1 <= longitude_zones n true <= 60) by (unfold longitude_zones; lia).
    assert (L : exists y z c, (if last then f64_mul (f64_div (f64_lit 360 1) (f64_max (f64_sub nl (f64_lit 0 1)) (f64_lit 1 1)))
                     (f64_add (mod_ (floats m) Mf (f64_max (f64_sub nl (f64_lit 0 1)) (f64_lit 1 1))) (f64_div (f64_of_Z E) (f64_lit 131072 1)))
                   else f64_mul (f64_div (f64_lit 360 1) (f64_max (f64_sub nl (f64_lit 1 1)) (f64_lit 1 1)))
                     (f64_add (mod_ (floats m) Mf (f64_max (f64_sub nl (f64_lit 1 1)) (f64_lit 1 1))) (f64_div (f64_of_Z O) (f64_lit 131072 1)))) = y /\
              z = longitude_zones n (negb last) /\ 1 <= z <= 60 /\ c = (if last then E else O) /\ 0 <= c < 131072 /\
              about y (360 / IZR z * (IZR (M mod z) + IZR c / 131072)) (bpow radix2 (-37) - bpow radix2 (-40))).
    { destruct last; do 3 eexists; (split; [reflexivity|]; split; [reflexivity|]; split; [assumption|]; split; [reflexivity|]; split; [assumption|]);
        apply (lon_zone m 360); auto; first [exact FM|flc]. }
    destruct L as (y & z & c & -> & Hz & Bz & Hc & Bc & (v & Fv & Ev)).
    apply Rabs_le_inv in Ev. rewrite <- Hz, <- Hc.
    assert (D : (decoded 360 z (zone_index n E O) c = 360 / IZR z * (IZR (M mod z) + IZR c / 131072))%R)
      by (unfold decoded; rewrite zone_index_Z; reflexivity).
    rewrite D. clear D. pose proof (Z.mod_pos_bound M z ltac:(lia)) as Bm.
    assert (ZR : (1 <= IZR z <= 60)%R) by (split; apply IZR_le; lia).
    set (w := (360 / IZR z * (IZR (M mod z) + IZR c / 131072))%R) in *.
    assert (W : (0 <= w <= 360 - 360 / 60 / 131072)%R).
    { assert (A1 : (0 <= IZR (M mod z) <= IZR z - 1)%R) by (split; [apply IZR_le; lia|rewrite <- minus_IZR; apply IZR_le; lia]).
      assert (A2 : (0 <= IZR c <= 131071)%R) by (split; apply IZR_le; lia).
      assert (I : (0 < / IZR z)%R) by (apply Rinv_0_lt_compat; lra).
      assert (I2 : (/ 60 <= / IZR z)%R) by (apply Rinv_le; lra).
      unfold w. split.
      - apply Rmult_le_pos; [unfold Rdiv; nra|lra].
      - apply Rle_trans with (360 / IZR z * (IZR z - 1 / 131072))%R.
        + apply Rmult_le_compat_l; [unfold Rdiv; nra|lra].
        + replace (360 / IZR z * (IZR z - 1 / 131072))%R with (360 - 360 / 131072 * / IZR z)%R by (field; lra). lra. }
    pose proof eps_small as ES. unfold eps in ES.
    assert (P40 : (bpow radix2 (-44) < bpow radix2 (-40))%R) by (apply bpow_lt; lia).
    assert (P45 : (0 < bpow radix2 (-44))%R) by apply bpow_gt_0.
    assert (F180 : fl (f64_lit 180 1) 180) by flc.
    rewrite (fl_ltb_R _ _ _ _ F180 Fv). destruct (Rlt_bool_spec 180 v) as [G|G].
    + exists (f64_sub y (f64_lit 360 1)), (v - 360)%R. split; [reflexivity|].
      split; [apply fl_sub_exact; [exact Fv|flc|lra|apply big_le, Rabs_le; lra]|].
      split; [lra|]. exists (-1). apply Rabs_le. lra.
    + exists y, v. split; [reflexivity|]. split; [exact Fv|]. split; [lra|]. exists 0. apply Rabs_le. lra.
Qed.

Theorem airborne_global_decode : forall m evenLat evenLon oddLat oddLon last,
  code evenLat -> code evenLon -> code oddLat -> code oddLon ->
  let result := GetCPRAirborneGlobalPosition (floats m) evenLat evenLon oddLat oddLon last in
  exists xe xo,
    about xe (airborne_decoded_latitude false evenLat oddLat) (1 / 100000000000) /\
    about xo (airborne_decoded_latitude true evenLat oddLat) (1 / 100000000000) /\
    let ne := getNumberOfLongitude (floats m) xe in
    let no := getNumberOfLongitude (floats m) xo in
    (fl_eqb ne no = false -> exists error, result = Err error) /\
    (forall n, 1 <= n <= 59 -> fl ne (IZR n) -> fl no (IZR n) ->
       exists lon v, result = Ok ((if last then xe else xo), lon) /\ fl lon v /\ (-180 < v <= 180)%R /\
         same_angle v (decoded 360 (longitude_zones n (negb last)) (zone_index n evenLon oddLon)
                               (if last then evenLon else oddLon)) (1 / 100000000000)).
Proof.
  intros m e E o O last He HE Ho HO result.
  destruct (airborne_decode0 m e E o O last He HE Ho HO) as (xe & xo & A & B & _ & _ & C). exists xe, xo. auto.
Qed.

(* ---- the round trip ---- *)

(* the latitude decoded is zero, or at least one step of the code, up to the rounding *)
Definition on_grid (turn v : R) : Prop := v = 0%R \/ (turn / 60 / 131072 - 1 / 1000000000 <= Rabs v)%R.

Lemma step_grid : forall turn z k c v, (0 < turn)%R -> 1 <= z <= 60 ->
  (Rabs (v - turn / IZR z * (IZR k + IZR c / 131072)) <= 1 / 10000000000)%R ->
  (131072 * k + c = 0 -> v = 0%R) -> on_grid turn v.
Proof.
  intros turn z k c v Ht Hz Ev E0. destruct (Z.eq_dec (131072 * k + c) 0) as [E|N]; [left; auto|right].
  assert (Z1 : (1 <= IZR z <= 60)%R) by (split; apply IZR_le; lia).
  replace (IZR k + IZR c / 131072)%R with (IZR (131072 * k + c) / 131072)%R in Ev by (rewrite plus_IZR, mult_IZR; field).
  set (T := 131072 * k + c) in *.
  assert (I : (/ 60 <= / IZR z)%R) by (apply Rinv_le; lra).
  assert (S : (turn / 60 / 131072 <= turn / IZR z / 131072)%R) by (unfold Rdiv; nra).
  set (a := (turn / IZR z / 131072)%R) in *. replace (turn / IZR z * (IZR T / 131072))%R with (a * IZR T)%R in Ev by (unfold a; field; lra).
  assert (0 < a)%R by (apply Rlt_le_trans with (2 := S); lra).
  apply Rabs_le_inv in Ev. assert (HT : T <= -1 \/ 1 <= T) by lia. destruct HT as [HT|HT]; apply IZR_le in HT.
  - assert (a * IZR T <= - a)%R by nra. apply Rle_trans with (- v)%R; [lra|]. rewrite <- Rabs_Ropp. apply Rle_abs.
  - assert (a <= a * IZR T)%R by nra. apply Rle_trans with v; [lra|]. apply Rle_abs.
Qed.

Lemma southern_back : forall N x c k, N = 59 \/ N = 60 -> (-90 <= x <= 90)%R -> encoded (360 / IZR N) x c k ->
  southern (360 / IZR N * (IZR (k mod N) + IZR c / 131072)) = (360 / IZR N * (IZR k + IZR c / 131072))%R.
Proof.
  intros N x c k HN Hx [Hc H]. apply Rabs_le_inv in H.
  set (Y := 131072 * k + c) in *.
  assert (NR : (IZR N = 59 \/ IZR N = 60)%R) by (destruct HN; subst; auto).
  assert (Q : (131072 * (x / (360 / IZR N)) = 131072 * IZR N / 360 * x)%R) by (field; destruct NR; lra).
  rewrite Q in H.
  assert (B : - (32768 * N) <= Y <= 32768 * N).
  { assert (IZR Y < IZR (32768 * N + 1))%R by (rewrite plus_IZR, mult_IZR; destruct NR as [E|E]; rewrite E in *; lra).
    assert (IZR (- (32768 * N) - 1) < IZR Y)%R by (rewrite minus_IZR, opp_IZR, mult_IZR; destruct NR as [E|E]; rewrite E in *; lra).
    apply lt_IZR in H0, H1. lia. }
  assert (V : forall j, (360 / IZR N * (IZR j + IZR c / 131072) = 360 / IZR N / 131072 * IZR (131072 * j + c))%R)
    by (intros j; rewrite plus_IZR, mult_IZR; field; destruct NR; lra).
  rewrite !V. fold Y. unfold southern. destruct (Z.ltb_spec Y 0) as [L|L].
  - assert (M : k mod N = k + N).
    { symmetry. apply Z.mod_unique with (-1); [|lia]. left. unfold Y in *. destruct HN; subst N; lia. }
    rewrite M. replace (131072 * (k + N) + c) with (Y + 131072 * N) by (unfold Y; ring).
    rewrite plus_IZR, mult_IZR. assert (-(32768 * IZR N) <= IZR Y)%R by (rewrite <- mult_IZR, <- opp_IZR; apply IZR_le; lia).
    rewrite Rle_bool_true; destruct NR as [E|E]; rewrite E in *; lra.
  - assert (M : k mod N = k) by (apply Z.mod_small; unfold Y in *; destruct HN; subst N; lia).
    rewrite M. fold Y. assert (IZR Y <= 32768 * IZR N)%R by (rewrite <- mult_IZR; apply IZR_le; lia).
    rewrite Rle_bool_false; [reflexivity|]. destruct NR as [E|E]; rewrite E in *; lra.
Qed.

Lemma turns : forall z k c, 1 <= z ->
  exists q, (360 / IZR z * (IZR (k mod z) + IZR c / 131072) = 360 / IZR z * (IZR k + IZR c / 131072) + 360 * IZR q)%R.
Proof.
  intros z k c Hz. exists (- (k / z)). rewrite Z.mod_eq by lia. rewrite minus_IZR, mult_IZR, opp_IZR.
  assert (1 <= IZR z)%R by (apply IZR_le; lia). field. lra.
Qed.

Lemma zone_width : forall z, 1 <= z <= 60 -> (0 < 360 / IZR z)%R.
Proof. intros z Hz. assert (1 <= IZR z <= 60)%R by (split; apply IZR_le; lia). apply Rdiv_lt_0_compat; lra. Qed.

Lemma encode_code : forall Nb zone x, code (encode Nb zone x).
Proof. intros. unfold code, encode. apply Z.mod_pos_bound. lia. Qed.

Lemma airborne_global_grid : forall m lat lon n last,
  (-90 <= lat <= 90)%R -> 1 <= n <= 59 ->
  (forall x v, fl x v -> (Rabs (v - lat) <= 1 / 30000)%R -> on_grid 360 v -> fl (getNumberOfLongitude (floats m) x) (IZR n)) ->
  exists x y v w,
    GetCPRAirborneGlobalPosition (floats m) (airborne_latitude false lat) (airborne_longitude n false lon)
      (airborne_latitude true lat) (airborne_longitude n true lon) last = Ok (x, y) /\
    fl x v /\ (Rabs (v - lat) <= half_step 360 (latitude_zones (negb last)) + 1 / 100000000000)%R /\
    fl y w /\ (-180 < w <= 180)%R /\
    same_angle w lon (half_step 360 (longitude_zones n (negb last)) + 1 / 100000000000).
Proof.
  intros m lat lon n last Hlat Hn NL.
  set (e := airborne_latitude false lat). set (o := airborne_latitude true lat).
  set (E := airborne_longitude n false lon). set (U := airborne_longitude n true lon).
  destruct (airborne_decode0 m e E o U last (encode_code _ _ _) (encode_code _ _ _) (encode_code _ _ _) (encode_code _ _ _))
    as (xe & xo & Ae & Ao & Ze & Zo & _ & H).
  destruct (encoded_17 (360 / IZR 60) lat ltac:(lra)) as (ke & Ke). change (encode 17 (360 / IZR 60) lat) with e in Ke.
  destruct (encoded_17 (360 / IZR 59) lat ltac:(lra)) as (ko & Ko). change (encode 17 (360 / IZR 59) lat) with o in Ko.
  pose proof (index_pair 360 60 lat e ke o ko ltac:(lra) ltac:(lia) Ke Ko) as J.
  assert (De : airborne_decoded_latitude false e o = (360 / IZR 60 * (IZR ke + IZR e / 131072))%R).
  { unfold airborne_decoded_latitude, decoded, latitude_zones. rewrite zone_index_Z, J, index_even by lia.
    apply (southern_back 60 lat); auto. }
  assert (Do : airborne_decoded_latitude true e o = (360 / IZR 59 * (IZR ko + IZR o / 131072))%R).
  { unfold airborne_decoded_latitude, decoded, latitude_zones. rewrite zone_index_Z, J. rewrite (index_odd 60) by lia.
    apply (southern_back 59 lat); auto. }
  pose proof (encoded_near (360 / IZR 60) lat e ke ltac:(lra) Ke) as Ne. rewrite <- De in Ne.
  pose proof (encoded_near (360 / IZR 59) lat o ko ltac:(lra) Ko) as No. rewrite <- Do in No.
  destruct Ae as (ve & Fe & Ve). destruct Ao as (vo & Fo & Vo).
  assert (Ge : on_grid 360 ve).
  { apply (step_grid 360 60 ke e); [lra|lia|rewrite <- De; lra|]. intros Z0. rewrite (fl_unique _ _ _ Fe Ze), De.
    replace e with (- (131072 * ke)) by lia. rewrite opp_IZR, mult_IZR. field. }
  assert (Go : on_grid 360 vo).
  { apply (step_grid 360 59 ko o); [lra|lia|rewrite <- Do; lra|]. intros Z0. apply (fl_unique _ _ _ Fo), Zo. rewrite Do.
    replace o with (- (131072 * ko)) by lia. rewrite opp_IZR, mult_IZR. field. }
  apply Rabs_le_inv in Ne, No, Ve, Vo.
  assert (Ce : (Rabs (ve - lat) <= half_step 360 60 + 1 / 100000000000)%R) by (unfold half_step; apply Rabs_le; lra).
  assert (Co : (Rabs (vo - lat) <= half_step 360 59 + 1 / 100000000000)%R) by (unfold half_step; apply Rabs_le; lra).
  destruct (H n Hn) as (y & w & R & Fw & Bw & k & Sw).
  { apply NL with ve; [exact Fe| |exact Ge]. unfold half_step in Ce. lra. }
  { apply NL with vo; [exact Fo| |exact Go]. unfold half_step in Co. lra. }
  exists (if last then xe else xo), y, (if last then ve else vo), w.
  split; [exact R|]. split; [destruct last; assumption|]. split; [destruct last; assumption|].
  split; [exact Fw|]. split; [exact Bw|].
  set (z := longitude_zones n (negb last)) in *.
  set (c := if last then E else U) in *.
  assert (Bz : 1 <= z <= 60) by (unfold z, longitude_zones; destruct last; cbn; lia).
  assert (L : exists kl, encoded (360 / IZR z) lon c kl /\ zone_index n E U mod z = kl mod z).
  { destruct (encoded_17 (360 / IZR (longitude_zones n false)) lon) as (le & Le);
      [apply zone_width; unfold longitude_zones; lia|]. change (encode 17 _ lon) with E in Le.
    destruct (encoded_17 (360 / IZR (longitude_zones n true)) lon) as (lo & Lo);
      [apply zone_width; unfold longitude_zones; lia|]. change (encode 17 _ lon) with U in Lo.
    exists (if last then le else lo). split; [unfold z, c; destruct last; assumption|].
    destruct (Z.eq_dec n 1) as [->|N1].
    - replace z with 1 by (unfold z, longitude_zones; destruct last; reflexivity). rewrite !Z.mod_1_r. reflexivity.
    - replace (longitude_zones n false) with n in Le by (unfold longitude_zones; lia).
      replace (longitude_zones n true) with (n - 1) in Lo by (unfold longitude_zones; lia).
      rewrite zone_index_Z, (index_pair 360 n lon E le U lo ltac:(lra) ltac:(lia) Le Lo).
      unfold z, longitude_zones. destruct last; cbn [negb].
      + rewrite Z.max_l by lia. apply index_even. lia.
      + rewrite Z.max_l by lia. apply index_odd. lia. }
  destruct L as (kl & Kl & Il).
  unfold decoded in Sw. rewrite Il in Sw. destruct (turns z kl c ltac:(lia)) as (q & Q). rewrite Q in Sw.
  pose proof (encoded_near _ _ _ _ (zone_width z Bz) Kl) as Nl.
  exists (q + k). rewrite plus_IZR. unfold half_step. apply Rabs_le_inv in Sw, Nl. apply Rabs_le. lra.
Qed.

Theorem airborne_global : forall m lat lon n last,
  (-90 <= lat <= 90)%R -> 1 <= n <= 59 ->
  (forall x v, fl x v -> (Rabs (v - lat) <= 1 / 30000)%R -> fl (getNumberOfLongitude (floats m) x) (IZR n)) ->
  exists x y v w,
    GetCPRAirborneGlobalPosition (floats m) (airborne_latitude false lat) (airborne_longitude n false lon)
      (airborne_latitude true lat) (airborne_longitude n true lon) last = Ok (x, y) /\
    fl x v /\ (Rabs (v - lat) <= half_step 360 (latitude_zones (negb last)) + 1 / 100000000000)%R /\
    fl y w /\ (-180 < w <= 180)%R /\
    same_angle w lon (half_step 360 (longitude_zones n (negb last)) + 1 / 100000000000).
Proof. intros m lat lon n last B Hn NL. apply (airborne_global_grid m lat lon n last B Hn). intros x v Fx Hv _. apply NL with v; assumption. Qed.
