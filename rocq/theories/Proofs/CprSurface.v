(* C53: global decoding of surface positions. *)
From Verif Require Import GoBase.
From Coq Require Import ZArith Reals Lia Lra Psatz.
From Coq Require Import Floats.SpecFloat.
From Flocq Require Import Core.
From Verif.Spec Require Import Binary64 Cpr.
From Verif.Proofs Require Import FloatR FloatOps CprFloat CprReal CprGlobal CprLocal.
From Verif.Model Require Import Geo.
Local Open Scope Z_scope.

Lemma c90_59 : about (f64_lit 90 59) (90 / 59) p50.
Proof.
  replace (f64_lit 90 59) with (f64_div (f64_of_Z 90) (f64_of_Z 59)) by (vm_compute; reflexivity).
  exists (rnd (90 / 59)). split.
  - apply fl_div; [apply (fl_of_Z 90); lia|apply (fl_of_Z 59); lia|lra|]. apply big_le. rewrite Rabs_pos_eq; lra.
  - apply (rnd_err 3); [lia|]. rewrite Rabs_pos_eq by lra. cbn. lra.
Qed.

Lemma c90_60 : about (f64_lit 90 60) (90 / 60) p50.
Proof.
  replace (f64_lit 90 60) with (f64_div (f64_of_Z 90) (f64_of_Z 60)) by (vm_compute; reflexivity).
  exists (rnd (90 / 60)). split.
  - apply fl_div; [apply (fl_of_Z 90); lia|apply (fl_of_Z 60); lia|lra|]. apply big_le. rewrite Rabs_pos_eq; lra.
  - apply (rnd_err 3); [lia|]. rewrite Rabs_pos_eq by lra. cbn. lra.
Qed.

Lemma surface_lat : forall m N L y j x c, N = 59 \/ N = 60 -> about L (90 / IZR N) p50 -> fl y (IZR N) ->
  fl x (IZR j) -> Z.abs j < 2 ^ 20 -> 0 <= c < 131072 ->
  about (f64_mul L (f64_add (mod_ (floats m) x y) (f64_div (f64_of_Z c) (f64_lit 131072 1))))
     (90 / IZR N * (IZR (j mod N) + IZR c / 131072)) p42.
Proof.
  intros m N L y j x c HN HL Hy Hx Hj Hc. assert (BN : 59 <= N <= 60) by (destruct HN; lia).
  pose proof (Z.mod_pos_bound j N ltac:(lia)).
  assert (NR : (59 <= IZR N <= 60)%R) by (split; apply IZR_le; lia).
  apply about_weaken with (60 * p50 + bpow radix2 (-44))%R; [|unfold p50, p42; cbn; lra].
  replace (IZR (j mod N) + IZR c / 131072)%R with (IZR (131072 * (j mod N) + c) / 131072)%R
    by (rewrite plus_IZR, mult_IZR; field).
  assert (Q : (90 / IZR N * IZR N = 90)%R) by (field; lra).
  apply scaled; [exact HL|apply zone_sum; auto; lia|split; nra|unfold p50; cbn; lra|nia|].
  assert (0 <= IZR (131072 * (j mod N) + c) <= 131072 * IZR N)%R by (rewrite <- mult_IZR; split; apply IZR_le; nia). nra.
Qed.

Lemma shift_south : forall (b : bool) x v, about x v p42 -> (0 <= v <= 90)%R ->
  about (if b then f64_sub x (f64_lit 90 1) else x) (v - (if b then 90 else 0)) (1 / 100000000000).
Proof.
  intros b x v (w & Fw & Ew) Hv. assert (P : (0 < p42 < 1 / 1000000000000)%R) by (unfold p42; split; [apply bpow_gt_0|cbn; lra]).
  apply Rabs_le_inv in Ew. destruct b.
  - assert (F90 : fl (f64_lit 90 1) 90) by flc.
    pose proof (fl_sub _ _ _ _ Fw F90 ltac:(apply big_le, Rabs_le; lra)) as F.
    rounded F 7 e He. specialize (He ltac:(apply Rabs_le; cbn; lra)). apply Rabs_le_inv in He.
    assert (bpow radix2 (-46) < 1 / 1000000000000)%R by (cbn; lra).
    exists (w - 90 + e)%R. split; [exact F|]. apply Rabs_le. lra.
  - exists w. split; [exact Fw|]. apply Rabs_le. lra.
Qed.

(* ---- the four longitudes ---- *)

Definition wrap (m : mathlib) (x : f64) : f64 :=
  f64_sub (mod_ (floats m) (f64_add x (f64_lit 180 1)) (f64_lit 360 1)) (f64_lit 180 1).

Lemma wrap_low : forall m x v, fl x v -> (0 <= v <= 180 - 1 / 1000000)%R -> about (wrap m x) v (bpow radix2 (-42)).
Proof.
  intros m x v Fx Hv.
  assert (F180 : fl (f64_lit 180 1) 180) by flc. assert (F360 : fl (f64_lit 360 1) 360) by flc.
  pose proof (fl_add _ _ _ _ Fx F180 ltac:(apply big_le, Rabs_le; lra)) as F1.
  rounded F1 9 e1 E1. specialize (E1 ltac:(apply Rabs_le; cbn; lra)). apply Rabs_le_inv in E1.
  assert (P : (0 < bpow radix2 (-44) < 1 / 10000000000000)%R) by (split; [apply bpow_gt_0|cbn; lra]).
  pose proof (fl_div _ _ _ _ F1 F360 ltac:(lra) ltac:(apply big_le, Rabs_le; lra)) as F2.
  rounded F2 0 e2 E2. specialize (E2 ltac:(apply Rabs_le; cbn; lra)). apply Rabs_le_inv in E2.
  assert (P2 : (bpow radix2 (-53) < 1 / 10000000000000)%R) by (cbn; lra).
  pose proof (fl_floor _ _ F2) as F3. rewrite (Zfloor_imp 0) in F3 by (cbn; lra).
  pose proof (fl_mul _ _ _ _ F360 F3 ltac:(apply big_le; rewrite Rmult_0_r, Rabs_R0; lra)) as F4.
  rewrite Rmult_0_r, (rnd_IZR 0) in F4 by lia.
  pose proof (fl_sub _ _ _ _ F1 F4 ltac:(apply big_le, Rabs_le; lra)) as F5.
  rewrite Rminus_0_r, (fl_rnd _ _ F1) in F5.
  pose proof (fl_sub _ _ _ _ F5 F180 ltac:(apply big_le, Rabs_le; lra)) as F6.
  rounded F6 9 e3 E3. specialize (E3 ltac:(apply Rabs_le; cbn; lra)). apply Rabs_le_inv in E3.
  assert (P3 : (bpow radix2 (-42) = 4 * bpow radix2 (-44))%R) by (cbn; lra).
  eexists. split; [exact F6|]. apply Rabs_le. lra.
Qed.

Lemma wrap_high : forall m x v, fl x v -> (180 <= v <= 361)%R -> about (wrap m x) (v - 360) (bpow radix2 (-40)).
Proof.
  intros m x v Fx Hv.
  assert (F180 : fl (f64_lit 180 1) 180) by flc. assert (F360 : fl (f64_lit 360 1) 360) by flc.
  pose proof (fl_add _ _ _ _ Fx F180 ltac:(apply big_le, Rabs_le; lra)) as F1.
  assert (G : (360 <= rnd (v + 180))%R) by (rewrite <- (rnd_IZR 360) by lia; apply rnd_le; lra).
  rounded F1 10 e1 E1.
  replace (rnd (v + 180)) with (v + 180 + e1)%R in G by (unfold e1; ring).
  specialize (E1 ltac:(apply Rabs_le; cbn; lra)). apply Rabs_le_inv in E1.
  assert (P : (0 < bpow radix2 (-43) < 1 / 1000000000000)%R) by (split; [apply bpow_gt_0|cbn; lra]).
  pose proof (fl_div _ _ _ _ F1 F360 ltac:(lra) ltac:(apply big_le, Rabs_le; lra)) as F2.
  assert (G2 : (1 <= rnd ((v + 180 + e1) / 360))%R) by (rewrite <- (rnd_IZR 1) by lia; apply rnd_le; lra).
  rounded F2 1 e2 E2. replace (rnd ((v + 180 + e1) / 360)) with ((v + 180 + e1) / 360 + e2)%R in G2 by (unfold e2; ring).
  specialize (E2 ltac:(apply Rabs_le; cbn; lra)). apply Rabs_le_inv in E2.
  assert (P2 : (bpow radix2 (-52) < 1 / 10000000000000)%R) by (cbn; lra).
  pose proof (fl_floor _ _ F2) as F3. rewrite (Zfloor_imp 1) in F3 by (cbn; lra).
  pose proof (fl_mul _ _ _ _ F360 F3 ltac:(apply big_le; rewrite Rmult_1_r, Rabs_pos_eq; lra)) as F4.
  rewrite Rmult_1_r, (rnd_IZR 360) in F4 by lia.
  pose proof (fl_sub _ _ _ _ F1 F4 ltac:(apply big_le, Rabs_le; lra)) as F5.
  rounded F5 9 e3 E3. specialize (E3 ltac:(apply Rabs_le; cbn; lra)). apply Rabs_le_inv in E3.
  assert (P4 : (bpow radix2 (-44) < 1 / 10000000000000)%R) by (cbn; lra).
  pose proof (fl_sub _ _ _ _ F5 F180 ltac:(apply big_le, Rabs_le; lra)) as F6.
  rounded F6 9 e4 E4. specialize (E4 ltac:(apply Rabs_le; cbn; lra)). apply Rabs_le_inv in E4.
  assert (P3 : (bpow radix2 (-40) = 16 * bpow radix2 (-44))%R) by (cbn; lra).
  assert (P5 : (bpow radix2 (-43) = 2 * bpow radix2 (-44))%R) by (cbn; lra).
  eexists. split; [exact F6|]. apply Rabs_le. lra.
Qed.

Definition p38 : R := bpow radix2 (-38).

Lemma four : forall m x v, fl x v -> (0 <= v <= 90 - 1 / 200000)%R ->
  about (wrap m x) v p38 /\ about (wrap m (f64_add x (f64_lit 90 1))) (v + 90) p38 /\
  about (wrap m (f64_add x (f64_lit 180 1))) (v - 180) p38 /\ about (wrap m (f64_add x (f64_lit 270 1))) (v - 90) p38.
Proof.
  intros m x v Fx Hv.
  assert (P : (0 < bpow radix2 (-44) < 1 / 10000000000000)%R) by (split; [apply bpow_gt_0|cbn; lra]).
  assert (P42 : (bpow radix2 (-42) = 4 * bpow radix2 (-44))%R) by (cbn; lra).
  assert (P40 : (bpow radix2 (-40) = 16 * bpow radix2 (-44))%R) by (cbn; lra).
  assert (P38 : (p38 = 64 * bpow radix2 (-44))%R) by (unfold p38; cbn; lra).
  assert (F90 : fl (f64_lit 90 1) 90) by flc. assert (F180 : fl (f64_lit 180 1) 180) by flc.
  assert (F270 : fl (f64_lit 270 1) 270) by flc.
  split; [|split; [|split]].
  - apply about_weaken with (bpow radix2 (-42)); [|lra]. apply wrap_low; [exact Fx|lra].
  - pose proof (fl_add _ _ _ _ Fx F90 ltac:(apply big_le, Rabs_le; lra)) as F.
    rounded F 9 e E. specialize (E ltac:(apply Rabs_le; cbn; lra)). apply Rabs_le_inv in E.
    destruct (wrap_low m _ _ F ltac:(lra)) as (w & Fw & Ew). apply Rabs_le_inv in Ew.
    exists w. split; [exact Fw|]. apply Rabs_le. lra.
  - pose proof (fl_add _ _ _ _ Fx F180 ltac:(apply big_le, Rabs_le; lra)) as F.
    assert (G : (180 <= rnd (v + 180))%R) by (pose proof (rnd_le 180 (v + 180) ltac:(lra)) as G; rewrite (rnd_IZR 180) in G by lia; exact G).
    rounded F 9 e E. replace (rnd (v + 180)) with (v + 180 + e)%R in G by (unfold e; ring).
    specialize (E ltac:(apply Rabs_le; cbn; lra)). apply Rabs_le_inv in E.
    destruct (wrap_high m _ _ F ltac:(lra)) as (w & Fw & Ew). apply Rabs_le_inv in Ew.
    exists w. split; [exact Fw|]. apply Rabs_le. lra.
  - pose proof (fl_add _ _ _ _ Fx F270 ltac:(apply big_le, Rabs_le; lra)) as F.
    rounded F 9 e E. specialize (E ltac:(apply Rabs_le; cbn; lra)). apply Rabs_le_inv in E.
    destruct (wrap_high m _ _ F ltac:(lra)) as (w & Fw & Ew). apply Rabs_le_inv in Ew.
    exists w. split; [exact Fw|]. apply Rabs_le. lra.
Qed.

Lemma distance : forall x y v s, fl x v -> fl y s -> (Rabs v <= 200)%R -> (Rabs s <= 360)%R ->
  exists d, fl (f64_abs (f64_sub y x)) d /\ (Rabs (d - Rabs (s - v)) <= p38)%R /\ (d < 10000000)%R.
Proof.
  intros x y v s Fx Fy Hv Hs. apply Rabs_le_inv in Hv, Hs.
  assert (P38 : (bpow radix2 (-43) <= p38)%R) by (unfold p38; cbn; lra).
  assert (PP : (p38 < 1)%R) by (unfold p38; cbn; lra).
  pose proof (fl_sub _ _ _ _ Fy Fx ltac:(apply big_le, Rabs_le; lra)) as F.
  rounded F 10 e E. specialize (E ltac:(apply Rabs_le; cbn; lra)).
  exists (Rabs (s - v + e)). split; [apply fl_abs; exact F|].
  assert (T : (Rabs (Rabs (s - v + e) - Rabs (s - v)) <= p38)%R).
  { apply Rle_trans with (1 := Rabs_triang_inv2 _ _). replace (s - v + e - (s - v))%R with e by ring. lra. }
  split; [exact T|]. apply Rabs_le_inv in T. apply Rabs_le_inv in E.
  assert (Rabs (s - v) <= 560)%R by (apply Rabs_le; lra). lra.
Qed.

Lemma smallest_four : forall m y s l v, fl y s -> (Rabs s <= 360)%R ->
  (forall i, 0 <= i <= 3 -> fl (l i) (v i) /\ (Rabs (v i) <= 200)%R) ->
  exists i, 0 <= i <= 3 /\
    smallest (floats m) (List.map (fun x => f64_abs (f64_sub y x)) [l 0; l 1; l 2; l 3]) 0 (f64_lit 10000000 1) (-1) = i /\
    forall j, 0 <= j <= 3 -> (Rabs (s - v i) <= Rabs (s - v j) + 2 * p38)%R.
Proof.
  intros m y s l v Fy Hs H.
  destruct (distance (l 0) y (v 0) s) as (d0 & D0 & E0 & B0); [apply H; lia|exact Fy|apply H; lia|exact Hs|].
  destruct (distance (l 1) y (v 1) s) as (d1 & D1 & E1 & B1); [apply H; lia|exact Fy|apply H; lia|exact Hs|].
  destruct (distance (l 2) y (v 2) s) as (d2 & D2 & E2 & B2); [apply H; lia|exact Fy|apply H; lia|exact Hs|].
  destruct (distance (l 3) y (v 3) s) as (d3 & D3 & E3 & B3); [apply H; lia|exact Fy|apply H; lia|exact Hs|].
  apply Rabs_le_inv in E0, E1, E2, E3.
  assert (FM : fl (f64_lit 10000000 1) 10000000) by flc.
  assert (J : forall P : Z -> Prop, P 0 -> P 1 -> P 2 -> P 3 -> forall j, 0 <= j <= 3 -> P j).
  { intros P Q0 Q1 Q2 Q3 j Hj. assert (C : j = 0 \/ j = 1 \/ j = 2 \/ j = 3) by lia. destruct C as [->|[->|[->| ->]]]; assumption. }
  cbn [List.map smallest floats num ltb].
  rewrite (fl_ltb_R _ _ _ _ D0 FM), (Rlt_bool_true _ _ B0). change (0 + 1) with 1.
  rewrite (fl_ltb_R _ _ _ _ D1 D0). destruct (Rlt_bool_spec d1 d0).
  - change (1 + 1) with 2. rewrite (fl_ltb_R _ _ _ _ D2 D1). destruct (Rlt_bool_spec d2 d1).
    + change (2 + 1) with 3. rewrite (fl_ltb_R _ _ _ _ D3 D2). destruct (Rlt_bool_spec d3 d2);
      eexists; (split; [|split; [reflexivity|]]); try lia; apply J; lra.
    + change (2 + 1) with 3. rewrite (fl_ltb_R _ _ _ _ D3 D1). destruct (Rlt_bool_spec d3 d1);
      eexists; (split; [|split; [reflexivity|]]); try lia; apply J; lra.
  - change (1 + 1) with 2. rewrite (fl_ltb_R _ _ _ _ D2 D0). destruct (Rlt_bool_spec d2 d0).
    + change (2 + 1) with 3. rewrite (fl_ltb_R _ _ _ _ D3 D2). destruct (Rlt_bool_spec d3 d2);
      eexists; (split; [|split; [reflexivity|]]); try lia; apply J; lra.
    + change (2 + 1) with 3. rewrite (fl_ltb_R _ _ _ _ D3 D0). destruct (Rlt_bool_spec d3 d0);
      eexists; (split; [|split; [reflexivity|]]); try lia; apply J; lra.
Qed.

(* the longitude in its quadrant: exactly 0, or away from both ends *)
Lemma quadrant : forall m j n x y c, fl x (IZR j) -> Z.abs j < 2 ^ 20 -> fl y (IZR n) -> 1 <= n <= 60 -> 0 <= c < 131072 ->
  exists v, fl (f64_mul (f64_div (f64_lit 90 1) y) (f64_add (mod_ (floats m) x y) (f64_div (f64_of_Z c) (f64_lit 131072 1)))) v /\
    (Rabs (v - 90 / IZR n * (IZR (j mod n) + IZR c / 131072)) <= bpow radix2 (-37) - bpow radix2 (-40))%R /\
    (0 <= v <= 90 - 1 / 200000)%R.
Proof.
  intros m j n x y c Hx Hj Hy Hn Hc.
  assert (F90 : fl (f64_lit 90 1) 90) by flc.
  destruct (lon_zone m 90 _ j n x y c ltac:(auto) F90 Hx Hj Hy Hn Hc) as (v & Fv & Ev).
  exists v. split; [exact Fv|]. split; [exact Ev|].
  pose proof (Z.mod_pos_bound j n ltac:(lia)) as Hm.
  assert (N : (1 <= IZR n <= 60)%R) by (split; apply IZR_le; lia).
  assert (Zt : (90 / IZR n * IZR n = 90)%R) by (field; lra).
  assert (Q : (3 / 2 <= 90 / IZR n <= 90)%R) by (split; nra).
  assert (P : (0 < bpow radix2 (-37) < 1 / 100000000000)%R) by (split; [apply bpow_gt_0|cbn; lra]).
  assert (P40 : (0 < bpow radix2 (-40))%R) by apply bpow_gt_0.
  set (T := 131072 * (j mod n) + c).
  replace (IZR (j mod n) + IZR c / 131072)%R with (IZR T / 131072)%R in Ev by (unfold T; rewrite plus_IZR, mult_IZR; field).
  assert (UB : T <= 131072 * n - 1) by (unfold T; nia).
  assert (UR : (IZR T <= 131072 * IZR n - 1)%R) by (rewrite <- mult_IZR, <- minus_IZR; apply IZR_le; lia).
  apply Rabs_le_inv in Ev. split.
  - destruct (Z.eq_dec T 0) as [T0|T0].
    + assert (A : fl (f64_add (mod_ (floats m) x y) (f64_div (f64_of_Z c) (f64_lit 131072 1))) 0).
      { pose proof (zone_sum m x y j n c Hx Hy Hj ltac:(lia) Hc) as S. fold T in S. rewrite T0 in S. unfold dy in S.
        replace (IZR 0 / 131072)%R with 0%R in S by lra. exact S. }
      pose proof (fl_div _ _ _ _ F90 Hy ltac:(lra) ltac:(apply big_le, Rabs_le; lra)) as FD.
      pose proof (fl_mul _ _ _ _ FD A ltac:(apply big_le; rewrite Rmult_0_r, Rabs_R0; lra)) as FM.
      rewrite Rmult_0_r, (rnd_IZR 0) in FM by lia. rewrite (fl_unique _ _ _ Fv FM). lra.
    + assert (1 <= IZR T)%R by (apply IZR_le; unfold T in *; lia). nra.
  - nra.
Qed.

Theorem surface_global_decode : forall m evenLat evenLon oddLat oddLon last x r y s,
  code evenLat -> code evenLon -> code oddLat -> code oddLon ->
  fl x r -> fl y s -> (Rabs s <= 360)%R ->
  let result := GetCPRSurfaceGlobalPosition (floats m) evenLat evenLon oddLat oddLon last x y in
  exists xe xo,
    about xe (surface_decoded_latitude false (Rlt_bool r 0) evenLat oddLat) (1 / 100000000000) /\
    about xo (surface_decoded_latitude true (Rlt_bool r 0) evenLat oddLat) (1 / 100000000000) /\
    let ne := getNumberOfLongitude (floats m) xe in
    let no := getNumberOfLongitude (floats m) xo in
    (fl_eqb ne no = false -> exists error, result = Err error) /\
    (forall n, 1 <= n <= 59 -> fl ne (IZR n) -> fl no (IZR n) ->
       let candidate := surface_candidate n (negb last) evenLon oddLon in
       exists lon w i, result = Ok ((if last then xe else xo), lon) /\ fl lon w /\
         -2 <= i <= 1 /\ (Rabs (w - candidate i) <= 1 / 10000000000)%R /\
         forall j, -2 <= j <= 1 -> (Rabs (s - candidate i) <= Rabs (s - candidate j) + 1 / 1000000000)%R).
Proof.
  intros m e E o O last x r y s He HE Ho HO Fx Fy Hs result. unfold code in *.
  set (j := (59 * e - 60 * o + 65536) / 131072).
  assert (J : fl (f64_floor (f64_add (f64_sub (f64_mul (f64_lit 59 1) (f64_div (f64_of_Z e) (f64_lit 131072 1)))
                                  (f64_mul (f64_lit 60 1) (f64_div (f64_of_Z o) (f64_lit 131072 1)))) (f64_lit 1 2)))
     (IZR j)) by (apply index_left; try flc; lia).
  assert (Bj : Z.abs j < 2 ^ 20).
  { unfold j. pose proof (Z.div_mod (59 * e - 60 * o + 65536) 131072 ltac:(lia)).
    pose proof (Z.mod_pos_bound (59 * e - 60 * o + 65536) 131072 ltac:(lia)). lia. }
  unfold result, GetCPRSurfaceGlobalPosition.
  cbn [floats num of_Z lit litpi add sub mul div ltb leb eqb floor abs max sqrt cos sin acos atan2 pow].
  assert (F0 : fl (f64_lit 0 1) 0) by flc.
  rewrite (fl_ltb_R _ _ _ _ Fx F0). set (south := Rlt_bool r 0).
  set (jf := f64_floor _) in *.
  set (le := f64_mul (f64_lit 90 60) _). set (lo := f64_mul (f64_lit 90 59) _).
  set (xe := if south then f64_sub le _ else _). set (xo := if south then f64_sub lo _ else _).
  exists xe, xo.
  pose proof (Z.mod_pos_bound j 60 ltac:(lia)) as B60. pose proof (Z.mod_pos_bound j 59 ltac:(lia)) as B59.
  assert (BL : forall N c, 59 <= N <= 60 -> 0 <= c < 131072 -> (0 <= 90 / IZR N * (IZR (j mod N) + IZR c / 131072) <= 90)%R).
  { intros N c HN Hc. pose proof (Z.mod_pos_bound j N ltac:(lia)).
    assert (NR : (59 <= IZR N <= 60)%R) by (split; apply IZR_le; lia).
    assert (Q : (90 / IZR N * IZR N = 90)%R) by (field; lra).
    assert (A1 : (0 <= IZR (j mod N) <= IZR N - 1)%R) by (split; [apply IZR_le; lia|rewrite <- minus_IZR; apply IZR_le; lia]).
    assert (A2 : (0 <= IZR c <= 131071)%R) by (split; apply IZR_le; lia).
    assert (0 < 90 / IZR N)%R by (apply Rdiv_lt_0_compat; lra). split; nra. }
  split; [|split; [|split]].
  - unfold surface_decoded_latitude, decoded, latitude_zones. rewrite zone_index_Z. change (60 - 1) with 59. fold j.
    apply shift_south; [|apply BL; lia]. apply surface_lat; auto; [exact c90_60|flc].
  - unfold surface_decoded_latitude, decoded, latitude_zones. rewrite zone_index_Z. change (60 - 1) with 59. fold j.
    apply shift_south; [|apply BL; lia]. apply surface_lat; auto; [exact c90_59|flc].
  - intros N. rewrite N. cbn [negb]. eexists. reflexivity.
  - intros n Hn Fe Fo. set (candidate := surface_candidate n (negb last) E O).
    assert (Eq : fl_eqb (getNumberOfLongitude (floats m) xe) (getNumberOfLongitude (floats m) xo) = true)
      by (rewrite (fl_eqb_R _ _ _ _ Fe Fo); apply Req_bool_true; reflexivity).
    rewrite Eq. cbn [negb].
    set (nl := getNumberOfLongitude (floats m) xe) in *.
    assert (Fm1 : fl (f64_sub nl (f64_lit 1 1)) (IZR (n - 1))).
    { apply dy_int. replace (131072 * (n - 1)) with (131072 * n - 131072 * 1) by ring.
      apply dy_sub; [apply dy_int; exact Fe|apply dy_int; flc|lia]. }
    assert (Fm0 : fl (f64_sub nl (f64_lit 0 1)) (IZR n)).
    { apply dy_int. replace (131072 * n) with (131072 * n - 131072 * 0) by ring.
      apply dy_sub; [apply dy_int; exact Fe|apply dy_int; flc|lia]. }
    assert (F1 : fl (f64_lit 1 1) 1) by flc.
    assert (Ne : fl (f64_max (f64_sub nl (f64_lit 0 1)) (f64_lit 1 1)) (IZR (longitude_zones n false))).
    { unfold longitude_zones. replace (IZR (Z.max n 1)) with (Rmax (IZR n) 1). apply fl_max; assumption.
      assert (1 <= IZR n)%R by (apply IZR_le; lia). rewrite Rmax_left by lra. f_equal. lia. }
    assert (No : fl (f64_max (f64_sub nl (f64_lit 1 1)) (f64_lit 1 1)) (IZR (longitude_zones n true))).
    { unfold longitude_zones. replace (IZR (Z.max (n - 1) 1)) with (Rmax (IZR (n - 1)) 1). apply fl_max; assumption.
      destruct (Z.eq_dec n 1) as [->|D].
      - cbn. rewrite Rmax_right by lra. reflexivity.
      - assert (1 <= IZR (n - 1))%R by (apply IZR_le; lia). rewrite Rmax_left by lra. f_equal. lia. }
    set (M := ((n - 1) * E - n * O + 65536) / 131072).
    assert (FM : fl (f64_floor (f64_add (f64_sub (f64_mul (f64_div (f64_of_Z E) (f64_lit 131072 1)) (f64_sub nl (f64_lit 1 1)))
                                  (f64_mul (f64_div (f64_of_Z O) (f64_lit 131072 1)) nl)) (f64_lit 1 2))) (IZR M)).
    { apply index_right; auto; lia. }
    assert (BM : Z.abs M < 2 ^ 20).
    { unfold M. pose proof (Z.div_mod ((n - 1) * E - n * O + 65536) 131072 ltac:(lia)).
      pose proof (Z.mod_pos_bound ((n - 1) * E - n * O + 65536) 131072 ltac:(lia)). nia. }
    set (Mf := f64_floor (f64_add (f64_sub (f64_mul (f64_div (f64_of_Z E) (f64_lit 131072 1)) (f64_sub nl (f64_lit 1 1)))
                                  (f64_mul (f64_div (f64_of_Z O) (f64_lit 131072 1)) nl)) (f64_lit 1 2))) in *.
    assert (Z0 : 1 <= longitude_zones n false <= 60) by (unfold longitude_zones; lia).
    assert (Z1 : 1 <= longitude_zones n true <= 60) by (unfold longitude_zones; lia).
    set (q := if last then f64_mul (f64_div (f64_lit 90 1) (f64_max (f64_sub nl (f64_lit 0 1)) (f64_lit 1 1))) _ else _).
    assert (L : exists v, fl q v /\ (Rabs (v - candidate 0%Z) <= bpow radix2 (-37) - bpow radix2 (-40))%R /\ (0 <= v <= 90 - 1 / 200000)%R).
    { unfold q, candidate, surface_candidate, decoded. rewrite zone_index_Z. fold M. rewrite Rmult_0_r, Rplus_0_r.
      destruct last; cbn [negb]; apply quadrant; auto. }
    destruct L as (v & Fv & Ev & Bv).
    assert (Ci : forall i, (candidate i = candidate 0%Z + 90 * IZR i)%R).
    { intros i. unfold candidate, surface_candidate. ring. }
    destruct (four m q v Fv Bv) as ((w0 & W0 & A0) & (w1 & W1 & A1) & (w2 & W2 & A2) & (w3 & W3 & A3)).
    set (l := fun i : Z => match i with 0 => wrap m q | 1 => wrap m (f64_add q (f64_lit 90 1))
                | 2 => wrap m (f64_add q (f64_lit 180 1)) | _ => wrap m (f64_add q (f64_lit 270 1)) end).
    set (vv := fun i : Z => match i with 0 => w0 | 1 => w1 | 2 => w2 | _ => w3 end).
    apply Rabs_le_inv in A0, A1, A2, A3, Ev.
    assert (P37 : (0 < bpow radix2 (-37) < 1 / 100000000000)%R) by (split; [apply bpow_gt_0|cbn; lra]).
    assert (P40 : (0 < bpow radix2 (-40))%R) by apply bpow_gt_0.
    assert (P38 : (p38 <= bpow radix2 (-37))%R) by (unfold p38; cbn; lra).
    assert (J4 : forall P : Z -> Prop, P 0 -> P 1 -> P 2 -> P 3 -> forall j, 0 <= j <= 3 -> P j).
    { intros P Q0 Q1 Q2 Q3 k Hk. assert (C : k = 0 \/ k = 1 \/ k = 2 \/ k = 3) by lia. destruct C as [->|[->|[->| ->]]]; assumption. }
    destruct (smallest_four m y s l vv Fy Hs) as (i & Hi & Si & Mi).
    { apply J4; cbn; (split; [assumption|]); apply Rabs_le; lra. }
    set (dist := List.map (fun z => f64_abs (f64_sub y z)) _) in Si.
    match goal with |- context [smallest (floats m) ?d 0 _ _] => change d with dist end.
    rewrite Si.
    set (k := if i <? 2 then i else i - 4).
    assert (Ak : forall i, 0 <= i <= 3 -> (Rabs (vv i - candidate (if i <? 2 then i else i - 4)%Z) <= 1 / 10000000000)%R).
    { apply J4; rewrite Ci; cbn; apply Rabs_le; lra. }
    exists (l i), (vv i), k. split.
    { apply (J4 (fun i => (let* longitude := idx [wrap m q; wrap m (f64_add q (f64_lit 90 1));
         wrap m (f64_add q (f64_lit 180 1)); wrap m (f64_add q (f64_lit 270 1))] i in
         Ok (if last then xe else xo, longitude)) = Ok (if last then xe else xo, l i))); [reflexivity..|exact Hi]. }
    split; [revert Hi; apply (J4 (fun i => fl (l i) (vv i))); assumption|].
    split; [unfold k; destruct (Z.ltb_spec i 2); lia|].
    split; [apply Ak; exact Hi|].
    intros j' Hj'. set (i' := if j' <? 0 then j' + 4 else j').
    assert (Hi' : 0 <= i' <= 3) by (unfold i'; destruct (Z.ltb_spec j' 0); lia).
    assert (Ei' : (if i' <? 2 then i' else i' - 4) = j').
    { unfold i'. destruct (Z.ltb_spec j' 0); destruct (Z.ltb_spec (j' + 4) 2); destruct (Z.ltb_spec j' 2); lia. }
    specialize (Mi i' Hi'). pose proof (Ak i Hi) as Ai. pose proof (Ak i' Hi') as Ai'. rewrite Ei' in Ai'. fold k in Ai.
    assert (T1 : (Rabs (s - candidate k) <= Rabs (s - vv i) + Rabs (vv i - candidate k))%R).
    { replace (s - candidate k)%R with ((s - vv i) + (vv i - candidate k))%R by ring. apply Rabs_triang. }
    assert (T2 : (Rabs (s - vv i') <= Rabs (s - candidate j') + Rabs (vv i' - candidate j'))%R).
    { replace (s - vv i')%R with ((s - candidate j') - (vv i' - candidate j'))%R by ring.
      rewrite <- (Rabs_Ropp (vv i' - _)). apply Rabs_triang. }
    lra.
Qed.

(* ---- the round trip ---- *)

Lemma hemisphere : forall N x c k r, N = 59 \/ N = 60 ->
  (0 <= x <= 89.99 /\ 0 <= r \/ -90 <= x <= -0.0001 /\ r < 0)%R -> encoded (90 / IZR N) x c k ->
  (90 / IZR N * (IZR (k mod N) + IZR c / 131072) - (if Rlt_bool r 0 then 90 else 0) = 90 / IZR N * (IZR k + IZR c / 131072))%R.
Proof.
  intros N x c k r HN Hx [Hc H]. apply Rabs_le_inv in H. set (Y := 131072 * k + c) in *.
  assert (NR : (IZR N = 59 \/ IZR N = 60)%R) by (destruct HN; subst; auto).
  assert (Q : (131072 * (x / (90 / IZR N)) = 131072 * IZR N / 90 * x)%R) by (field; destruct NR; lra).
  rewrite Q in H. destruct Hx as [[Hx Hr]|[Hx Hr]].
  - rewrite Rlt_bool_false by lra. 
    assert (B : (-1 < IZR Y < IZR (131072 * N))%R) by (rewrite mult_IZR; destruct NR as [E|E]; rewrite E in *; lra).
    destruct B as [B1 B2]. apply lt_IZR in B1, B2.
    rewrite (Z.mod_small k) by (unfold Y in *; lia). ring.
  - rewrite Rlt_bool_true by lra.
    assert (B : (IZR (- (131072 * N) - 1) < IZR Y < 0)%R) by (rewrite minus_IZR, opp_IZR, mult_IZR; destruct NR as [E|E]; rewrite E in *; lra).
    destruct B as [B1 B2]. apply lt_IZR in B1, B2.
    replace (k mod N) with (k + N).
    + rewrite plus_IZR. field. destruct NR; lra.
    + apply Z.mod_unique with (-1); [left; unfold Y in *; destruct HN; subst N; lia|ring].
Qed.

Theorem surface_global : forall m lat lon x r y s n last,
  (0 <= lat <= 89.99 /\ 0 <= r \/ -90 <= lat <= -0.0001 /\ r < 0)%R -> (Rabs lon <= 179.999)%R ->
  fl x r -> fl y s -> (Rabs (lon - s) <= 44.99)%R -> 1 <= n <= 59 ->
  (forall x v, fl x v -> (Rabs (v - lat) <= 1 / 30000)%R -> fl (getNumberOfLongitude (floats m) x) (IZR n)) ->
  exists X Y v w,
    GetCPRSurfaceGlobalPosition (floats m) (surface_latitude false lat) (surface_longitude n false lon)
      (surface_latitude true lat) (surface_longitude n true lon) last x y = Ok (X, Y) /\
    fl X v /\ (Rabs (v - lat) <= half_step 90 (latitude_zones (negb last)) + 1 / 100000000000)%R /\
    fl Y w /\ (Rabs (w - lon) <= half_step 90 (longitude_zones n (negb last)) + 1 / 1000000000)%R.
Proof.
  intros m lat lon x r y s n last Hlat Hlon Fx Fy Hs Hn NL.
  set (e := surface_latitude false lat). set (o := surface_latitude true lat).
  set (E := surface_longitude n false lon). set (U := surface_longitude n true lon).
  assert (Hs' : (Rabs s <= 360)%R) by (apply Rabs_le_inv in Hlon, Hs; apply Rabs_le; lra).
  destruct (surface_global_decode m e E o U last x r y s (encode_code _ _ _) (encode_code _ _ _) (encode_code _ _ _) (encode_code _ _ _) Fx Fy Hs')
    as (xe & xo & Ae & Ao & _ & H).
  destruct (encoded_19 (360 / IZR 60) lat ltac:(lra)) as (ke & Ke). change (encode 19 (360 / IZR 60) lat) with e in Ke.
  destruct (encoded_19 (360 / IZR 59) lat ltac:(lra)) as (ko & Ko). change (encode 19 (360 / IZR 59) lat) with o in Ko.
  rewrite quarter in Ke, Ko by lia.
  pose proof (index_pair 90 60 lat e ke o ko ltac:(lra) ltac:(lia) Ke Ko) as J.
  assert (De : surface_decoded_latitude false (Rlt_bool r 0) e o = (90 / IZR 60 * (IZR ke + IZR e / 131072))%R).
  { unfold surface_decoded_latitude, decoded, latitude_zones. rewrite zone_index_Z, J, index_even by lia.
    apply (hemisphere 60 lat); auto. }
  assert (Do : surface_decoded_latitude true (Rlt_bool r 0) e o = (90 / IZR 59 * (IZR ko + IZR o / 131072))%R).
  { unfold surface_decoded_latitude, decoded, latitude_zones. rewrite zone_index_Z, J. rewrite (index_odd 60) by lia.
    apply (hemisphere 59 lat); auto. }
  pose proof (encoded_near (90 / IZR 60) lat e ke ltac:(lra) Ke) as Ne. rewrite <- De in Ne.
  pose proof (encoded_near (90 / IZR 59) lat o ko ltac:(lra) Ko) as No. rewrite <- Do in No.
  destruct Ae as (ve & Fe & Ve). destruct Ao as (vo & Fo & Vo).
  apply Rabs_le_inv in Ne, No, Ve, Vo.
  assert (Ce : (Rabs (ve - lat) <= half_step 90 60 + 1 / 100000000000)%R) by (unfold half_step; apply Rabs_le; lra).
  assert (Co : (Rabs (vo - lat) <= half_step 90 59 + 1 / 100000000000)%R) by (unfold half_step; apply Rabs_le; lra).
  destruct (H n Hn) as (Y & w & i & R & Fw & Bi & Ew & Mi).
  { apply NL with ve; [exact Fe|]. unfold half_step in Ce. lra. }
  { apply NL with vo; [exact Fo|]. unfold half_step in Co. lra. }
  exists (if last then xe else xo), Y, (if last then ve else vo), w.
  split; [exact R|]. split; [destruct last; assumption|]. split; [destruct last; assumption|].
  split; [exact Fw|].
  set (z := longitude_zones n (negb last)) in *.
  set (c := if last then E else U) in *.
  assert (Bz : 1 <= z <= 60) by (unfold z, longitude_zones; destruct last; cbn; lia).
  assert (L : exists kl, encoded (90 / IZR z) lon c kl /\ zone_index n E U mod z = kl mod z).
  { destruct (encoded_19 (360 / IZR (longitude_zones n false)) lon) as (le & Le);
      [apply zone_width; unfold longitude_zones; lia|]. change (encode 19 _ lon) with E in Le.
    destruct (encoded_19 (360 / IZR (longitude_zones n true)) lon) as (lo & Lo);
      [apply zone_width; unfold longitude_zones; lia|]. change (encode 19 _ lon) with U in Lo.
    rewrite quarter in Le, Lo by (unfold longitude_zones; lia).
    exists (if last then le else lo). split; [unfold z, c; destruct last; assumption|].
    destruct (Z.eq_dec n 1) as [->|N1].
    - replace z with 1 by (unfold z, longitude_zones; destruct last; reflexivity). rewrite !Z.mod_1_r. reflexivity.
    - replace (longitude_zones n false) with n in Le by (unfold longitude_zones; lia).
      replace (longitude_zones n true) with (n - 1) in Lo by (unfold longitude_zones; lia).
      rewrite zone_index_Z, (index_pair 90 n lon E le U lo ltac:(lra) ltac:(lia) Le Lo).
      unfold z, longitude_zones. destruct last; cbn [negb].
      + rewrite Z.max_l by lia. apply index_even. lia.
      + rewrite Z.max_l by lia. apply index_odd. lia. }
  destruct L as (kl & Kl & Il).
  assert (NZ : (1 <= IZR z <= 60)%R) by (split; apply IZR_le; lia).
  assert (Zt : (90 / IZR z * IZR z = 90)%R) by (field; lra).
  assert (Q : (3 / 2 <= 90 / IZR z <= 90)%R) by (split; nra).
  pose proof (encoded_near (90 / IZR z) lon c kl ltac:(lra) Kl) as Nl.
  set (zone := (90 / IZR z)%R) in *. set (V := (zone * (IZR kl + IZR c / 131072))%R) in *.
  assert (Ci : forall i : Z, surface_candidate n (negb last) E U i = (V + 90 * IZR (i - kl / z))%R).
  { intros k. unfold surface_candidate, decoded. fold z. rewrite Il.
    replace (if negb last then U else E) with c by (unfold c; destruct last; reflexivity).
    rewrite Z.mod_eq by lia. rewrite !minus_IZR, mult_IZR. fold zone. unfold V. rewrite <- Zt. ring. }
  assert (Hc : 0 <= c < 131072) by exact (proj1 Kl).
  assert (HcR : (0 <= IZR c < 131072)%R) by (split; [apply IZR_le|apply IZR_lt]; lia).
  apply Rabs_le_inv in Nl, Hlon, Hs.
  assert (BV : (-180 < V < 180)%R) by lra.
  assert (Bk : -2 <= kl / z <= 1).
  { unfold V in BV. assert (-2 * IZR z - 1 < IZR kl < 2 * IZR z)%R by (split; nra).
    assert (A : -2 * z - 1 < kl < 2 * z) by (split; apply lt_IZR; rewrite ?minus_IZR, mult_IZR; lra).
    split; [apply Z.div_le_lower_bound; lia|]. assert (kl / z < 2) by (apply Z.div_lt_upper_bound; lia). lia. }
  pose proof (Mi (kl / z) Bk) as Mk. rewrite !Ci in *. rewrite Z.sub_diag, Rmult_0_r, Rplus_0_r in Mk.
  assert (SV : (Rabs (s - V) <= 44.995)%R) by (apply Rabs_le; lra).
  assert (D : (Rabs (s - (V + 90 * IZR (i - kl / z))) <= 44.996)%R) by lra.
  apply Rabs_le_inv in SV, D.
  assert (I : (-1 < IZR (i - kl / z) < 1)%R) by lra.
  destruct I as [I1 I2]. apply lt_IZR in I1, I2. replace (i - kl / z) with 0 in Ew by lia.
  rewrite Rmult_0_r, Rplus_0_r in Ew. apply Rabs_le_inv in Ew. unfold half_step. fold zone. apply Rabs_le. lra.
Qed.
