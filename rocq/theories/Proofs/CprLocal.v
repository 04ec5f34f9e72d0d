(* C49: local decoding of airborne and surface positions. *)
From Verif Require Import GoBase.
From Coq Require Import ZArith Reals Lia Lra Psatz.
From Coq Require Import Floats.SpecFloat.
From Flocq Require Import Core.
From Verif.Spec Require Import Binary64 Cpr.
From Verif.Proofs Require Import FloatR FloatOps CprFloat CprReal CprGlobal.
From Verif.Model Require Import Geo.
Local Open Scope Z_scope.

(* one rounded operation: its result and its error *)
Tactic Notation "rounded" hyp(F) constr(k) ident(e) ident(He) :=
  match type of F with fl _ (rnd ?a) =>
    let R := fresh in pose proof (rnd_err k a ltac:(lia)) as R;
    let n := eval compute in (k - 53)%Z in change (k - 53) with n in R;
    set (e := (rnd a - a)%R) in R; 
    replace (rnd a) with (a + e)%R in F by (unfold e; ring); rename R into He
  end.

Lemma axis_index : forall (m : mathlib) (D x : f64) (B r : R) (c : Z),
  fl D B -> fl x r -> (1 <= B <= 361)%R -> (Rabs r <= 400)%R -> (Rabs (r / B) <= 400)%R -> 0 <= c < 131072 ->
  exists k, fl (f64_add (f64_floor (f64_div x D))
      (f64_floor (f64_add (f64_sub (f64_div (mod_ (floats m) x D) D) (f64_div (f64_of_Z c) (f64_lit 131072 1))) (f64_lit 1 2))))
    (IZR k) /\ Z.abs k <= 404 /\
  (Rabs (r / B - (IZR k + IZR c / 131072)) <= 1 / 2 + bpow radix2 (-40))%R.
Proof.
  intros m D x B r c FD Fx HB Hr HrB Hc.
  set (cc := f64_div (f64_of_Z c) (f64_lit 131072 1)). set (f1 := f64_floor (f64_div x D)).
  set (f2 := f64_floor (f64_add _ _)).
  set (C := (IZR c / 131072)%R). set (u := (r / B)%R) in *.
  assert (HC : (0 <= C <= 1)%R).
  { unfold C. assert (0 <= IZR c <= 131072)%R by (split; apply IZR_le; lia). lra. }
  assert (Ru : (r = B * u)%R) by (unfold u; field; lra).
  apply Rabs_le_inv in Hr, HrB.
  assert (P42 : (0 < bpow radix2 (-42) < / 1000000)%R) by (split; [apply bpow_gt_0|cbn; lra]).
  assert (P44 : (bpow radix2 (-44) = bpow radix2 (-42) / 4)%R) by (cbn; lra).
  assert (P43 : (bpow radix2 (-43) = bpow radix2 (-42) / 2)%R) by (cbn; lra).
  assert (P51 : (bpow radix2 (-51) <= bpow radix2 (-42) / 8)%R) by (cbn; lra).
  assert (P52 : (bpow radix2 (-52) <= bpow radix2 (-42) / 8)%R) by (cbn; lra).
  assert (P40 : (bpow radix2 (-40) = bpow radix2 (-42) * 4)%R) by (cbn; lra).
  (* floor(x / D) *)
  pose proof (fl_div _ _ _ _ Fx FD ltac:(lra) ltac:(apply big_le, Rabs_le; fold u; lra)) as F. fold u in F.
  rounded F 9 e1 E1. specialize (E1 ltac:(apply Rabs_le; cbn; lra)). apply Rabs_le_inv in E1.
  pose proof (fl_floor _ _ F) as F1. fold f1 in F1.
  set (j := Zfloor (u + e1)) in *.
  pose proof (Zfloor_lb (u + e1)) as J1. pose proof (Zfloor_ub (u + e1)) as J2. fold j in J1, J2.
  assert (Bj : (-402 <= IZR j <= 402)%R) by lra.
  (* mod *)
  assert (Bm : (-1000 <= B * IZR j <= 1000)%R).
  { rewrite Ru in Hr. split; nra. }
  pose proof (fl_mul _ _ _ _ FD F1 ltac:(apply big_le, Rabs_le; lra)) as F2.
  rounded F2 10 e2 E2. specialize (E2 ltac:(apply Rabs_le; cbn; lra)). apply Rabs_le_inv in E2.
  pose proof (fl_sub _ _ _ _ Fx F2 ltac:(apply big_le, Rabs_le; lra)) as F3.
  rounded F3 11 e3 E3. specialize (E3 ltac:(apply Rabs_le; cbn; lra)). apply Rabs_le_inv in E3.
  change (f64_sub x (f64_mul D f1)) with (mod_ (floats m) x D) in F3.
  set (w := ((e3 - e2) / B)%R).
  assert (W : (-(2 * bpow radix2 (-42)) <= w <= 2 * bpow radix2 (-42))%R).
  { assert (Wb : (w * B = e3 - e2)%R) by (unfold w; field; lra). split; nra. }
  assert (Q : ((r - (B * IZR j + e2) + e3) / B = u - IZR j + w)%R) by (unfold w, u; field; lra).
  pose proof (fl_div _ _ _ _ F3 FD ltac:(lra)) as F4. rewrite Q in F4.
  specialize (F4 ltac:(apply big_le, Rabs_le; lra)).
  rounded F4 1 e4 E4. specialize (E4 ltac:(apply Rabs_le; cbn; lra)). apply Rabs_le_inv in E4.
  assert (Fc : fl cc C) by (apply dy_code; lia).
  pose proof (fl_sub _ _ _ _ F4 Fc ltac:(apply big_le, Rabs_le; lra)) as F5.
  rounded F5 2 e5 E5. specialize (E5 ltac:(apply Rabs_le; cbn; lra)). apply Rabs_le_inv in E5.
  assert (Fh : fl (f64_lit 1 2) (1 / 2)).
  { pose proof dy_half as H. unfold dy in H. replace (IZR 65536 / 131072)%R with (1 / 2)%R in H by lra. exact H. }
  pose proof (fl_add _ _ _ _ F5 Fh ltac:(apply big_le, Rabs_le; lra)) as F6.
  rounded F6 2 e6 E6. specialize (E6 ltac:(apply Rabs_le; cbn; lra)). apply Rabs_le_inv in E6.
  pose proof (fl_floor _ _ F6) as F7. fold f2 in F7.
  set (t := (u - IZR j + w + e4 - C + e5 + 1 / 2 + e6)%R) in *.
  pose proof (Zfloor_lb t) as T1. pose proof (Zfloor_ub t) as T2. set (i := Zfloor t) in *.
  assert (Bi : (-3 <= IZR i <= 3)%R) by (unfold t in *; lra).
  assert (Zj : -402 <= j <= 402) by (split; apply le_IZR; lra).
  assert (Zi : -3 <= i <= 3) by (split; apply le_IZR; lra).
  exists (j + i). split.
  - apply dy_int. replace (131072 * (j + i)) with (131072 * j + 131072 * i) by ring.
    apply dy_add; [apply dy_int; exact F1|apply dy_int; exact F7|lia].
  - rewrite plus_IZR.
    assert (S : (-402 < IZR j + IZR i < 402)%R) by (unfold t in *; lra).
    rewrite <- plus_IZR in S. split.
    + destruct S as [S1 S2]. apply lt_IZR in S1, S2. lia.
    + apply Rabs_le. unfold t in *. lra.
Qed.

(* one coordinate, in z zones *)
Lemma axis : forall m turn t z y x r c, (turn = 360 \/ turn = 90)%Z -> fl t (IZR turn) -> fl y (IZR z) -> 1 <= z <= 60 ->
  fl x r -> (Rabs r <= 400)%R -> 0 <= c < 131072 ->
  let D := f64_div t y in
  let zone := (IZR turn / IZR z)%R in
  exists k v, fl (f64_mul D (f64_add (f64_add (f64_floor (f64_div x D))
      (f64_floor (f64_add (f64_sub (f64_div (mod_ (floats m) x D) D) (f64_div (f64_of_Z c) (f64_lit 131072 1))) (f64_lit 1 2))))
      (f64_div (f64_of_Z c) (f64_lit 131072 1)))) v /\ (Rabs (v - zone * (IZR k + IZR c / 131072)) <= 1 / 10000000000)%R /\
    (Rabs (zone * (IZR k + IZR c / 131072) - r) <= zone / 2 + 1 / 1000000000)%R /\
    (131072 * k + c = 0 -> v = 0%R) /\ (z = 60 -> v = (zone * (IZR k + IZR c / 131072))%R).
Proof.
  intros m turn t z y x r c Ht Ft Fy Hz Fx Hr Hc D zone.
  assert (N : (1 <= IZR z <= 60)%R) by (split; apply IZR_le; lia).
  assert (T : (90 <= IZR turn <= 360)%R) by (split; apply IZR_le; lia).
  assert (ZN : (zone * IZR z = IZR turn)%R) by (unfold zone; field; lra).
  assert (Q : (3 / 2 <= zone <= 360)%R) by (split; nra).
  pose proof (fl_div _ _ _ _ Ft Fy ltac:(lra) ltac:(apply big_le; fold zone; rewrite Rabs_pos_eq; lra)) as FD.
  fold zone in FD. fold D in FD.
  set (h := if Z.eq_dec turn 360 then 12 else 3).
  assert (Z60 : z = 60 -> zone = (IZR h * bpow radix2 (-1))%R).
  { intros E. unfold zone, h. rewrite E. destruct Ht as [Ht|Ht]; rewrite Ht; cbn; lra. }
  assert (Hh : 0 <= h <= 12) by (unfold h; destruct (Z.eq_dec turn 360); lia).
  assert (X60 : z = 60 -> rnd zone = zone).
  { intros E. rewrite (Z60 E). apply rnd_exact; lia. }
  rounded FD 9 e0 E0. specialize (E0 ltac:(rewrite Rabs_pos_eq by lra; cbn; lra)). apply Rabs_le_inv in E0.
  set (B := (zone + e0)%R) in *.
  assert (P44 : (0 < bpow radix2 (-44) < 1 / 10000000000000)%R) by (split; [apply bpow_gt_0|cbn; lra]).
  assert (HB : (1 <= B <= 361)%R) by (unfold B; lra).
  assert (U : ((r / B) * B = r)%R) by (field; lra).
  assert (HrB : (Rabs (r / B) <= 400)%R).
  { apply Rabs_le_inv in Hr. apply Rabs_le. split; nra. }
  destruct (axis_index m D x B r c FD Fx HB Hr HrB Hc) as (k & Fk & Bk & Ek).
  exists k. set (u := (r / B)%R) in *.
  assert (Fs : dy (f64_add (f64_add (f64_floor (f64_div x D))
      (f64_floor (f64_add (f64_sub (f64_div (mod_ (floats m) x D) D) (f64_div (f64_of_Z c) (f64_lit 131072 1))) (f64_lit 1 2))))
      (f64_div (f64_of_Z c) (f64_lit 131072 1))) (131072 * k + c)).
  { apply dy_add; [apply dy_int; exact Fk|apply dy_code; lia|lia]. }
  unfold dy in Fs. set (s := f64_add (f64_add _ _) _) in *.
  replace (IZR (131072 * k + c) / 131072)%R with (IZR k + IZR c / 131072)%R in Fs by (rewrite plus_IZR, mult_IZR; field).
  set (K := (IZR k + IZR c / 131072)%R) in *.
  assert (P40 : (0 < bpow radix2 (-40) < 1 / 1000000000000)%R) by (split; [apply bpow_gt_0|cbn; lra]).
  apply Rabs_le_inv in Ek, Hr, HrB.
  assert (BK : (-402 <= K <= 402)%R) by lra.
  assert (BKB : (B * K = r - B * (u - K))%R) by (rewrite <- U; ring).
  assert (M : (-(B * (1 / 2 + bpow radix2 (-40))) <= B * (u - K) <= B * (1 / 2 + bpow radix2 (-40)))%R).
  { replace (-(B * (1 / 2 + bpow radix2 (-40))))%R with (B * -(1 / 2 + bpow radix2 (-40)))%R by ring.
    split; apply Rmult_le_compat_l; lra. }
  assert (Bp : (0 <= B * bpow radix2 (-40) <= 361 / 1000000000000)%R) by nra.
  assert (EK : (-(402 / 10000000000000) <= e0 * K <= 402 / 10000000000000)%R) by nra.
  assert (ZK : (zone * K = B * K - e0 * K)%R) by (unfold B; ring).
  pose proof (fl_mul _ _ _ _ FD Fs ltac:(apply big_le, Rabs_le; lra)) as F.
  assert (F0 : 131072 * k + c = 0 -> rnd (B * K) = 0%R).
  { intros E. replace (B * K)%R with 0%R; [apply round_0; typeclasses eauto|].
    assert (K = 0)%R; [|nra]. unfold K. replace c with (- (131072 * k)) by lia. rewrite opp_IZR, mult_IZR. lra. }
  assert (F60 : z = 60 -> rnd (B * K) = (zone * K)%R).
  { intros E2. assert (HB6 : B = zone) by (unfold B, e0; rewrite X60 by assumption; ring).
    rewrite HB6. rewrite (Z60 E2).
    replace (IZR h * bpow radix2 (-1) * K)%R with (IZR (h * (131072 * k + c)) * bpow radix2 (-18))%R
      by (unfold K; rewrite mult_IZR, plus_IZR, mult_IZR; cbn; lra).
    apply rnd_exact; [nia|lia]. }
  rounded F 10 e1 E1. specialize (E1 ltac:(apply Rabs_le; cbn; lra)). apply Rabs_le_inv in E1.
  assert (P43 : (bpow radix2 (-43) = 2 * bpow radix2 (-44))%R) by (cbn; lra).
  exists (B * K + e1)%R. split; [exact F|]. split; [apply Rabs_le; lra|]. split.
  - apply Rabs_le. unfold B in *. lra.
  - split; [intros E; unfold e1; rewrite F0 by exact E; ring|].
    intros E2. unfold e1. rewrite F60 by assumption. ring.
Qed.

(* a result of the decoding, which is exact on the equator and on the meridian of Greenwich *)
Definition nearest0 (turn : R) (zones c : Z) (reference : R) (x : f64) : Prop :=
  exists v k, fl x v /\
    (Rabs (v - turn / IZR zones * (IZR k + IZR c / 131072)) <= 1 / 10000000000)%R /\
    (Rabs (v - reference) <= turn / IZR zones / 2 + 1 / 500000000)%R /\ (131072 * k + c = 0 -> v = 0%R) /\
    (zones = 60 -> v = (turn / IZR zones * (IZR k + IZR c / 131072))%R).

Lemma nearest_weaken : forall turn z c r x, nearest0 turn z c r x -> nearest turn z c r x.
Proof. intros turn z c r x (v & k & A & B & C & _). exists v, k. auto. Qed.

Lemma axis_nearest : forall m turn t z y x r c, (turn = 360 \/ turn = 90)%Z -> fl t (IZR turn) -> fl y (IZR z) -> 1 <= z <= 60 ->
  fl x r -> (Rabs r <= 400)%R -> 0 <= c < 131072 ->
  let D := f64_div t y in
  nearest0 (IZR turn) z c r (f64_mul D (f64_add (f64_add (f64_floor (f64_div x D))
      (f64_floor (f64_add (f64_sub (f64_div (mod_ (floats m) x D) D) (f64_div (f64_of_Z c) (f64_lit 131072 1))) (f64_lit 1 2))))
      (f64_div (f64_of_Z c) (f64_lit 131072 1)))).
Proof.
  intros m turn t z y x r c Ht Ft Fy Hz Fx Hr Hc D.
  destruct (axis m turn t z y x r c Ht Ft Fy Hz Fx Hr Hc) as (k & v & Fv & Ev & Ek & E0 & E6).
  exists v, k. split; [exact Fv|]. split; [exact Ev|]. split; [|split; [exact E0|exact E6]].
  apply Rabs_le_inv in Ev, Ek. apply Rabs_le. lra.
Qed.

Lemma local_decode : forall m turn t c C x r y s odd, (turn = 360 \/ turn = 90)%Z -> fl t (IZR turn) ->
  code c -> code C -> fl x r -> (Rabs r <= 100)%R -> fl y s -> (Rabs s <= 400)%R ->
  let result := localPosition (floats m) t c C x y odd in
  nearest0 (IZR turn) (latitude_zones odd) c r (fst result) /\
  forall n, 1 <= n <= 59 -> fl (getNumberOfLongitude (floats m) (fst result)) (IZR n) ->
    nearest0 (IZR turn) (longitude_zones n odd) C s (snd result).
Proof.
  intros m turn t c C x r y s odd Ht Ft Hc HC Fx Hr Fy Hs result.
  unfold result, localPosition.
  cbn [floats num of_Z lit litpi add sub mul div ltb leb eqb floor abs max sqrt cos sin acos atan2 pow].
  set (i := if odd then f64_lit 1 1 else f64_lit 0 1).
  assert (Fi : fl i (IZR (if odd then 1 else 0))) by (unfold i; destruct odd; flc).
  set (lat := f64_mul _ _). set (lon := f64_mul _ _). cbn [fst snd]. split.
  - apply axis_nearest; auto; try (unfold code in *; lia || lra).
    + replace (latitude_zones odd) with (60 - (if odd then 1 else 0)) by (destruct odd; reflexivity).
      apply dy_int. rewrite Z.mul_sub_distr_l. apply dy_sub; [apply dy_int; flc|apply dy_int; exact Fi|destruct odd; lia].
    + destruct odd; cbn; lia.
  - intros n Hn Fn. apply axis_nearest; auto; try (unfold code in *; lia || lra).
    + unfold longitude_zones.
      replace (IZR (Z.max (if odd then n - 1 else n) 1)) with (Rmax (IZR (n - if odd then 1 else 0)) 1).
      * apply fl_max; [|flc]. apply dy_int. rewrite Z.mul_sub_distr_l. apply dy_sub; [apply dy_int; exact Fn|apply dy_int; exact Fi|destruct odd; lia].
      * replace (if odd then n - 1 else n) with (n - if odd then 1 else 0) by (destruct odd; lia).
        set (k := n - if odd then 1 else 0). destruct (Z.max_spec k 1) as [[L ->]|[L ->]].
        -- apply Rmax_right. apply IZR_le. lia.
        -- apply Rmax_left. apply IZR_le. lia.
    + unfold longitude_zones. destruct odd; lia.
Qed.

Theorem airborne_local_decode : forall m c C x r y s odd,
  code c -> code C -> fl x r -> (Rabs r <= 90)%R -> fl y s -> (Rabs s <= 360)%R ->
  let result := GetCPRAirborneLocalPosition (floats m) c C x y odd in
  nearest 360 (latitude_zones odd) c r (fst result) /\
  forall n, 1 <= n <= 59 -> fl (getNumberOfLongitude (floats m) (fst result)) (IZR n) ->
    nearest 360 (longitude_zones n odd) C s (snd result).
Proof.
  intros m c C x r y s odd Hc HC Fx Hr Fy Hs result.
  destruct (local_decode m 360 (lit (floats m) 360 1) c C x r y s odd) as [A B]; auto; [cbn [lit floats]; flc|lra|lra|].
  split; [apply nearest_weaken, A|]. intros n Hn Fn. apply nearest_weaken, B; assumption.
Qed.

Theorem surface_local_decode : forall m c C x r y s odd,
  code c -> code C -> fl x r -> (Rabs r <= 90)%R -> fl y s -> (Rabs s <= 360)%R ->
  let result := GetCPRSurfaceLocalPosition (floats m) c C x y odd in
  nearest 90 (latitude_zones odd) c r (fst result) /\
  forall n, 1 <= n <= 59 -> fl (getNumberOfLongitude (floats m) (fst result)) (IZR n) ->
    nearest 90 (longitude_zones n odd) C s (snd result).
Proof.
  intros m c C x r y s odd Hc HC Fx Hr Fy Hs result.
  destruct (local_decode m 90 (lit (floats m) 90 1) c C x r y s odd) as [A B]; auto; [cbn [lit floats]; flc|lra|lra|].
  split; [apply nearest_weaken, A|]. intros n Hn Fn. apply nearest_weaken, B; assumption.
Qed.

(* ---- the round trip ---- *)

Lemma nearest_back : forall turn z c s X x k q, (turn = 360 \/ turn = 90)%Z -> 1 <= z <= 60 ->
  nearest0 (IZR turn) z c s X -> encoded (IZR turn / IZR z) x c k ->
  (Rabs (x - s - 360 * IZR q) <= IZR turn / IZR z / 2 - 1 / 500)%R ->
  exists v, fl X v /\ (Rabs (v - x + 360 * IZR q) <= IZR turn / IZR z / 262144 + 1 / 1000000000)%R /\ on_grid (IZR turn) v /\
    (q = 0 -> let G := (IZR turn / IZR z * (IZR k + IZR c / 131072))%R in
       (Rabs (v - G) <= 1 / 10000000000)%R /\ (131072 * k + c = 0 -> v = 0%R) /\ (z = 60 -> v = G)).
Proof.
  intros turn z c s X x k q Ht Hz (v & i & Fv & Ei & Es & E0 & E6) Ex Hx.
  assert (N : (1 <= IZR z <= 60)%R) by (split; apply IZR_le; lia).
  assert (T : (90 <= IZR turn <= 360)%R) by (split; apply IZR_le; lia).
  assert (Zt : (IZR turn / IZR z * IZR z = IZR turn)%R) by (field; lra).
  assert (Q : (3 / 2 <= IZR turn / IZR z <= 360)%R) by (split; nra).
  pose proof (encoded_near (IZR turn / IZR z) x c k ltac:(lra) Ex) as Nx.
  set (zone := (IZR turn / IZR z)%R) in *.
  set (g := if Z.eq_dec turn 360 then 1 else 4).
  assert (G : (360 = IZR turn * IZR g)%R).
  { unfold g. destruct Ht; subst turn; cbn; lra. }
  set (kq := k - z * g * q).
  assert (Gq : (zone * IZR kq = zone * IZR k - 360 * IZR q)%R).
  { unfold kq. rewrite minus_IZR, !mult_IZR, G, <- Zt. ring. }
  exists v. split; [exact Fv|].
  pose proof (step_grid (IZR turn) z i c v ltac:(lra) Hz Ei E0) as SG. pose proof Ei as Ei'.
  apply Rabs_le_inv in Ei, Es, Nx, Hx.
  assert (K : i = kq).
  { assert (D : (- zone < zone * (IZR i - IZR kq) < zone)%R).
    { replace (zone * (IZR i - IZR kq))%R with (zone * (IZR i + IZR c / 131072) - (zone * (IZR k + IZR c / 131072) - 360 * IZR q))%R
        by (rewrite <- (Rmult_comm (IZR q)); rewrite (Rmult_minus_distr_l zone), Gq; ring). lra. }
    assert (-1 < IZR (i - kq) < 1)%R by (rewrite minus_IZR; split; nra).
    destruct H as [H1 H2]. apply lt_IZR in H1, H2. lia. }
  split; [|split; [exact SG|intros Q0 Gr; rewrite K in Ei', E0, E6; replace kq with k in Ei', E0, E6 by (unfold kq; rewrite Q0; ring);
    split; [exact Ei'|split; [exact E0|intros T2; unfold Gr; apply E6; exact T2]]]].
  rewrite K in Ei. rewrite Rmult_plus_distr_l, Gq in Ei. rewrite Rmult_plus_distr_l in Nx. apply Rabs_le. lra.
Qed.

Lemma local_core_q : forall m turn t lat lon x r y s odd n c C kl kL q,
  (turn = 360 \/ turn = 90)%Z -> fl t (IZR turn) ->
  fl x r -> (Rabs r <= 100)%R -> fl y s -> (Rabs s <= 400)%R -> 1 <= n <= 59 ->
  encoded (IZR turn / IZR (latitude_zones odd)) lat c kl -> encoded (IZR turn / IZR (longitude_zones n odd)) lon C kL ->
  (forall x v, fl x v -> (Rabs (v - lat) <= 1 / 30000)%R -> on_grid (IZR turn) v ->
     let G := (IZR turn / IZR (latitude_zones odd) * (IZR kl + IZR c / 131072))%R in
     (Rabs (v - G) <= 1 / 10000000000)%R -> (131072 * kl + c = 0 -> v = 0%R) -> (latitude_zones odd = 60 -> v = G) ->
     fl (getNumberOfLongitude (floats m) x) (IZR n)) ->
  (Rabs (lat - r) <= IZR turn / IZR (latitude_zones odd) / 2 - 1 / 500)%R ->
  (Rabs (lon - s - 360 * IZR q) <= IZR turn / IZR (longitude_zones n odd) / 2 - 1 / 500)%R ->
  exists X Y v w, localPosition (floats m) t c C x y odd = (X, Y) /\
    fl X v /\ (Rabs (v - lat) <= half_step (IZR turn) (latitude_zones odd) + 1 / 1000000000)%R /\
    fl Y w /\ (Rabs (w - lon + 360 * IZR q) <= half_step (IZR turn) (longitude_zones n odd) + 1 / 1000000000)%R.
Proof.
  intros m turn t lat lon x r y s odd n c C kl kL q Ht Ft Fx Hr Fy Hs Hn El EL NL Dl DL.
  destruct (local_decode m turn t c C x r y s odd Ht Ft (proj1 El) (proj1 EL) Fx Hr Fy Hs) as [Nl NL'].
  destruct (localPosition (floats m) t c C x y odd) as [X Y] eqn:Res. cbn [fst snd] in *.
  destruct (nearest_back turn (latitude_zones odd) c r X lat kl 0 Ht) as (v & Fv & Ev & Gv & Pv); auto.
  { unfold latitude_zones; destruct odd; lia. }
  { rewrite Rmult_0_r, Rminus_0_r. exact Dl. }
  rewrite Rmult_0_r, Rplus_0_r in Ev.
  destruct (Pv eq_refl) as (P1 & P2 & P3).
  assert (Fn : fl (getNumberOfLongitude (floats m) X) (IZR n)).
  { apply NL with v; [exact Fv| |exact Gv|exact P1|exact P2|exact P3]. apply Rle_trans with (1 := Ev).
    assert (T : (90 <= IZR turn <= 360)%R) by (split; apply IZR_le; lia).
    unfold latitude_zones; destruct odd; lra. }
  specialize (NL' n Hn Fn).
  destruct (nearest_back turn (longitude_zones n odd) C s Y lon kL q Ht) as (w & Fw & Ew & _); auto.
  { unfold longitude_zones; destruct odd; lia. }
  exists X, Y, v, w. repeat split; auto.
Qed.

Lemma local_core : forall m turn t lat lon x r y s odd n c C kl kL,
  (turn = 360 \/ turn = 90)%Z -> fl t (IZR turn) ->
  fl x r -> (Rabs r <= 90)%R -> fl y s -> (Rabs s <= 360)%R -> 1 <= n <= 59 ->
  encoded (IZR turn / IZR (latitude_zones odd)) lat c kl -> encoded (IZR turn / IZR (longitude_zones n odd)) lon C kL ->
  (forall x v, fl x v -> (Rabs (v - lat) <= 1 / 30000)%R -> on_grid (IZR turn) v ->
     let G := (IZR turn / IZR (latitude_zones odd) * (IZR kl + IZR c / 131072))%R in
     (Rabs (v - G) <= 1 / 10000000000)%R -> (131072 * kl + c = 0 -> v = 0%R) -> (latitude_zones odd = 60 -> v = G) ->
     fl (getNumberOfLongitude (floats m) x) (IZR n)) ->
  (Rabs (lat - r) <= IZR turn / IZR (latitude_zones odd) / 2 - 1 / 500)%R ->
  same_angle lon s (IZR turn / IZR (longitude_zones n odd) / 2 - 1 / 500) ->
  exists X Y v w, localPosition (floats m) t c C x y odd = (X, Y) /\
    fl X v /\ (Rabs (v - lat) <= half_step (IZR turn) (latitude_zones odd) + 1 / 1000000000)%R /\
    fl Y w /\ same_angle w lon (half_step (IZR turn) (longitude_zones n odd) + 1 / 1000000000).
Proof.
  intros m turn t lat lon x r y s odd n c C kl kL Ht Ft Fx Hr Fy Hs Hn El EL NL Dl [q DL].
  destruct (local_core_q m turn t lat lon x r y s odd n c C kl kL q) as (X & Y & v & w & E & Fv & Ev & Fw & Ew); auto; [lra|lra|].
  exists X, Y, v, w. repeat split; auto.
  exists (- q). rewrite opp_IZR.
  replace (w - lon - 360 * - IZR q)%R with (w - lon + 360 * IZR q)%R by ring. exact Ew.
Qed.

Lemma local_roundtrip : forall m turn t lat lon x r y s odd n c C kl kL,
  (turn = 360 \/ turn = 90)%Z -> fl t (IZR turn) ->
  fl x r -> (Rabs r <= 90)%R -> fl y s -> (Rabs s <= 360)%R -> 1 <= n <= 59 ->
  encoded (IZR turn / IZR (latitude_zones odd)) lat c kl -> encoded (IZR turn / IZR (longitude_zones n odd)) lon C kL ->
  (forall x v, fl x v -> (Rabs (v - lat) <= 1 / 30000)%R -> on_grid (IZR turn) v -> fl (getNumberOfLongitude (floats m) x) (IZR n)) ->
  (Rabs (lat - r) <= IZR turn / IZR (latitude_zones odd) / 2 - 1 / 500)%R ->
  same_angle lon s (IZR turn / IZR (longitude_zones n odd) / 2 - 1 / 500) ->
  exists X Y v w, localPosition (floats m) t c C x y odd = (X, Y) /\
    fl X v /\ (Rabs (v - lat) <= half_step (IZR turn) (latitude_zones odd) + 1 / 1000000000)%R /\
    fl Y w /\ same_angle w lon (half_step (IZR turn) (longitude_zones n odd) + 1 / 1000000000).
Proof.
  intros m turn t lat lon x r y s odd n c C kl kL Ht Ft Fx Hr Fy Hs Hn El EL NL Dl DL.
  apply (local_core m turn t lat lon x r y s odd n c C kl kL); auto.
  intros x' v Fx' Hv Gv G _ _ _. apply NL with v; assumption.
Qed.

Theorem airborne_local_grid : forall m lat lon x r y s odd n,
  fl x r -> (Rabs r <= 90)%R -> fl y s -> (Rabs s <= 360)%R -> 1 <= n <= 59 ->
  (forall x v, fl x v -> (Rabs (v - lat) <= 1 / 30000)%R -> on_grid 360 v -> fl (getNumberOfLongitude (floats m) x) (IZR n)) ->
  (Rabs (lat - r) <= 360 / IZR (latitude_zones odd) / 2 - 1 / 500)%R ->
  same_angle lon s (360 / IZR (longitude_zones n odd) / 2 - 1 / 500) ->
  exists X Y v w,
    GetCPRAirborneLocalPosition (floats m) (airborne_latitude odd lat) (airborne_longitude n odd lon) x y odd = (X, Y) /\
    fl X v /\ (Rabs (v - lat) <= half_step 360 (latitude_zones odd) + 1 / 1000000000)%R /\
    fl Y w /\ same_angle w lon (half_step 360 (longitude_zones n odd) + 1 / 1000000000).
Proof.
  intros m lat lon x r y s odd n Fx Hr Fy Hs Hn NL Dl DL.
  destruct (encoded_17 (360 / IZR (latitude_zones odd)) lat) as (kl & El);
    [apply zone_width; unfold latitude_zones; destruct odd; lia|].
  destruct (encoded_17 (360 / IZR (longitude_zones n odd)) lon) as (kL & EL);
    [apply zone_width; unfold longitude_zones; destruct odd; lia|].
  apply (local_roundtrip m 360 _ lat lon x r y s odd n _ _ kl kL); auto. cbn [lit floats]; flc.
Qed.

Theorem airborne_local : forall m lat lon x r y s odd n,
  fl x r -> (Rabs r <= 90)%R -> fl y s -> (Rabs s <= 360)%R -> 1 <= n <= 59 ->
  (forall x v, fl x v -> (Rabs (v - lat) <= 1 / 30000)%R -> fl (getNumberOfLongitude (floats m) x) (IZR n)) ->
  (Rabs (lat - r) <= 360 / IZR (latitude_zones odd) / 2 - 1 / 500)%R ->
  same_angle lon s (360 / IZR (longitude_zones n odd) / 2 - 1 / 500) ->
  exists X Y v w,
    GetCPRAirborneLocalPosition (floats m) (airborne_latitude odd lat) (airborne_longitude n odd lon) x y odd = (X, Y) /\
    fl X v /\ (Rabs (v - lat) <= half_step 360 (latitude_zones odd) + 1 / 1000000000)%R /\
    fl Y w /\ same_angle w lon (half_step 360 (longitude_zones n odd) + 1 / 1000000000).
Proof.
  intros m lat lon x r y s odd n Fx Hr Fy Hs Hn NL Dl DL. apply airborne_local_grid with (r := r) (s := s); auto.
  intros z v Fz Hz _. apply NL with v; assumption.
Qed.

Lemma quarter : forall z, 1 <= z -> (360 / IZR z / 4 = 90 / IZR z)%R.
Proof. intros z Hz. assert (1 <= IZR z)%R by (apply IZR_le; lia). field. lra. Qed.

Theorem surface_local : forall m lat lon x r y s odd n,
  fl x r -> (Rabs r <= 90)%R -> fl y s -> (Rabs s <= 360)%R -> 1 <= n <= 59 ->
  (forall x v, fl x v -> (Rabs (v - lat) <= 1 / 30000)%R -> fl (getNumberOfLongitude (floats m) x) (IZR n)) ->
  (Rabs (lat - r) <= 90 / IZR (latitude_zones odd) / 2 - 1 / 500)%R ->
  same_angle lon s (90 / IZR (longitude_zones n odd) / 2 - 1 / 500) ->
  exists X Y v w,
    GetCPRSurfaceLocalPosition (floats m) (surface_latitude odd lat) (surface_longitude n odd lon) x y odd = (X, Y) /\
    fl X v /\ (Rabs (v - lat) <= half_step 90 (latitude_zones odd) + 1 / 1000000000)%R /\
    fl Y w /\ same_angle w lon (half_step 90 (longitude_zones n odd) + 1 / 1000000000).
Proof.
  intros m lat lon x r y s odd n Fx Hr Fy Hs Hn NL Dl DL.
  destruct (encoded_19 (360 / IZR (latitude_zones odd)) lat) as (kl & El);
    [apply zone_width; unfold latitude_zones; destruct odd; lia|].
  destruct (encoded_19 (360 / IZR (longitude_zones n odd)) lon) as (kL & EL);
    [apply zone_width; unfold longitude_zones; destruct odd; lia|].
  rewrite quarter in El by (unfold latitude_zones; destruct odd; lia).
  rewrite quarter in EL by (unfold longitude_zones; destruct odd; lia).
  apply (local_roundtrip m 90 _ lat lon x r y s odd n _ _ kl kL); auto; [cbn [lit floats]; flc|].
  intros z v Fz Hz _. apply NL with v; assumption.
Qed.
