(* C49-C53: cases the decoders get wrong, and instances of the hypotheses of the round trips. *)
From Verif Require Import GoBase.
From Coq Require Import ZArith Reals Lia Lra Psatz.
From Coq Require Import Floats.SpecFloat.
From Flocq Require Import Core.
From Verif.Spec Require Import Binary64 Cpr.
From Verif.Proofs Require Import FloatR FloatOps CprFloat CprReal CprGlobal CprLocal CprSurface.
From Verif.Model Require Import Geo.
Local Open Scope Z_scope.

(* a pair of codes no position has: the latitude returned is 180 degrees *)
Theorem airborne_latitude_range_refuted : forall m, exists X Y,
  GetCPRAirborneGlobalPosition (floats m) 0 0 65536 0 true = Ok (X, Y) /\ fl X 180.
Proof.
  intros m.
  assert (E : exists Y, GetCPRAirborneGlobalPosition (floats m) 0 0 65536 0 true = Ok (f64_of_Z 180, Y)).
  { eexists. vm_compute. reflexivity. }
  destruct E as (Y & E). exists (f64_of_Z 180), Y. split; [exact E|]. apply (fl_of_Z 180). lia.
Qed.

(* an aircraft on the ground at longitude -179 on the equator, seen from longitude 179 on the equator, two
   degrees away: the longitude returned is 91 *)
Theorem surface_quadrant_refuted : forall m, exists X Y w,
  GetCPRSurfaceGlobalPosition (floats m) (surface_latitude false 0) (surface_longitude 59 false (-179))
    (surface_latitude true 0) (surface_longitude 59 true (-179)) true (f64_of_Z 0) (f64_of_Z 179) = Ok (X, Y) /\
  fl X 0 /\ fl Y w /\ (Rabs (w - 91) <= 1 / 10000)%R.
Proof.
  intros m.
  assert (L : forall odd, surface_latitude odd 0 = 0).
  { intros odd. unfold surface_latitude. rewrite encode_shift by (try lia; destruct odd; cbn; lra).
    rewrite (Zfloor_imp 0); [reflexivity|]. unfold Rdiv. rewrite Rmult_0_l, Rmult_0_r. cbn. lra. }
  rewrite !L.
  assert (E : surface_longitude 59 false (-179) = 85925).
  { unfold surface_longitude, longitude_zones. cbn [Z.max Z.compare Pos.compare Pos.compare_cont].
    rewrite encode_shift by (lia || lra). rewrite (Zfloor_imp (-15380571)); [|change (IZR (2 ^ 19)) with 524288%R; cbn; lra].
    reflexivity. }
  assert (O : surface_longitude 59 true (-179) = 84469).
  { unfold surface_longitude, longitude_zones. change (Z.max (59 - 1) 1) with 58.
    rewrite encode_shift by (lia || lra). rewrite (Zfloor_imp (-15119883)); [|change (IZR (2 ^ 19)) with 524288%R; cbn; lra].
    reflexivity. }
  rewrite E, O.
  set (r := GetCPRSurfaceGlobalPosition _ _ _ _ _ _ _ _).
  assert (V : r = Ok (S754_zero false, S754_finite false 6403555738366440 (-46))) by (unfold r; vm_compute; reflexivity).
  rewrite V. do 3 eexists. split; [reflexivity|]. split; [apply fl_zero|]. split; [apply fl_literal; reflexivity|].
  cbn [cond_Zopp]. replace (bpow radix2 (-46)) with (/ 70368744177664)%R by reflexivity. apply Rabs_le. lra.
Qed.

(* a reference longitude that is not one, or is not a number: the index of the longitude is -1 *)
Theorem surface_reference_refuted : forall m reference, reference = f64_of_Z 100000000 \/ reference = S754_nan ->
  GetCPRSurfaceGlobalPosition (floats m) 0 0 0 0 true (f64_of_Z 0) reference = Panic.
Proof. intros m r [->| ->]; vm_compute; reflexivity. Qed.

(* the hypothesis of the round trips on the number of longitude zones: beyond 87 degrees it holds
   whatever the library *)
Theorem polar_zone : forall m lat, (87.0001 <= Rabs lat)%R ->
  forall x v, fl x v -> (Rabs (v - lat) <= 1 / 30000)%R -> fl (getNumberOfLongitude (floats m) x) (IZR 1).
Proof.
  intros m lat H x v Fx Hv. unfold getNumberOfLongitude.
  cbn [floats num of_Z lit litpi add sub mul div ltb leb eqb floor abs max sqrt cos sin acos atan2 pow].
  assert (A : (87 < Rabs v)%R).
  { pose proof (Rabs_triang_inv lat v) as T. rewrite (Rabs_minus_sym lat v) in T. lra. }
  assert (F0 : fl (f64_lit 0 1) 0) by flc. assert (F87 : fl (f64_lit 87 1) 87) by flc.
  rewrite (fl_eqb_R _ _ _ _ Fx F0), Req_bool_false by (intros ->; rewrite Rabs_R0 in A; lra).
  rewrite (fl_eqb_R _ _ _ _ (fl_abs _ _ Fx) F87), Req_bool_false by lra.
  rewrite (fl_ltb_R _ _ _ _ F87 (fl_abs _ _ Fx)), Rlt_bool_true by lra. flc.
Qed.

(* a position near the pole *)
Example polar_position : forall m last, exists x y v w,
  GetCPRAirborneGlobalPosition (floats m) (airborne_latitude false 88) (airborne_longitude 1 false 12)
    (airborne_latitude true 88) (airborne_longitude 1 true 12) last = Ok (x, y) /\
  fl x v /\ (Rabs (v - 88) <= 1 / 40000)%R /\ fl y w /\ same_angle w 12 (1 / 700).
Proof.
  intros m last. destruct (airborne_global m 88 12 1 last) as (x & y & v & w & R & Fv & Ev & Fw & _ & k & Ew); [lra|lia| |].
  { apply polar_zone. rewrite Rabs_pos_eq; lra. }
  exists x, y, v, w. split; [exact R|]. split; [exact Fv|].
  unfold half_step, latitude_zones, longitude_zones in *.
  split; [destruct last; cbn in Ev; lra|]. split; [exact Fw|]. exists k. destruct last; cbn in Ew; lra.
Qed.

(* whatever the library, the number of longitude zones is the same north and south *)
Theorem zones_north_south : forall m x, getNumberOfLongitude (floats m) (SFopp x) = getNumberOfLongitude (floats m) x.
Proof.
  intros m x. unfold getNumberOfLongitude.
  cbn [floats num of_Z lit litpi add sub mul div ltb leb eqb floor abs max sqrt cos sin acos atan2 pow].
  assert (E : f64_abs (SFopp x) = f64_abs x) by (destruct x; reflexivity). rewrite E.
  assert (Q : fl_eqb (SFopp x) (f64_lit 0 1) = fl_eqb x (f64_lit 0 1)); [|rewrite Q; reflexivity].
  replace (f64_lit 0 1) with (S754_zero false) by (vm_compute; reflexivity).
  destruct x as [s|s| |s p e]; try reflexivity; destruct s; reflexivity.
Qed.
