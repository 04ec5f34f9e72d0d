(* The unit tests of pkg/geo on positions (pkg/geo/cpr_*_test.go), for every accurate library: the results are in
   the intervals the tests ask for. A reference given in decimal is any binary64 number close to it. *)
From Verif Require Import GoBase.
From Verif.Model Require Import Geo.
From Coq Require Import ZArith Reals Lra Lia List.
From Coq Require Import Floats.SpecFloat.
From Flocq Require Import Core.
From Verif.Spec Require Import Binary64 Cpr Geodesy MathLib ZoneTable.
From Verif.Proofs Require Import FloatR CprReal CprFloat CprGlobal CprLocal CprSurface ZonesFloat ZoneTable.
Import ListNotations.
Local Open Scope R_scope.

(* between two latitudes of the table, in hundred-millionths of a degree *)
Definition between (n lo hi : Z) : bool :=
  ((1 <=? n) && (n <=? 59) && (100000 <=? lo) && (hi <=? 9000000000) &&
   forallb (fun p => if (fst p <=? n)%Z then (hi + 11112 <=? snd p)%Z else (snd p + 11112 <=? lo)%Z) nl_table)%Z.

Lemma band : forall m x v n lo hi, accurate m -> between n lo hi = true -> fl x v ->
  degrees lo <= Rabs v <= degrees hi -> fl (getNumberOfLongitude (floats m) x) (IZR n).
Proof.
  intros m x v n lo hi A B F D. unfold between in B.
  apply andb_prop in B as [B Bt]. apply andb_prop in B as [B Bh]. apply andb_prop in B as [B Bl]. apply andb_prop in B as [B1 B2].
  rewrite forallb_forall in Bt.
  assert (T : forall k t, In (k, t) nl_table -> ((k <= n)%Z /\ Rabs v + 11112 / 100000000 <= degrees t) \/ ((n < k)%Z /\ degrees t + 11112 / 100000000 <= Rabs v)).
  { intros k t I. specialize (Bt (k, t) I). cbn [fst snd] in Bt. destruct (Z.leb_spec k n); [left|right]; (split; [assumption|]);
      apply Zle_is_le_bool in Bt; apply IZR_le in Bt; rewrite plus_IZR in Bt; unfold degrees in *; lra. }
  apply Zle_is_le_bool, IZR_le in Bl. apply Zle_is_le_bool, IZR_le in Bh.
  eapply table_binary64; [exact A| | | |exact F].
  - unfold degrees in D. lra.
  - intros k t I. destruct (T k t I) as [[_ H]|[_ H]].
    + rewrite Rabs_minus_sym, Rabs_pos_eq; lra.
    + rewrite Rabs_pos_eq; lra.
  - split; [split; apply Zle_is_le_bool; assumption|]. intros k t I. destruct (T k t I) as [[K H]|[K H]]; split; intros; (lra || lia).
Qed.

Lemma within : forall v r e, Rabs (v - r) <= e -> r - e <= v <= r + e.
Proof. intros v r e H. apply Rabs_le_inv in H. lra. Qed.


Ltac codes := unfold code; lia.
Ltac index e k := let H := fresh "I" in assert (H : e = k) by (rewrite zone_index_Z; vm_compute; reflexivity); rewrite H; clear H.
Ltac index_in e k E := let H := fresh "I" in assert (H : e = k) by (rewrite zone_index_Z; vm_compute; reflexivity); rewrite H in E; clear H.
Ltac absv := unfold degrees; first [rewrite Rabs_pos_eq by lra | rewrite Rabs_left by lra]; lra.

Example test_airborne_global_1_example : forall m, accurate m -> exists X Y v w,
  GetCPRAirborneGlobalPosition (floats m) 39848 83951 21567 81965 false = Ok (X, Y) /\
  fl X v /\ 49.817 <= v <= 49.818 /\ fl Y w /\ 6.084 <= w <= 6.085.
Proof.
  intros m A.
  destruct (airborne_global_decode m 39848 83951 21567 81965 false) as (xe & xo & (ve & Fe & Ee) & (vo & Fo & Eo) & _ & R); try codes.
  apply within in Ee. apply within in Eo.
  unfold airborne_decoded_latitude, decoded, latitude_zones in Ee, Eo.
  index_in (zone_index 60 39848 21567 mod 60)%Z 8%Z Ee. index_in (zone_index 60 39848 21567 mod 59)%Z 8%Z Eo.
  unfold southern in Ee, Eo. rewrite Rle_bool_false in Ee by lra. rewrite Rle_bool_false in Eo by lra.
  assert (N : forall x v, fl x v -> 49.8 <= v <= 49.9 -> fl (getNumberOfLongitude (floats m) x) (IZR 38)).
  { intros x v F D. apply (band m x v 38 4950000000 5000000000 A); [vm_compute; reflexivity|exact F|absv]. }
  destruct (R 38%Z ltac:(lia) (N xe ve Fe ltac:(lra)) (N xo vo Fo ltac:(lra))) as (y & w & Rn & Fw & W & k & K).
  exists xo, y, vo, w. split; [exact Rn|]. split; [exact Fo|]. split; [lra|]. split; [exact Fw|].
  change (longitude_zones 38 (negb false)) with 37%Z in K. unfold decoded in K. index_in (zone_index 38 83951 81965 mod 37)%Z 0%Z K.
  apply within in K. assert (k = 0)%Z; [|subst k; lra].
  assert (IZR k < IZR 1 /\ IZR (-1) < IZR k) as [K1 K2] by lra. apply lt_IZR in K1. apply lt_IZR in K2. lia.
Qed.

Example test_airborne_global_2_example : forall m, accurate m -> exists X Y v w,
  GetCPRAirborneGlobalPosition (floats m) 93000 51372 74158 50194 true = Ok (X, Y) /\
  fl X v /\ 52.257 <= v <= 52.258 /\ fl Y w /\ 3.9193 <= w <= 3.9194.
Proof.
  intros m A.
  destruct (airborne_global_decode m 93000 51372 74158 50194 true) as (xe & xo & (ve & Fe & Ee) & (vo & Fo & Eo) & _ & R); try codes.
  apply within in Ee. apply within in Eo.
  unfold airborne_decoded_latitude, decoded, latitude_zones in Ee, Eo.
  index_in (zone_index 60 93000 74158 mod 60)%Z 8%Z Ee. index_in (zone_index 60 93000 74158 mod 59)%Z 8%Z Eo.
  unfold southern in Ee, Eo. rewrite Rle_bool_false in Ee by lra. rewrite Rle_bool_false in Eo by lra.
  assert (N : forall x v, fl x v -> 52.25 <= v <= 52.27 -> fl (getNumberOfLongitude (floats m) x) (IZR 36)).
  { intros x v F D. apply (band m x v 36 5200000000 5300000000 A); [vm_compute; reflexivity|exact F|absv]. }
  destruct (R 36%Z ltac:(lia) (N xe ve Fe ltac:(lra)) (N xo vo Fo ltac:(lra))) as (y & w & Rn & Fw & W & k & K).
  exists xe, y, ve, w. split; [exact Rn|]. split; [exact Fe|]. split; [lra|]. split; [exact Fw|].
  change (longitude_zones 36 (negb true)) with 36%Z in K. unfold decoded in K. index_in (zone_index 36 51372 50194 mod 36)%Z 0%Z K.
  apply within in K. assert (k = 0)%Z; [|subst k; lra].
  assert (IZR k < IZR 1 /\ IZR (-1) < IZR k) as [K1 K2] by lra. apply lt_IZR in K1. apply lt_IZR in K2. lia.
Qed.

Lemma pinned : forall k n, IZR n - 1 < IZR k < IZR n + 1 -> k = n.
Proof.
  intros k n [A B]. assert (n - 1 < k)%Z by (apply lt_IZR; rewrite minus_IZR; exact A).
  assert (k < n + 1)%Z by (apply lt_IZR; rewrite plus_IZR; exact B). lia.
Qed.
Ltac pin k n := assert (k = n) by (apply pinned; lra); subst k.

Example test_airborne_local_example : forall m x y, accurate m -> about x 52.258 (1 / 1000000000) -> about y 3.918 (1 / 1000000000) ->
  exists X Y v w, GetCPRAirborneLocalPosition (floats m) 93000 51372 x y false = (X, Y) /\
  fl X v /\ 52.257 <= v <= 52.258 /\ fl Y w /\ 3.919 <= w <= 3.920.
Proof.
  intros m x y A (r & Fx & Ex) (s & Fy & Ey). apply within in Ex. apply within in Ey.
  destruct (airborne_local_decode m 93000 51372 x r y s false) as [N1 N2]; try assumption; try codes;
    [rewrite Rabs_pos_eq; lra|rewrite Rabs_pos_eq; lra|].
  destruct (GetCPRAirborneLocalPosition (floats m) 93000 51372 x y false) as [X Y]. cbn [fst snd] in *.
  destruct N1 as (v & k & Fv & V & D). apply within in V. apply within in D. unfold latitude_zones in *.
  pin k 8%Z.
  destruct (N2 36%Z) as (w & j & Fw & W & D'); [lia|apply (band m X v 36 5200000000 5300000000 A); [vm_compute; reflexivity|exact Fv|absv]|].
  apply within in W. apply within in D'. change (longitude_zones 36 false) with 36%Z in *. pin j 0%Z.
  exists X, Y, v, w. split; [reflexivity|]. split; [exact Fv|]. split; [lra|]. split; [exact Fw|]. lra.
Qed.

Example test_surface_local_1_example : forall m x y, accurate m -> about x 51.990 (1 / 1000000000) -> about y 4.375 (1 / 1000000000) ->
  exists X Y v w, GetCPRSurfaceLocalPosition (floats m) 39195 110320 x y true = (X, Y) /\
  fl X v /\ 52.3205 <= v <= 52.3206 /\ fl Y w /\ 4.7357 <= w <= 4.7358.
Proof.
  intros m x y A (r & Fx & Ex) (s & Fy & Ey). apply within in Ex. apply within in Ey.
  destruct (surface_local_decode m 39195 110320 x r y s true) as [N1 N2]; try assumption; try codes;
    [rewrite Rabs_pos_eq; lra|rewrite Rabs_pos_eq; lra|].
  destruct (GetCPRSurfaceLocalPosition (floats m) 39195 110320 x y true) as [X Y]. cbn [fst snd] in *.
  destruct N1 as (v & k & Fv & V & D). apply within in V. apply within in D. unfold latitude_zones in *.
  pin k 34%Z.
  destruct (N2 36%Z) as (w & j & Fw & W & D'); [lia|apply (band m X v 36 5200000000 5300000000 A); [vm_compute; reflexivity|exact Fv|absv]|].
  apply within in W. apply within in D'. change (longitude_zones 36 true) with 35%Z in *. pin j 1%Z.
  exists X, Y, v, w. split; [reflexivity|]. split; [exact Fv|]. split; [lra|]. split; [exact Fw|]. lra.
Qed.

Example test_surface_local_2_example : forall m x y, accurate m -> about x (-43.5) (1 / 1000000000) -> about y 172.5 (1 / 1000000000) ->
  exists X Y v w, GetCPRSurfaceLocalPosition (floats m) 64585 67947 x y true = (X, Y) /\
  fl X v /\ -43.4857 <= v <= -43.4856 /\ fl Y w /\ 172.5394 <= w <= 172.5395.
Proof.
  intros m x y A (r & Fx & Ex) (s & Fy & Ey). apply within in Ex. apply within in Ey.
  destruct (surface_local_decode m 64585 67947 x r y s true) as [N1 N2]; try assumption; try codes;
    [rewrite Rabs_left; lra|rewrite Rabs_pos_eq; lra|].
  destruct (GetCPRSurfaceLocalPosition (floats m) 64585 67947 x y true) as [X Y]. cbn [fst snd] in *.
  destruct N1 as (v & k & Fv & V & D). apply within in V. apply within in D. unfold latitude_zones in *.
  pin k (-29)%Z.
  destruct (N2 43%Z) as (w & j & Fw & W & D'); [lia|apply (band m X v 43 4300000000 4400000000 A); [vm_compute; reflexivity|exact Fv|absv]|].
  apply within in W. apply within in D'. change (longitude_zones 43 true) with 42%Z in *. pin j 80%Z.
  exists X, Y, v, w. split; [reflexivity|]. split; [exact Fv|]. split; [lra|]. split; [exact Fw|]. lra.
Qed.

Example test_surface_global_1_example : forall m x y, accurate m -> about x 51.990 (1 / 1000000000) -> about y 4.375 (1 / 1000000000) ->
  exists X Y v w, GetCPRSurfaceGlobalPosition (floats m) 115609 116941 39199 110269 false x y = Ok (X, Y) /\
  fl X v /\ 52.3206 <= v <= 52.3207 /\ fl Y w /\ 4.7347 <= w <= 4.7348.
Proof.
  intros m x y A (r & Fx & Ex) (s & Fy & Ey). apply within in Ex. apply within in Ey.
  destruct (surface_global_decode m 115609 116941 39199 110269 false x r y s) as (xe & xo & (ve & Fe & Ee) & (vo & Fo & Eo) & _ & R);
    try assumption; try codes; [rewrite Rabs_pos_eq; lra|].
  apply within in Ee. apply within in Eo. rewrite Rlt_bool_false in Ee, Eo by lra.
  unfold surface_decoded_latitude, decoded, latitude_zones in Ee, Eo.
  index_in (zone_index 60 115609 39199 mod 60)%Z 34%Z Ee. index_in (zone_index 60 115609 39199 mod 59)%Z 34%Z Eo.
  assert (N : forall x v, fl x v -> 52.25 <= v <= 52.35 -> fl (getNumberOfLongitude (floats m) x) (IZR 36)).
  { intros z v F D. apply (band m z v 36 5200000000 5300000000 A); [vm_compute; reflexivity|exact F|absv]. }
  destruct (R 36%Z ltac:(lia) (N xe ve Fe ltac:(lra)) (N xo vo Fo ltac:(lra))) as (lon & w & i & Rn & Fw & I & W & B).
  exists xo, lon, vo, w. split; [exact Rn|]. split; [exact Fo|]. split; [lra|]. split; [exact Fw|].
  specialize (B 0%Z ltac:(lia)). unfold surface_candidate, decoded in W, B. cbn [negb] in W, B. change (longitude_zones 36 true) with 35%Z in *.
  index_in (zone_index 36 116941 110269 mod 35)%Z 1%Z W. index_in (zone_index 36 116941 110269 mod 35)%Z 1%Z B.
  assert (i = 0)%Z; [|subst i; apply within in W; lra].
  destruct (Z.eq_dec i 0) as [|Ni]; [assumption|exfalso].
  rewrite (Rabs_left1 (s - (90 / 35 * (1 + 110269 / 131072) + 90 * 0))) in B by lra.
  assert (Hi : (i <= -1 \/ 1 <= i)%Z) by lia. destruct Hi as [Hi|Hi]; apply IZR_le in Hi.
  - rewrite Rabs_pos_eq in B by lra. lra.
  - rewrite Rabs_left in B by lra. lra.
Qed.

Example test_surface_global_2_example : forall m x y, accurate m -> about x (-43.496) (1 / 1000000000) -> about y 172.558 (1 / 1000000000) ->
  exists X Y v w, GetCPRSurfaceGlobalPosition (floats m) 1246 57074 64585 67947 false x y = Ok (X, Y) /\
  fl X v /\ -43.4857 <= v <= -43.4856 /\ fl Y w /\ 172.5394 <= w <= 172.5395.
Proof.
  intros m x y A (r & Fx & Ex) (s & Fy & Ey). apply within in Ex. apply within in Ey.
  destruct (surface_global_decode m 1246 57074 64585 67947 false x r y s) as (xe & xo & (ve & Fe & Ee) & (vo & Fo & Eo) & _ & R);
    try assumption; try codes; [rewrite Rabs_pos_eq; lra|].
  apply within in Ee. apply within in Eo. rewrite Rlt_bool_true in Ee, Eo by lra.
  unfold surface_decoded_latitude, decoded, latitude_zones in Ee, Eo.
  index_in (zone_index 60 1246 64585 mod 60)%Z 31%Z Ee. index_in (zone_index 60 1246 64585 mod 59)%Z 30%Z Eo.
  assert (N : forall x v, fl x v -> -43.9 <= v <= -43.1 -> fl (getNumberOfLongitude (floats m) x) (IZR 43)).
  { intros z v F D. apply (band m z v 43 4300000000 4400000000 A); [vm_compute; reflexivity|exact F|absv]. }
  destruct (R 43%Z ltac:(lia) (N xe ve Fe ltac:(lra)) (N xo vo Fo ltac:(lra))) as (lon & w & i & Rn & Fw & I & W & B).
  exists xo, lon, vo, w. split; [exact Rn|]. split; [exact Fo|]. split; [lra|]. split; [exact Fw|].
  specialize (B 1%Z ltac:(lia)). unfold surface_candidate, decoded in W, B. cbn [negb] in W, B. change (longitude_zones 43 true) with 42%Z in *.
  index_in (zone_index 43 57074 67947 mod 42)%Z 38%Z W. index_in (zone_index 43 57074 67947 mod 42)%Z 38%Z B.
  assert (i = 1)%Z; [|subst i; apply within in W; lra].
  destruct (Z.eq_dec i 1) as [|Ni]; [assumption|exfalso].
  rewrite (Rabs_pos_eq (s - (90 / 42 * (38 + 67947 / 131072) + 90 * 1))) in B by lra.
  assert (Hi : (i <= 0)%Z) by lia. apply IZR_le in Hi. rewrite Rabs_pos_eq in B by lra. lra.
Qed.
