(* Target state and status (C31). *)
From Verif.Proofs Require Import Tac.
From Verif.Spec Require Import Floats Status.
From Verif.Gen Require bds62 bds62_fields.
Local Open Scope Z_scope.

Lemma u16_id : forall z, 0 <= z < 65536 -> u16 z = z.
Proof. intros. apply Z.mod_small. lia. Qed.

Definition code_pressure (n : Z) : f32 :=
  if n =? 0 then f32_lit 0 1 else f32_add (f32_mul (f32_of_Z (u16 (n - 1))) (f32_lit 4 5)) (f32_lit 800 1).

Lemma pressure_ok : forall n, 0 <= n < 0 + 512 -> is_close (code_pressure n) (pressure_hpa n) (1 # 10000).
Proof. apply (close_range code_pressure pressure_hpa (1 # 10000) 0 512). vm_compute. reflexivity. Qed.

(* the code reads the heading as sign and magnitude *)
Definition code_heading (n : Z) : f32 := f32_div (f32_mul (f32_of_Z n) (f32_lit 180 1)) (f32_lit 256 1).
Definition code_neg_heading (n : Z) : f32 := f32_div (f32_mul (SFopp (f32_of_Z n)) (f32_lit 180 1)) (f32_lit 256 1).

Lemma heading_ok : forall n, 0 <= n < 0 + 256 -> is_value (code_heading n) (heading_degrees false n).
Proof. apply (value_range code_heading (heading_degrees false) 0 256). vm_compute. reflexivity. Qed.

Lemma neg_heading_ok : forall n, 0 <= n < 0 + 256 -> is_value (code_neg_heading n) (- (inject_Z n * (180 # 256)))%Q.
Proof. apply (value_range code_neg_heading (fun n => - (inject_Z n * (180 # 256)))%Q 0 256). vm_compute. reflexivity. Qed.

Lemma read_pressure : forall data, bytes data -> len data = 7 ->
  bds62_fields.ReadBarometricPressureSetting data =
    Ok (code_pressure (bits 21 29 data), if bits 21 29 data =? 0 then 0 else 1).
Proof.
  intros data Hb Hl. unfold bds62_fields.ReadBarometricPressureSetting, code_pressure. split_list data Hl. reg_run Hb.
  destruct (bits 21 29 _ =? 0); reflexivity.
Qed.

Lemma read_heading : forall data, bytes data -> len data = 7 ->
  bds62_fields.ReadSelectedHeading data =
    Ok ((if bit 31 data then code_neg_heading else code_heading) (bits 32 39 data), bits 30 30 data).
Proof.
  intros data Hb Hl. unfold bds62_fields.ReadSelectedHeading, code_heading, code_neg_heading. split_list data Hl. reg_run Hb.
  destruct (bit 31 _); reflexivity.
Qed.

Lemma read_selected_altitude : forall data, bytes data -> len data = 7 ->
  bds62_fields.ReadSelectedAltitude data =
    Ok (if bits 10 20 data =? 0 then 0 else 32 * (bits 10 20 data - 1), if bits 10 20 data =? 0 then 0 else 1).
Proof.
  intros data Hb Hl. unfold bds62_fields.ReadSelectedAltitude. bits_bound 10 20 data. split_list data Hl. reg_run Hb.
  match type of Hb with bytes ?l => remember l as f end.
  destruct (bits 10 20 f =? 0) eqn:E; [reflexivity|]. rewrite (u16_id (_ - 1)) by lia. rewrite u16_id by lia.
  do 2 f_equal. lia.
Qed.

Lemma read_target_altitude : forall data, bytes data -> len data = 7 ->
  bds62_fields.ReadTargetAltitude data =
    Ok (if bits 16 25 data <=? 1010 then 100 * bits 16 25 data - 1000 else 0, if bits 16 25 data <=? 1010 then 1 else 2).
Proof.
  intros data Hb Hl. unfold bds62_fields.ReadTargetAltitude. bits_bound 16 25 data. split_list data Hl. reg_run Hb.
  match type of Hb with bytes ?l => remember l as f end.
  try rewrite (i32_small (bits 16 25 f)) by lia.
  destruct (bits 16 25 f <=? 1010) eqn:E.
  - replace (bits 16 25 f >? 1010) with false by lia. rewrite (i32_small (_ * 100)) by lia. rewrite i32_small by lia.
    do 2 f_equal. lia.
  - replace (bits 16 25 f >? 1010) with true by lia. reflexivity.
Qed.

(* the code takes the last four bits of the heading from bits 17-20 instead of 33-36 *)
Lemma read_target_heading : forall data, bytes data -> len data = 7 ->
  bds62_fields.ReadTargetHeadingTrackAngle data = Ok (target_heading (16 * bits 28 32 data + bits 17 20 data)).
Proof.
  intros data Hb Hl. unfold bds62_fields.ReadTargetHeadingTrackAngle, target_heading. split_list data Hl.
  gostep. unpack.
  match type of Hb with bytes ?l =>
    match goal with |- context [?x >? 359] =>
      assert (E : x = bits 28 32 l * 16 + bits 17 20 l) by (bveq l Hb); rewrite E, (Z.mul_comm _ 16); clear E;
      remember (16 * bits 28 32 l + bits 17 20 l) as n
    end end.
  destruct (n <=? 359) eqn:E; [replace (n >? 359) with false by lia|replace (n >? 359) with true by lia]; reflexivity.
Qed.

Lemma read_bds62_0 : forall data, bytes data -> len data = 7 -> bits 1 5 data = 29 -> bits 6 7 data = 0 ->
  bds62.ReadTargetStateAndStatus data =
    let h := target_heading (16 * bits 28 32 data + bits 17 20 data) in
    if bits 47 48 data =? 0 then if bits 49 51 data =? 0 then
      Ok (bds62.ITargetStateAndStatus_TargetStateAndStatus0 (target_state_0 data (fst h) (snd h)))
    else Err "the bits 49 to 51 are expected to be 0"%string
    else Err "the bits 47 to 48 are expected to be 0"%string.
Proof.
  intros data Hb Hl Ht Hs. unfold bds62.ReadTargetStateAndStatus, bds62.ReadTargetStateAndStatus0, bds62.ReadTargetStateAndStatus1.
  rewrite (read_target_altitude data Hb Hl), (read_target_heading data Hb Hl).
  destruct (target_heading _) as [h hs]. cbn [fst snd bind].
  remember (bds62_fields.ReadSelectedAltitude data) as X1. clear HeqX1.
  remember (bds62_fields.ReadBarometricPressureSetting data) as X2. clear HeqX2.
  remember (bds62_fields.ReadSelectedHeading data) as X3. clear HeqX3.
  unfold bds62_fields.Subtype0, bds62_fields.Subtype1, target_state_0.
  split_list data Hl. gorun. normbits Hb. rewrite ?mul_eq0. repeat decide_if.
  destruct (bits 47 48 _ =? 0); [destruct (bits 49 51 _ =? 0); reflexivity|reflexivity].
Qed.

Lemma read_bds62_1 : forall data, bytes data -> len data = 7 -> bits 1 5 data = 29 -> bits 6 7 data = 1 ->
  bds62.ReadTargetStateAndStatus data =
    Ok (bds62.ITargetStateAndStatus_TargetStateAndStatus1 (target_state_1 data (bits 8 8 data) (code_pressure (bits 21 29 data))
      ((if bit 31 data then code_neg_heading else code_heading) (bits 32 39 data)))).
Proof.
  intros data Hb Hl Ht Hs. unfold bds62.ReadTargetStateAndStatus, bds62.ReadTargetStateAndStatus0, bds62.ReadTargetStateAndStatus1.
  rewrite (read_selected_altitude data Hb Hl), (read_pressure data Hb Hl), (read_heading data Hb Hl). cbn [bind].
  remember (bds62_fields.ReadTargetAltitude data) as X1. clear HeqX1.
  remember (bds62_fields.ReadTargetHeadingTrackAngle data) as X2. clear HeqX2.
  remember (code_pressure (bits 21 29 data)) as P. clear HeqP.
  remember ((if bit 31 data then code_neg_heading else code_heading) (bits 32 39 data)) as H. clear HeqH.
  unfold bds62_fields.Subtype0, bds62_fields.Subtype1, target_state_1.
  split_list data Hl. gorun. normbits Hb. rewrite ?mul_eq0, ?bit_neg0. repeat decide_if. reflexivity.
Qed.

Lemma read_bds62_other : forall data, bytes data -> len data = 7 -> bits 1 5 data = 29 -> 2 <= bits 6 7 data ->
  bds62.ReadTargetStateAndStatus data =
    Err ("the field SubType must be comprised between 0 and 1 included, got " ++ dec (bits 6 7 data))%string.
Proof.
  intros data Hb Hl Ht Hs. unfold bds62.ReadTargetStateAndStatus, bds62_fields.ReadSubtype, bds62_fields.Subtype0, bds62_fields.Subtype1.
  remember (bds62.ReadTargetStateAndStatus0 data) as X0. clear HeqX0.
  remember (bds62.ReadTargetStateAndStatus1 data) as X1. clear HeqX1.
  split_list data Hl. gostep. normbits Hb. repeat decide_if. reflexivity.
Qed.

Lemma read_bds62_total : forall data, bytes data -> len data = 7 -> bits 1 5 data = 29 ->
  bds62.ReadTargetStateAndStatus data <> Panic.
Proof.
  intros data Hb Hl Ht. bits_bound 6 7 data. assert (bits 6 7 data = 0 \/ bits 6 7 data = 1 \/ 2 <= bits 6 7 data) as [S|[S|S]] by lia.
  - rewrite read_bds62_0 by assumption. cbv zeta. destruct (bits 47 48 data =? 0); [destruct (bits 49 51 data =? 0)|]; discriminate.
  - rewrite read_bds62_1 by assumption. discriminate.
  - rewrite (read_bds62_other data Hb Hl Ht S). discriminate.
Qed.

(* C31, when the misread bits happen to agree: bits 17-20 with 33-36 (subtype 0), bit 8 with
   bit 9 and a non-negative heading (subtype 1) *)
Theorem target_state_partial : forall data, bytes data -> len data = 7 -> bits 1 5 data = 29 ->
  (bits 6 7 data = 0 -> bits 17 20 data = bits 33 36 data) ->
  (bits 6 7 data = 1 -> bits 8 8 data = bits 9 9 data /\ bit 31 data = false) ->
  (forall m, bds62.ReadTargetStateAndStatus data = Ok m -> TargetOf data m) /\
  (forall e, bds62.ReadTargetStateAndStatus data = Err e -> forall m, ~ TargetOf data m).
Proof.
  intros data Hb Hl Ht H0 H1. bits_bound 6 7 data.
  assert (E1 : bits 47 51 data = bits 47 48 data * 8 + bits 49 51 data)
    by (clear - Hb Hl; split_list data Hl; match type of Hb with bytes ?l => bveq l Hb end).
  assert (E2 : bits 28 36 data = bits 28 32 data * 16 + bits 33 36 data)
    by (clear - Hb Hl; split_list data Hl; match type of Hb with bytes ?l => bveq l Hb end).
  bits_bound 47 48 data. bits_bound 49 51 data.
  assert (bits 6 7 data = 0 \/ bits 6 7 data = 1 \/ 2 <= bits 6 7 data) as [S|[S|S]] by lia.
  - rewrite read_bds62_0 by assumption. cbv zeta.
    rewrite (H0 S), (Z.mul_comm 16), <- E2.
    destruct (bits 47 48 data =? 0) eqn:C1; [destruct (bits 49 51 data =? 0) eqn:C2|];
      (split; [intros m R; try discriminate R|intros e R m T; try discriminate R]).
    + injection R as <-. apply target_0; lia.
    + inversion T; lia.
    + inversion T; lia.
  - destruct (H1 S) as [E8 E31]. rewrite read_bds62_1 by assumption. split; [|discriminate].
    intros m R. injection R as <-. rewrite E8, E31. bits_bound 21 29 data. bits_bound 32 39 data.
    apply target_1; [exact S|apply pressure_ok; lia|rewrite E31; apply heading_ok; lia].
  - rewrite (read_bds62_other data Hb Hl Ht S). split; [discriminate|].
    intros e' _ m T. inversion T; lia.
Qed.

(* The exact behaviour of the three misread fields *)
Theorem target_state_0_heading_refuted : exists data m,
  bytes data /\ len data = 7 /\ bits 1 5 data = 29 /\ bits 6 7 data = 0 /\ bits 28 36 data = 5 /\
  bds62.ReadTargetStateAndStatus data = Ok (bds62.ITargetStateAndStatus_TargetStateAndStatus0 m) /\
  bds62.TargetStateAndStatus0_TargetHeadingTrackAngle m = 0.
Proof.
  exists [0xE8; 0; 0; 0; 0x50; 0; 0]. eexists. repeat split; try reflexivity. repeat constructor; lia.
Qed.

Theorem target_state_1_altitude_type_refuted : exists data m,
  bytes data /\ len data = 7 /\ bits 1 5 data = 29 /\ bits 6 7 data = 1 /\ bits 9 9 data = 1 /\
  bds62.ReadTargetStateAndStatus data = Ok (bds62.ITargetStateAndStatus_TargetStateAndStatus1 m) /\
  bds62.TargetStateAndStatus1_SelectedAltitudeType m = 0.
Proof.
  exists [0xEA; 0x80; 0; 0; 0; 0; 0]. eexists. repeat split; try reflexivity. repeat constructor; lia.
Qed.

(* for every negative heading but -90 degrees, the heading returned is wrong *)
Theorem target_state_1_heading_refuted : forall data, bytes data -> len data = 7 -> bits 1 5 data = 29 -> bits 6 7 data = 1 ->
  bit 31 data = true -> bits 32 39 data <> 128 ->
  exists m, bds62.ReadTargetStateAndStatus data = Ok (bds62.ITargetStateAndStatus_TargetStateAndStatus1 m) /\
    ~ is_value (bds62.TargetStateAndStatus1_SelectedHeading m) (heading_degrees true (bits 32 39 data)).
Proof.
  intros data Hb Hl Ht Hs H31 N. rewrite read_bds62_1 by assumption. eexists. split; [reflexivity|].
  cbn [bds62.TargetStateAndStatus1_SelectedHeading target_state_1]. rewrite H31. bits_bound 32 39 data.
  remember (bits 32 39 data) as n. intros V. pose proof (neg_heading_ok n ltac:(lia)) as W.
  assert (E : (- (inject_Z n * (180 # 256)) == inject_Z (n - 256) * (180 # 256))%Q).
  { unfold heading_degrees in V. destruct (code_neg_heading n); cbn in V, W; try contradiction; rewrite W, V; reflexivity. }
  unfold Qeq in E. cbn in E. lia.
Qed.

(* for every message of subtype 0 or 1, every field but the misread ones: the heading of subtype 0, the type of the altitude and
   the heading of subtype 1 *)
Theorem target_fields_partial : forall data, bytes data -> len data = 7 -> bits 1 5 data = 29 ->
  (bits 6 7 data = 0 -> bits 47 51 data = 0 -> exists heading status, bds62.ReadTargetStateAndStatus data =
     Ok (bds62.ITargetStateAndStatus_TargetStateAndStatus0 (target_state_0 data heading status))) /\
  (bits 6 7 data = 1 -> exists altitude_type pressure heading,
     is_close pressure (pressure_hpa (bits 21 29 data)) (1 # 10000) /\
     (bit 31 data = false -> is_value heading (heading_degrees (bit 31 data) (bits 32 39 data))) /\
     bds62.ReadTargetStateAndStatus data =
       Ok (bds62.ITargetStateAndStatus_TargetStateAndStatus1 (target_state_1 data altitude_type pressure heading))).
Proof.
  intros data Hb Hl Ht. split.
  - intros S Z0. rewrite read_bds62_0 by assumption. cbv zeta.
    rewrite (bits_of_zero 47 51 data 47 48), (bits_of_zero 47 51 data 49 51) by (auto; lia). eexists. eexists. reflexivity.
  - intros S. rewrite read_bds62_1 by assumption. bits_bound 21 29 data. bits_bound 32 39 data.
    eexists. eexists. eexists. split; [apply pressure_ok; lia|]. split; [|reflexivity].
    intros ->. apply heading_ok. lia.
Qed.
