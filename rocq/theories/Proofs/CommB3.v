(* Comm-B registers 4,4 and 4,5 (C45, C46). *)
From Verif.Proofs Require Import Tac CommB1 CommB2.
From Verif.Spec Require Import Floats CommB CommBMessages.
From Verif.Gen Require bds44 bds44_fields bds45 bds45_fields.
Local Open Scope Z_scope.

Definition code_direction (n : Z) : f32 := f32_div (f32_mul (f32_of_Z n) (f32_lit 180 1)) (f32_lit 128 1).
Definition code_temperature (s : bool) (n : Z) : f32 :=
  let t := f32_mul (f32_of_Z n) (f32_lit 1 8) in if s then f32_sub t (f32_lit 128 1) else t.

Lemma direction_ok : forall n, 0 <= n < 0 + 256 -> is_value (code_direction n) (inject_Z n * (180 # 128)).
Proof. apply (value_range code_direction (fun n => inject_Z n * (180 # 128))%Q 0 256). vm_compute. reflexivity. Qed.
Lemma direction_0 : forall n, 0 <= n < 0 + 256 -> fl_eqb (code_direction n) (f32_lit 0 1) = (n =? 0).
Proof. apply (bool_range (fun n => fl_eqb (code_direction n) (f32_lit 0 1)) (fun n => n =? 0)). vm_compute. reflexivity. Qed.
Lemma humidity_ok : forall n, 0 <= n < 0 + 128 -> is_value (f32_of_Z n) (inject_Z n).
Proof. apply (value_range f32_of_Z inject_Z 0 128). vm_compute. reflexivity. Qed.
Lemma humidity_0 : forall n, 0 <= n < 0 + 128 -> fl_eqb (f32_of_Z n) (f32_lit 0 1) = (n =? 0).
Proof. apply (bool_range (fun n => fl_eqb (f32_of_Z n) (f32_lit 0 1)) (fun n => n =? 0)). vm_compute. reflexivity. Qed.
Lemma temperature_ok : forall s n, 0 <= n < 0 + 1024 -> is_value (code_temperature s n) (inject_Z (sgn s 1024 n) * (1 # 8)).
Proof. apply (value_range2 code_temperature (fun s n => inject_Z (sgn s 1024 n) * (1 # 8))%Q 0 1024). vm_compute. reflexivity. Qed.
Lemma temperature_0 : forall s n, 0 <= n < 0 + 1024 -> fl_eqb (code_temperature s n) (f32_lit 0 1) = (sgn s 1024 n =? 0).
Proof. apply (bool_range2 (fun s n => fl_eqb (code_temperature s n) (f32_lit 0 1)) (fun s n => sgn s 1024 n =? 0)). vm_compute. reflexivity. Qed.
Lemma temperature_bounds : forall s n, 0 <= n < 0 + 1024 ->
  (fl_ltb (code_temperature s n) (f32_lit (-80) 1) || fl_ltb (f32_lit 60 1) (code_temperature s n)) =
  ((sgn s 1024 n <? -640) || (480 <? sgn s 1024 n)).
Proof.
  apply (bool_range2 (fun s n => fl_ltb (code_temperature s n) (f32_lit (-80) 1) || fl_ltb (f32_lit 60 1) (code_temperature s n))
    (fun s n => (sgn s 1024 n <? -640) || (480 <? sgn s 1024 n))). vm_compute. reflexivity.
Qed.

(* ---- BDS 4,4 ---- *)

(* what the reader does: bit 6, the most significant bit of the wind speed, is not read *)
Theorem read_bds44 : forall data, bytes data -> len data = 7 ->
  bds44.ReadMeteorologicalRoutineAirReport data =
    let d := code_direction (bits 16 23 data) in
    let t := code_temperature (bit 25 data) (bits 26 35 data) in
    let h := f32_of_Z (bits 50 56 data) in
    if bits 1 4 data =? 0 then
      Ok (bds44.IMeteorologicalRoutineAirReport_MeteorologicalRoutineAirReportV1 (routine_v1 data (bits 7 14 data) d t h))
    else if bits 1 4 data <=? 4 then
      Ok (bds44.IMeteorologicalRoutineAirReport_MeteorologicalRoutineAirReportV2 (routine_v2 data (bits 7 14 data) d t h))
    else Err ("the field SubType must be comprised between 0 and 1 included, got " ++ dec (bits 1 4 data))%string.
Proof.
  intros data Hb Hl.
  unfold bds44.ReadMeteorologicalRoutineAirReport.
  remember (bds44.ReadMeteorologicalRoutineAirReportV0 data) as V0. clear HeqV0.
  unfold code_direction, code_temperature, routine_v1, routine_v2. bits_bound 1 4 data.
  unfold bds44_fields.SourceINS, bds44_fields.SourceGNSS, bds44_fields.SourceDMEDME, bds44_fields.SourceVORDME, bds44_fields.SourceInvalid.
  split_list data Hl. gorun. unpack. normbits Hb. rewrite ?mul_eq0, ?bit_neg0.
  match type of Hb with bytes ?l => remember l as f end.
  destruct (bits 1 4 f =? 0) eqn:E.
  - assert (bits 1 4 f = 0) as E0 by lia. rewrite E0. cbn [Z.eqb orb negb rmap bind]. reflexivity.
  - destruct (bits 1 4 f <=? 4) eqn:E4.
    + assert ((((bits 1 4 f =? 1) || (bits 1 4 f =? 2)) || (bits 1 4 f =? 3)) || (bits 1 4 f =? 4) = true) as -> by lia.
      reflexivity.
    + assert ((((bits 1 4 f =? 1) || (bits 1 4 f =? 2)) || (bits 1 4 f =? 3)) || (bits 1 4 f =? 4) = false) as -> by lia.
      reflexivity.
Qed.

Lemma coherence_bds44 : forall data wind, bytes data -> len data = 7 -> bits 1 4 data <= 4 ->
  let d := code_direction (bits 16 23 data) in
  let t := code_temperature (bit 25 data) (bits 26 35 data) in
  let h := f32_of_Z (bits 50 56 data) in
  ((bds44.MeteorologicalRoutineAirReportV1_CheckCoherency (routine_v1 data wind d t h) = Ok tt <-> accepted_44 data wind) /\
   bds44.MeteorologicalRoutineAirReportV1_CheckCoherency (routine_v1 data wind d t h) <> Panic) /\
  ((bds44.MeteorologicalRoutineAirReportV2_CheckCoherency (routine_v2 data wind d t h) = Ok tt <-> accepted_44 data wind) /\
   bds44.MeteorologicalRoutineAirReportV2_CheckCoherency (routine_v2 data wind d t h) <> Panic).
Proof.
  intros data wind Hb Hl Hs d t h.
  unfold bds44.MeteorologicalRoutineAirReportV1_CheckCoherency, bds44.MeteorologicalRoutineAirReportV2_CheckCoherency,
    routine_v1, routine_v2, accepted_44, absent_is_zero, d, t, h.
  bits_bound 16 23 data. bits_bound 26 35 data. bits_bound 50 56 data.
  rewrite (signed_zero 25 35) by lia.
  cbn -[Z.mul f32_lit fl_ltb fl_eqb signed f32_of_Z].
  rewrite direction_0, temperature_0, humidity_0, temperature_bounds by lia.
  change (sgn (bit 25 data) 1024 (bits 26 35 data)) with (signed 25 35 data).
  split.
  - cascade.
  - replace (bits 1 4 data >=? 5) with false by lia. cascade.
Qed.

(* C45 *)
Theorem routine_report_partial : forall data, bytes data -> len data = 7 ->
  (forall m, bit 6 data = false -> bds44.ReadMeteorologicalRoutineAirReport data = Ok m ->
     RoutineOf data m /\
     (bds44.IMeteorologicalRoutineAirReport_CheckCoherency m = Ok tt <-> coherent_44 data)) /\
  ((exists m, bds44.ReadMeteorologicalRoutineAirReport data = Ok m) <-> bits 1 4 data <= 4).
Proof.
  intros data Hb Hl. bits_bound 16 23 data. bits_bound 26 35 data. bits_bound 50 56 data. bits_bound 1 4 data.
  split.
  - intros m H6 H. rewrite (read_bds44 data Hb Hl) in H. cbv zeta in H.
    assert (W : bits 6 14 data = bits 7 14 data).
    { rewrite (bits_join 6 6 14) by lia. rewrite bit_spec, H6. change (6 + 1) with 7. lia. }
    assert (C : coherent_44 data <-> accepted_44 data (bits 7 14 data)).
    { unfold coherent_44, accepted_44, absent_is_zero. rewrite W. reflexivity. }
    destruct (bits 1 4 data =? 0) eqn:E0; [|destruct (bits 1 4 data <=? 4) eqn:E4; [|discriminate]];
      injection H as <-; rewrite <- W at 1; (split; [constructor; try lia|]).
    all: try (apply direction_ok; lia). all: try (apply humidity_ok; lia). all: try (apply temperature_ok; lia).
    all: rewrite C; cbn [bds44.IMeteorologicalRoutineAirReport_CheckCoherency]; apply coherence_bds44; auto; lia.
  - rewrite (read_bds44 data Hb Hl). cbv zeta.
    destruct (bits 1 4 data =? 0) eqn:E0; [|destruct (bits 1 4 data <=? 4) eqn:E4].
    + split; [lia|]. intros _. eexists; reflexivity.
    + split; [lia|]. intros _. eexists; reflexivity.
    + split; [intros [m H]; discriminate|lia].
Qed.

(* wind of 300 kt, from 90 degrees, temperature -40 degrees: read as 44 kt *)
Definition wind_witness : list Z := [28;178;129;246;0;0;0].
Theorem routine_report_refuted :
  bytes wind_witness /\ len wind_witness = 7 /\ bits 1 4 wind_witness = 1 /\ bit 5 wind_witness = true /\
  bits 6 14 wind_witness = 300 /\
  exists m, bds44.ReadMeteorologicalRoutineAirReport wind_witness = Ok (bds44.IMeteorologicalRoutineAirReport_MeteorologicalRoutineAirReportV2 m) /\
    bds44.MeteorologicalRoutineAirReportV2_WindSpeed m = 44 /\
    (* implausible, and yet accepted *)
    ~ coherent_44 wind_witness /\ bds44.MeteorologicalRoutineAirReportV2_CheckCoherency m = Ok tt.
Proof.
  split; [repeat constructor; lia|]. do 4 (split; [reflexivity|]). eexists. split; [vm_compute; reflexivity|].
  split; [reflexivity|]. split; [|vm_compute; reflexivity].
  unfold coherent_44. intros (_ & _ & _ & _ & _ & _ & H & _). vm_compute in H. congruence.
Qed.

(* GetSource: the accessor of the message does not return the source that was read *)
Theorem routine_source_refuted :
  exists m, bds44.ReadMeteorologicalRoutineAirReport wind_witness = Ok m /\ bits 1 4 wind_witness = 1 /\
    bds44.IMeteorologicalRoutineAirReport_GetSource m = 0.
Proof. eexists. split; [vm_compute; reflexivity|]. split; reflexivity. Qed.

(* the older format *)
Definition code_direction_v0 (n : Z) : f32 := f32_div (f32_mul (f32_of_Z n) (f32_lit 180 1)) (f32_lit 256 1).
Definition code_humidity_v0 (n : Z) : f32 := f32_div (f32_mul (f32_of_Z n) (f32_lit 100 1)) (f32_lit 64 1).
Definition code_temperature_v0 (s : bool) (n : Z) : f32 :=
  let t := f32_mul (f32_of_Z n) (f32_lit 1 4) in if s then f32_sub t (f32_lit 128 1) else t.
Lemma direction_v0_ok : forall n, 0 <= n < 0 + 512 -> is_value (code_direction_v0 n) (inject_Z n * (180 # 256)).
Proof. apply (value_range code_direction_v0 (fun n => inject_Z n * (180 # 256))%Q 0 512). vm_compute. reflexivity. Qed.
Lemma humidity_v0_ok : forall n, 0 <= n < 0 + 64 -> is_value (code_humidity_v0 n) (inject_Z n * (100 # 64)).
Proof. apply (value_range code_humidity_v0 (fun n => inject_Z n * (100 # 64))%Q 0 64). vm_compute. reflexivity. Qed.

Lemma read_bds44_v0 : forall data, bytes data -> len data = 7 ->
  bds44.ReadMeteorologicalRoutineAirReportV0 data =
    Ok (routine_v0 data (bits 7 14 data) (code_direction_v0 (bits 15 23 data))
         (code_temperature_v0 (bit 32 data) (bits 25 34 data)) (code_humidity_v0 (bits 51 56 data))).
Proof.
  intros data Hb Hl. unfold bds44.ReadMeteorologicalRoutineAirReportV0, routine_v0, code_direction_v0, code_temperature_v0, code_humidity_v0.
  split_list data Hl. gorun. unpack. normbits Hb. rewrite ?mul_eq0, ?bit_neg0. reflexivity.
Qed.

(* every field but the temperature *)
Theorem routine_report_v0_partial : forall data, bytes data -> len data = 7 -> bit 6 data = false ->
  exists m direction temperature humidity,
    bds44.ReadMeteorologicalRoutineAirReportV0 data = Ok m /\
    is_value direction (inject_Z (bits 15 23 data) * (180 # 256)) /\
    is_value humidity (inject_Z (bits 51 56 data) * (100 # 64)) /\
    m = routine_v0 data (bits 6 14 data) direction temperature humidity.
Proof.
  intros data Hb Hl H6. bits_bound 15 23 data. bits_bound 51 56 data.
  assert (W : bits 6 14 data = bits 7 14 data).
  { rewrite (bits_join 6 6 14) by lia. rewrite bit_spec, H6. change (6 + 1) with 7. lia. }
  do 4 eexists. split; [apply read_bds44_v0; assumption|].
  split; [apply direction_v0_ok; lia|]. split; [apply humidity_v0_ok; lia|]. rewrite W. reflexivity.
Qed.

(* the sign of the temperature (bit 24) is not read: +10 and -118 or -246 degrees give the same report *)
Theorem routine_report_v0_refuted :
  exists data data' m, bytes data /\ bytes data' /\ len data = 7 /\ len data' = 7 /\
    bit 24 data = false /\ bit 24 data' = true /\ bits 25 34 data = bits 25 34 data' /\
    bds44.ReadMeteorologicalRoutineAirReportV0 data = Ok m /\ bds44.ReadMeteorologicalRoutineAirReportV0 data' = Ok m.
Proof.
  exists [24;0;0;10;0;0;0], [24;0;1;10;0;0;0]. eexists.
  split; [repeat constructor; lia|]. split; [repeat constructor; lia|]. do 5 (split; [reflexivity|]).
  split; vm_compute; reflexivity.
Qed.

(* ---- BDS 4,5 ---- *)

Definition code_edr (n : Z) : f32 :=
  let a := f32_mul (f32_of_Z n) (f32_lit 1 50) in if fl_ltb (f32_lit 63 50) a then f32_lit 63 50 else a.
Lemma edr_ok : forall n, 0 <= n < 0 + 64 -> is_close (code_edr n) (inject_Z n * (1 # 50)) (1 # 10000000).
Proof. apply (close_range code_edr (fun n => inject_Z n * (1 # 50))%Q (1 # 10000000) 0 64). vm_compute. reflexivity. Qed.
Lemma edr_0 : forall n, 0 <= n < 0 + 64 -> fl_eqb (code_edr n) (f32_lit 0 1) = (n =? 0).
Proof. apply (bool_range (fun n => fl_eqb (code_edr n) (f32_lit 0 1)) (fun n => n =? 0)). vm_compute. reflexivity. Qed.

Lemma u8_id : forall z, 0 <= z < 256 -> u8 z = z.
Proof. intros. apply Z.mod_small. lia. Qed.

Theorem read_bds45_v1 : forall data m, bytes data -> len data = 7 ->
  (bds45.ReadMeteorologicalHazardReportV1 data = Ok m <->
   bits 55 56 data = 0 /\
   m = hazard_v1 data (code_temperature (bit 14 data) (bits 15 24 data)) (code_edr (bits 39 44 data)) (code_edr (bits 45 50 data))).
Proof.
  intros data m Hb Hl. unfold bds45.ReadMeteorologicalHazardReportV1, hazard_v1, code_temperature, code_edr.
  bits_bound 26 37 data. bits_bound 8 9 data.
  split_list data Hl. gorun. unpack. normbits Hb. rewrite ?mul_eq0, ?bit_neg0.
  match type of Hb with bytes ?l => remember l as f end.
  rewrite ?u32_id by lia. rewrite ?u8_id by lia. rewrite ?(Z.mul_comm _ 2).
  destruct (bits 55 56 f =? 0) eqn:E; cbn [negb].
  - split; [intros H; injection H as <-; split; [lia|reflexivity]|intros [_ ->]; reflexivity].
  - split; [discriminate|intros [H _]; lia].
Qed.

Definition code_temperature_q (s : bool) (n : Z) : f32 :=
  let t := f32_mul (f32_of_Z n) (f32_lit 1 4) in if s then f32_sub t (f32_lit 128 1) else t.
Lemma temperature_q_ok : forall s n, 0 <= n < 0 + 512 -> is_value (code_temperature_q s n) (inject_Z (sgn s 512 n) * (1 # 4)).
Proof. apply (value_range2 code_temperature_q (fun s n => inject_Z (sgn s 512 n) * (1 # 4))%Q 0 512). vm_compute. reflexivity. Qed.

Lemma read_bds45_v0 : forall data m, bytes data -> len data = 7 ->
  (bds45.ReadMeteorologicalHazardReportV0 data = Ok m <->
   bits 52 56 data = 0 /\ m = hazard_v0 data (code_temperature_q (bit 17 data) (bits 18 26 data))).
Proof.
  intros data m Hb Hl. unfold bds45.ReadMeteorologicalHazardReportV0, hazard_v0, code_temperature_q.
  bits_bound 40 51 data. bits_bound 8 9 data.
  split_list data Hl. gorun. unpack. normbits Hb. rewrite ?mul_eq0, ?bit_neg0.
  match type of Hb with bytes ?l => remember l as f end.
  rewrite ?u32_id by lia. rewrite ?u8_id by lia. rewrite ?(Z.mul_comm _ 16).
  destruct (bits 52 56 f =? 0) eqn:E; cbn [negb].
  - split; [intros H; injection H as <-; split; [lia|reflexivity]|intros [_ ->]; reflexivity].
  - split; [discriminate|intros [H _]; lia].
Qed.

(* the older format, when it is asked for *)
Theorem hazard_report_v0 : forall data m, bytes data -> len data = 7 ->
  bds45.ReadMeteorologicalHazardReportV0 data = Ok m ->
  bits 52 56 data = 0 /\
  exists temperature, is_value temperature (inject_Z (signed 17 26 data) * (1 # 4)) /\ m = hazard_v0 data temperature.
Proof.
  intros data m Hb Hl H. apply read_bds45_v0 in H; [|assumption|assumption]. destruct H as [H ->]. split; [exact H|].
  eexists. split; [|reflexivity]. bits_bound 18 26 data. apply temperature_q_ok. lia.
Qed.

Lemma read_bds45 : forall data m, bytes data -> len data = 7 ->
  (bds45.ReadMeteorologicalHazardReport data = Ok m <->
   bits 55 56 data = 0 /\
   m = bds45.IMeteorologicalHazardReport_MeteorologicalHazardReportV1 (hazard_v1 data
     (code_temperature (bit 14 data) (bits 15 24 data)) (code_edr (bits 39 44 data)) (code_edr (bits 45 50 data)))).
Proof.
  intros data m Hb Hl. unfold bds45.ReadMeteorologicalHazardReport. rewrite Hl. cbn [Z.eqb Pos.eqb negb].
  destruct (bds45.ReadMeteorologicalHazardReportV1 data) as [m1|e1|] eqn:E1.
  - apply read_bds45_v1 in E1; [|assumption|assumption]. destruct E1 as [E ->].
    split; [intros H; injection H as <-; auto|intros [_ ->]; reflexivity].
  - destruct (Z.eq_dec (bits 55 56 data) 0) as [Z0|NZ].
    { assert (X := proj2 (read_bds45_v1 data _ Hb Hl) (conj Z0 eq_refl)). congruence. }
    destruct (bds45.ReadMeteorologicalHazardReportV0 data) as [m0|e0|] eqn:E0.
    + apply read_bds45_v0 in E0; [|assumption|assumption]. destruct E0 as [E _]. exfalso. apply NZ.
      apply (bits_of_zero 52 56); (lia || assumption).
    + split; [discriminate|intros [H _]; contradiction].
    + split; [discriminate|intros [H _]; contradiction].
  - destruct (Z.eq_dec (bits 55 56 data) 0) as [Z0|NZ].
    { assert (X := proj2 (read_bds45_v1 data _ Hb Hl) (conj Z0 eq_refl)). congruence. }
    split; [discriminate|intros [H _]; contradiction].
Qed.

(* C46 *)
Theorem hazard_report : forall data m, bytes data -> len data = 7 ->
  bds45.ReadMeteorologicalHazardReport data = Ok m ->
  HazardOf data m /\
  (bds45.IMeteorologicalHazardReport_CheckCoherency m = Ok tt <-> coherent_45 data) /\
  bds45.IMeteorologicalHazardReport_CheckCoherency m <> Panic.
Proof.
  intros data m Hb Hl H. apply read_bds45 in H; [|assumption|assumption]. destruct H as [H ->].
  bits_bound 15 24 data. bits_bound 39 44 data. bits_bound 45 50 data. bits_bound 51 54 data.
  split.
  { constructor; [exact H|apply temperature_ok|apply edr_ok|apply edr_ok]; lia. }
  cbn [bds45.IMeteorologicalHazardReport_CheckCoherency].
  unfold bds45.MeteorologicalHazardReportV1_CheckCoherency, hazard_v1, coherent_45, absent_is_zero.
  cbn -[Z.mul f32_lit fl_ltb fl_eqb signed f32_of_Z].
  rewrite !edr_0, temperature_bounds by lia.
  change (sgn (bit 14 data) 1024 (bits 15 24 data)) with (signed 14 24 data).
  zsplit Hl 39 44 54. zsplit Hl 45 50 54. unfold bds45_fields.HLNil.
  do 6 (apply chk_iff; [test1|]).
  destruct (bit 13 data).
  - cascade.
  - apply (chk_iff false ""%string); [test1|]. cascade.
Qed.

(* the reader recognises the register whenever the reserved bits are zero *)
Theorem hazard_report_recognised : forall data, bytes data -> len data = 7 ->
  ((exists m, bds45.ReadMeteorologicalHazardReport data = Ok m) <-> bits 55 56 data = 0).
Proof.
  intros data Hb Hl. split.
  - intros [m H]. apply read_bds45 in H; tauto.
  - intros H. eexists. apply read_bds45; auto.
Qed.

Example routine_example : exists data, bytes data /\ len data = 7 /\ bit 6 data = false /\ coherent_44 data.
Proof.
  exists [24;178;129;246;0;0;0]. split; [repeat constructor; lia|]. split; [reflexivity|]. split; [reflexivity|].
  unfold coherent_44, absent_is_zero, signed. vm_compute. intuition congruence.
Qed.
Example hazard_example : exists data m, bytes data /\ len data = 7 /\ coherent_45 data /\
  bds45.ReadMeteorologicalHazardReport data = Ok m.
Proof.
  exists [242;228;236;182;253;60;156]. eexists. split; [repeat constructor; lia|]. split; [reflexivity|].
  split; [unfold coherent_45, absent_is_zero, signed; vm_compute; intuition congruence|vm_compute; reflexivity].
Qed.
