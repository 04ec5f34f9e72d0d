(* The older formats of the registers 4,4 and 4,5: plausibility (C45, C46). *)
From Verif.Proofs Require Import Tac CommB1 CommB2 CommB3.
From Verif.Spec Require Import Floats CommB CommBMessages.
From Verif.Gen Require bds44 bds44_fields bds45 bds45_fields.
Local Open Scope Z_scope.

Lemma direction_v0_0 : forall n, 0 <= n < 0 + 512 -> fl_eqb (code_direction_v0 n) (f32_lit 0 1) = (n =? 0).
Proof. apply (bool_range (fun n => fl_eqb (code_direction_v0 n) (f32_lit 0 1)) (fun n => n =? 0)). vm_compute. reflexivity. Qed.
Lemma humidity_v0_0 : forall n, 0 <= n < 0 + 64 -> fl_eqb (code_humidity_v0 n) (f32_lit 0 1) = (n =? 0).
Proof. apply (bool_range (fun n => fl_eqb (code_humidity_v0 n) (f32_lit 0 1)) (fun n => n =? 0)). vm_compute. reflexivity. Qed.
Lemma temperature_v0_bounds : forall n, 0 <= n < 0 + 1024 ->
  (fl_ltb (code_temperature_v0 false n) (f32_lit (-80) 1) || fl_ltb (f32_lit 60 1) (code_temperature_v0 false n)) = (240 <? n).
Proof.
  apply (bool_range (fun n => fl_ltb (code_temperature_v0 false n) (f32_lit (-80) 1) || fl_ltb (f32_lit 60 1) (code_temperature_v0 false n))
    (fun n => 240 <? n)). vm_compute. reflexivity.
Qed.
Lemma temperature_v0_ok : forall n, 0 <= n < 0 + 1024 -> is_value (code_temperature_v0 false n) (inject_Z n * (1 # 4)).
Proof. apply (value_range (code_temperature_v0 false) (fun n => inject_Z n * (1 # 4))%Q 0 1024). vm_compute. reflexivity. Qed.
Lemma temperature_q_0 : forall s n, 0 <= n < 0 + 512 -> fl_eqb (code_temperature_q s n) (f32_lit 0 1) = (sgn s 512 n =? 0).
Proof. apply (bool_range2 (fun s n => fl_eqb (code_temperature_q s n) (f32_lit 0 1)) (fun s n => sgn s 512 n =? 0)). vm_compute. reflexivity. Qed.
Lemma temperature_q_bounds : forall s n, 0 <= n < 0 + 512 ->
  (fl_ltb (code_temperature_q s n) (f32_lit (-80) 1) || fl_ltb (f32_lit 60 1) (code_temperature_q s n)) =
  ((sgn s 512 n <? -320) || (240 <? sgn s 512 n)).
Proof.
  apply (bool_range2 (fun s n => fl_ltb (code_temperature_q s n) (f32_lit (-80) 1) || fl_ltb (f32_lit 60 1) (code_temperature_q s n))
    (fun s n => (sgn s 512 n <? -320) || (240 <? sgn s 512 n))). vm_compute. reflexivity.
Qed.

(* The whole report of the older format of BDS 4,4, where the code reads it right: the top bit of
   the wind speed and the sign of the temperature are zero (and so is bit 32, taken for the sign),
   and the turbulence, which is not checked, is zero when absent *)
Theorem routine_coherent_v0_partial : forall data m, bytes data -> len data = 7 ->
  bit 6 data = false -> bit 24 data = false -> bit 32 data = false -> absent_is_zero 47 48 49 data ->
  bds44.ReadMeteorologicalRoutineAirReportV0 data = Ok m ->
  is_value (bds44.MeteorologicalRoutineAirReportV0_StaticAirTemperature m) (inject_Z (signed 24 34 data) * (1 # 4)) /\
  (bds44.MeteorologicalRoutineAirReportV0_CheckCoherency m = Ok tt <-> coherent_44_v0 data) /\
  bds44.MeteorologicalRoutineAirReportV0_CheckCoherency m <> Panic.
Proof.
  intros data m Hb Hl H6 H24 H32 HT H. rewrite read_bds44_v0 in H by assumption. injection H as <-.
  bits_bound 15 23 data. bits_bound 25 34 data. bits_bound 51 56 data. bits_bound 1 4 data. bits_bound 7 14 data.
  assert (W : bits 6 14 data = bits 7 14 data).
  { rewrite (bits_join 6 6 14) by lia. rewrite bit_spec, H6. change (6 + 1) with 7. lia. }
  assert (S : signed 24 34 data = bits 25 34 data) by (unfold signed; rewrite H24; change (24 + 1) with 25; lia).
  rewrite H32. split.
  { cbn [bds44.MeteorologicalRoutineAirReportV0_StaticAirTemperature routine_v0]. rewrite S. apply temperature_v0_ok. lia. }
  unfold bds44.MeteorologicalRoutineAirReportV0_CheckCoherency, routine_v0, coherent_44_v0, absent_is_zero in *.
  rewrite W, S. 
  zsplit Hl 6 14 23. rewrite W.
  match goal with |- context [_ = Ok tt <-> ?C] => assert (R : C <->
    (bit 5 data = true \/ bit 35 data = true \/ bit 47 data = true \/ bit 50 data = true) /\
    bits 1 4 data <= 4 /\
    (bit 5 data = false -> bits 7 14 data = 0) /\ (bit 5 data = false -> bits 15 23 data = 0) /\
    (bit 35 data = false -> bits 36 46 data = 0) /\ (bit 50 data = false -> bits 51 56 data = 0) /\
    bits 7 14 data <= 250 /\ bits 25 34 data <= 240) by (clear -HT B0; cbn [Z.add Pos.add Pos.succ]; intuition lia) end.
  rewrite R. clear R.
  pose proof (temperature_v0_bounds (bits 25 34 data)) as TB. specialize (TB ltac:(lia)).
  remember (code_temperature_v0 false (bits 25 34 data)) as T eqn:ET. clear ET.
  cbn -[Z.mul f32_lit fl_ltb fl_eqb signed f32_of_Z].
  rewrite direction_v0_0, humidity_v0_0, TB by lia.
  cascade.
Qed.

(* turbulence is not checked: a value without its status is accepted *)
Theorem routine_coherent_v0_refuted : exists data m, bytes data /\ len data = 7 /\
  bit 6 data = false /\ bit 24 data = false /\ bit 32 data = false /\
  bit 47 data = false /\ bits 48 49 data = 2 /\
  bds44.ReadMeteorologicalRoutineAirReportV0 data = Ok m /\
  bds44.MeteorologicalRoutineAirReportV0_CheckCoherency m = Ok tt /\ ~ coherent_44_v0 data.
Proof.
  exists [24;178;128;0;0;1;0]. eexists. split; [repeat constructor; lia|]. do 6 (split; [reflexivity|]).
  split; [vm_compute; reflexivity|]. split; [vm_compute; reflexivity|].
  unfold coherent_44_v0, absent_is_zero. intros (_ & _ & _ & _ & H & _). vm_compute in H. specialize (H eq_refl). discriminate.
Qed.

Theorem hazard_coherent_v0 : forall data m, bytes data -> len data = 7 ->
  bds45.ReadMeteorologicalHazardReportV0 data = Ok m ->
  (bds45.MeteorologicalHazardReportV0_CheckCoherency m = Ok tt <-> coherent_45_v0 data) /\
  bds45.MeteorologicalHazardReportV0_CheckCoherency m <> Panic.
Proof.
  intros data m Hb Hl H. apply read_bds45_v0 in H; [|assumption|assumption]. destruct H as [H ->].
  bits_bound 18 26 data.
  unfold bds45.MeteorologicalHazardReportV0_CheckCoherency, hazard_v0, coherent_45_v0, absent_is_zero.
  rewrite (signed_zero 17 26) by lia.
  cbn -[Z.mul f32_lit fl_ltb fl_eqb signed f32_of_Z].
  rewrite temperature_q_0, temperature_q_bounds by lia.
  change (sgn (bit 17 data) 512 (bits 18 26 data)) with (signed 17 26 data).
  unfold bds45_fields.HLNil.
  cascade.
Qed.

Example routine_v0_example : exists data m, bytes data /\ len data = 7 /\ bit 6 data = false /\ bit 24 data = false /\
  bit 32 data = false /\ absent_is_zero 47 48 49 data /\ coherent_44_v0 data /\
  bds44.ReadMeteorologicalRoutineAirReportV0 data = Ok m.
Proof.
  exists [24;178;128;40;0;2;0]. eexists. split; [repeat constructor; lia|]. do 4 (split; [reflexivity|]).
  split; [vm_compute; congruence|]. split; [|vm_compute; reflexivity].
  unfold coherent_44_v0, absent_is_zero, signed. vm_compute. intuition congruence.
Qed.
Example hazard_v0_example : exists data m, bytes data /\ len data = 7 /\ coherent_45_v0 data /\
  bds45.ReadMeteorologicalHazardReportV0 data = Ok m.
Proof.
  exists [160;1;10;0;2;0;32]. eexists. split; [repeat constructor; lia|]. split; [reflexivity|].
  split; [unfold coherent_45_v0, absent_is_zero, signed; vm_compute; intuition congruence|vm_compute; reflexivity].
Qed.
