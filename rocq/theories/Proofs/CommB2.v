(* Comm-B registers 5,0 and 6,0 (C47, C48). *)
From Verif.Proofs Require Import Tac CommB1.
From Verif.Spec Require Import Floats CommB.
From Verif.Gen Require bds50 bds50_fields bds60 bds60_fields.
Local Open Scope Z_scope.

Definition sgn (s : bool) (w n : Z) : Z := n - (if s then w else 0).

Lemma value_range2 : forall (f : bool -> Z -> spec_float) (q : bool -> Z -> Q) from n,
  List.forallb (fun z => is_valueb (f true z) (q true z) && is_valueb (f false z) (q false z)) (zseq from (Z.to_nat n)) = true ->
  forall s z, from <= z < from + n -> is_value (f s z) (q s z).
Proof.
  intros f q from n H s z Hz.
  pose proof (forall_range (fun z => is_valueb (f true z) (q true z) && is_valueb (f false z) (q false z)) from n H z Hz) as T.
  cbn beta in T. apply andb_prop in T as [T F]. destruct s; apply is_valueb_ok; assumption.
Qed.

Lemma bool_range2 : forall (f g : bool -> Z -> bool) from n,
  List.forallb (fun z => Bool.eqb (f true z) (g true z) && Bool.eqb (f false z) (g false z)) (zseq from (Z.to_nat n)) = true ->
  forall s z, from <= z < from + n -> f s z = g s z.
Proof.
  intros f g from n H s z Hz.
  pose proof (forall_range (fun z => Bool.eqb (f true z) (g true z) && Bool.eqb (f false z) (g false z)) from n H z Hz) as T.
  cbn beta in T. apply andb_prop in T as [T F]. destruct s; apply Bool.eqb_prop; assumption.
Qed.

Lemma bool_range : forall (f g : Z -> bool) from n,
  List.forallb (fun z => Bool.eqb (f z) (g z)) (zseq from (Z.to_nat n)) = true ->
  forall z, from <= z < from + n -> f z = g z.
Proof. intros f g from n H z Hz. apply Bool.eqb_prop. exact (forall_range (fun z => Bool.eqb (f z) (g z)) from n H z Hz). Qed.

(* the signed field is zero when all its bits are *)
Lemma signed_zero : forall i j data, 1 <= i -> i < j -> j <= 8 * len data ->
  (bits i j data = 0 <-> signed i j data = 0).
Proof.
  intros i j data Hi Hij Hj. rewrite (bits_zero_split i i j data) by lia. unfold signed.
  rewrite bit_spec. pose proof (bits_range (i + 1) j data ltac:(lia)).
  replace (j - (i + 1) + 1) with (j - i) in * by lia. destruct (bit i data); lia.
Qed.

Lemma i64_small : forall z, -9223372036854775808 <= z < 9223372036854775808 -> i64 z = z.
Proof. intros. unfold i64. rewrite Z.mod_small; lia. Qed.

(* a cascade of tests *)
Lemma chk_iff : forall (t : bool) e (k : res unit) (P Q : Prop),
  (t = false <-> P) -> (k = Ok tt <-> Q) /\ k <> Panic ->
  ((if t then Err e else k) = Ok tt <-> P /\ Q) /\ (if t then Err e else k) <> Panic.
Proof.
  intros t e k P Q H [K N]. destruct t.
  - split; [|discriminate]. split; [discriminate|]. intros [p _]. apply H in p. discriminate.
  - split; [|exact N]. rewrite K. split; [intros q; split; [apply H; reflexivity|exact q]|intros [_ q]; exact q].
Qed.

Lemma chk_last : forall (t : bool) e (P : Prop),
  (t = false <-> P) -> ((if t then Err e else Ok tt) = Ok tt <-> P) /\ (if t then Err e else Ok tt) <> Panic.
Proof.
  intros t e P H. destruct t; (split; [split; intros K|discriminate]).
  - discriminate.
  - apply H in K. discriminate.
  - apply H. reflexivity.
  - reflexivity.
Qed.

(* t = false <-> P, where t is about status bits and numbers *)
Ltac test1 :=
  repeat match goal with |- context [bit ?i ?d] => destruct (bit i d) end; cbn [negb andb orb];
  (split; intros; first [discriminate | reflexivity | lia | tauto
    | exfalso; repeat match goal with H : ?a = ?a -> _ |- _ => specialize (H eq_refl) end; first [lia | intuition congruence]
    | repeat match goal with H : ?a = ?a -> _ |- _ => specialize (H eq_refl) end; first [lia | intuition congruence]]).
Ltac cascade := repeat first [apply chk_last; test1 | apply chk_iff; [test1|]].

(* ---- BDS 5,0 ---- *)

Definition code_roll (s : bool) (n : Z) : f32 :=
  let r := f32_div (f32_mul (f32_of_Z n) (f32_lit 45 1)) (f32_lit 256 1) in
  if s then f32_sub r (f32_lit 90 1) else r.
Definition code_track (s : bool) (n : Z) : f32 :=
  let r := f32_div (f32_mul (f32_of_Z n) (f32_lit 90 1)) (f32_lit 512 1) in
  if s then f32_sub r (f32_lit 180 1) else r.
Definition code_rate (s : bool) (n : Z) : f32 :=
  let r := f32_div (f32_mul (f32_of_Z n) (f32_lit 8 1)) (f32_lit 256 1) in
  if s then f32_sub r (f32_lit 16 1) else r.

Lemma roll_ok : forall s n, 0 <= n < 0 + 512 -> is_value (code_roll s n) (inject_Z (sgn s 512 n) * (45 # 256)).
Proof. apply (value_range2 code_roll (fun s n => inject_Z (sgn s 512 n) * (45 # 256))%Q 0 512). vm_compute. reflexivity. Qed.
Lemma track_ok : forall s n, 0 <= n < 0 + 1024 -> is_value (code_track s n) (inject_Z (sgn s 1024 n) * (90 # 512)).
Proof. apply (value_range2 code_track (fun s n => inject_Z (sgn s 1024 n) * (90 # 512))%Q 0 1024). vm_compute. reflexivity. Qed.
Lemma rate_ok : forall s n, 0 <= n < 0 + 512 -> is_value (code_rate s n) (inject_Z (sgn s 512 n) * (8 # 256)).
Proof. apply (value_range2 code_rate (fun s n => inject_Z (sgn s 512 n) * (8 # 256))%Q 0 512). vm_compute. reflexivity. Qed.

Lemma roll_0 : forall s n, 0 <= n < 0 + 512 -> fl_eqb (code_roll s n) (f32_lit 0 1) = (sgn s 512 n =? 0).
Proof. apply (bool_range2 (fun s n => fl_eqb (code_roll s n) (f32_lit 0 1)) (fun s n => sgn s 512 n =? 0)). vm_compute. reflexivity. Qed.
Lemma track_0 : forall s n, 0 <= n < 0 + 1024 -> fl_eqb (code_track s n) (f32_lit 0 1) = (sgn s 1024 n =? 0).
Proof. apply (bool_range2 (fun s n => fl_eqb (code_track s n) (f32_lit 0 1)) (fun s n => sgn s 1024 n =? 0)). vm_compute. reflexivity. Qed.
Lemma rate_0 : forall s n, 0 <= n < 0 + 512 -> fl_eqb (code_rate s n) (f32_lit 0 1) = (sgn s 512 n =? 0).
Proof. apply (bool_range2 (fun s n => fl_eqb (code_rate s n) (f32_lit 0 1)) (fun s n => sgn s 512 n =? 0)). vm_compute. reflexivity. Qed.

Lemma roll_50 : forall s n, 0 <= n < 0 + 512 ->
  (fl_ltb (f32_lit 50 1) (code_roll s n) || fl_ltb (code_roll s n) (f32_lit (-50) 1)) =
  negb (Qle_bool (Qabs (inject_Z (sgn s 512 n) * (45 # 256))) (50 # 1)).
Proof.
  apply (bool_range2 (fun s n => fl_ltb (f32_lit 50 1) (code_roll s n) || fl_ltb (code_roll s n) (f32_lit (-50) 1))
    (fun s n => negb (Qle_bool (Qabs (inject_Z (sgn s 512 n) * (45 # 256))) (50 # 1)))). vm_compute. reflexivity.
Qed.

Theorem read_bds50 : forall data, bytes data -> len data = 7 ->
  bds50.ReadTrackAndTurnReport data =
    Ok (track_and_turn data (code_roll (bit 2 data) (bits 3 11 data)) (code_track (bit 13 data) (bits 14 23 data))
                            (code_rate (bit 36 data) (bits 37 45 data))).
Proof.
  intros data Hb Hl. unfold bds50.ReadTrackAndTurnReport, track_and_turn, code_roll, code_track, code_rate.
  bits_bound 25 34 data. bits_bound 47 56 data.
  split_list data Hl. gorun. unpack. normbits Hb. rewrite ?bit_neg0, ?mul_eq0.
  match type of Hb with bytes ?l => remember l as f end.
  rewrite ?u32_id by lia. rewrite ?(Z.mul_comm _ 2), ?bit_neg0. reflexivity.
Qed.

(* C47 *)
Theorem track_and_turn_report : forall data, bytes data -> len data = 7 ->
  exists m, bds50.ReadTrackAndTurnReport data = Ok m /\ TrackOf data m /\
    (bds50.TrackAndTurnReport_CheckCoherency m = Ok tt <-> coherent_50 data) /\
    bds50.TrackAndTurnReport_CheckCoherency m <> Panic.
Proof.
  intros data Hb Hl. eexists. split; [apply read_bds50; assumption|].
  bits_bound 3 11 data. bits_bound 14 23 data. bits_bound 37 45 data. bits_bound 25 34 data. bits_bound 47 56 data.
  split.
  { constructor; [apply roll_ok|apply track_ok|apply rate_ok]; lia. }
  unfold bds50.TrackAndTurnReport_CheckCoherency, track_and_turn, coherent_50, absent_is_zero.
  rewrite (signed_zero 2 11), (signed_zero 13 23), (signed_zero 36 45) by lia.
  cbn -[Z.mul f32_lit fl_ltb fl_eqb i64 Qle Qabs signed Z.abs].
  rewrite roll_0, track_0, rate_0, roll_50 by lia.
  change (sgn (bit 2 data) 512 (bits 3 11 data)) with (signed 2 11 data).
  change (sgn (bit 13 data) 1024 (bits 14 23 data)) with (signed 13 23 data).
  change (sgn (bit 36 data) 512 (bits 37 45 data)) with (signed 36 45 data).
  apply chk_iff; [test1|].
  apply chk_iff; [test1|].
  apply chk_iff; [test1|].
  apply chk_iff; [test1|].
  apply chk_iff; [test1|].
  apply chk_iff; [test1|].
  apply chk_iff. { rewrite Bool.negb_false_iff. apply Qle_bool_iff. }
  rewrite i64_small by lia.
  cascade.
Qed.

(* ---- BDS 6,0 ---- *)

Definition code_mach (n : Z) : f32 := f32_div (f32_mul (f32_of_Z n) (f32_lit 256 125)) (f32_lit 512 1).

Lemma mach_ok : forall n, 0 <= n < 0 + 1024 -> is_close (code_mach n) (inject_Z n * (4 # 1000)) (1 # 1000000).
Proof. apply (close_range code_mach (fun n => inject_Z n * (4 # 1000))%Q (1 # 1000000) 0 1024). vm_compute. reflexivity. Qed.
Lemma mach_0 : forall n, 0 <= n < 0 + 1024 -> fl_eqb (code_mach n) (f32_lit 0 1) = (n =? 0).
Proof. apply (bool_range (fun n => fl_eqb (code_mach n) (f32_lit 0 1)) (fun n => n =? 0)). vm_compute. reflexivity. Qed.
Lemma mach_1 : forall n, 0 <= n < 0 + 1024 -> fl_ltb (f32_lit 1 1) (code_mach n) = negb (Qle_bool (inject_Z n * (4 # 1000)) (1 # 1)).
Proof.
  apply (bool_range (fun n => fl_ltb (f32_lit 1 1) (code_mach n)) (fun n => negb (Qle_bool (inject_Z n * (4 # 1000)) (1 # 1)))).
  vm_compute. reflexivity.
Qed.

Theorem read_bds60 : forall data, bytes data -> len data = 7 ->
  bds60.ReadHeadingAndSpeedReport data =
    Ok (heading_and_speed data (code_track (bit 2 data) (bits 3 12 data)) (code_mach (bits 25 34 data))).
Proof.
  intros data Hb Hl. unfold bds60.ReadHeadingAndSpeedReport, heading_and_speed, code_track, code_mach, signed.
  bits_bound 37 45 data. bits_bound 48 56 data.
  split_list data Hl. gorun. unpack. normbits Hb. rewrite ?bit_neg0, ?mul_eq0.
  match type of Hb with bytes ?l => remember l as f end.
  rewrite ?(i32_small (_ * 32)), ?(i32_small (_ * 8192)) by lia. rewrite ?bit_neg0.
  change (bits (36 + 1) 45 f) with (bits 37 45 f). change (bits (47 + 1) 56 f) with (bits 48 56 f).
  change (2 ^ (45 - 36)) with 512. change (2 ^ (56 - 47)) with 512.
  replace (Z.quot (bits 48 56 f * 8192) 256) with (bits 48 56 f * 32)
    by (rewrite Z.quot_div_nonneg by lia; change 8192 with (32 * 256); rewrite Z.mul_assoc, Z.div_mul by lia; reflexivity).
  rewrite ?(i32_small (_ * 32 - 16384)) by lia.
  do 2 f_equal.
  - destruct (bit 36 f); lia.
  - destruct (bit 47 f); lia.
Qed.

(* C48 *)
Theorem heading_and_speed_report : forall data, bytes data -> len data = 7 ->
  exists m, bds60.ReadHeadingAndSpeedReport data = Ok m /\ HeadingOf data m /\
    (bds60.HeadingAndTrackReport_CheckCoherency m = Ok tt <-> coherent_60 data) /\
    bds60.HeadingAndTrackReport_CheckCoherency m <> Panic.
Proof.
  intros data Hb Hl. eexists. split; [apply read_bds60; assumption|].
  bits_bound 3 12 data. bits_bound 25 34 data.
  split.
  { constructor; [apply track_ok|apply mach_ok]; lia. }
  unfold bds60.HeadingAndTrackReport_CheckCoherency, heading_and_speed, coherent_60, absent_is_zero.
  rewrite (signed_zero 2 12), (signed_zero 36 45), (signed_zero 47 56) by lia.
  cbn -[Z.mul f32_lit fl_ltb fl_eqb Qle Qabs signed Z.abs].
  rewrite track_0, mach_0, mach_1 by lia.
  change (sgn (bit 2 data) 1024 (bits 3 12 data)) with (signed 2 12 data).
  do 6 (apply chk_iff; [test1|]). apply chk_iff; [test1|].
  apply chk_iff. { rewrite Bool.negb_false_iff. apply Qle_bool_iff. }
  cascade.
Qed.

(* the hypotheses are met by real messages *)
Example track_and_turn_example : exists data, bytes data /\ len data = 7 /\ coherent_50 data.
Proof.
  (* roll 2.1 degrees, track 114.2, ground speed 438 kt, rate 0.125 deg/s, TAS 424 kt: frame A000139381951536E024D4CCF6B5 *)
  exists [129;149;21;54;224;36;212]. split; [repeat constructor; lia|]. split; [reflexivity|].
  unfold coherent_50, absent_is_zero, signed. vm_compute. intuition congruence.
Qed.
Example heading_and_speed_example : exists data, bytes data /\ len data = 7 /\ coherent_60 data.
Proof.
  (* frame A00004128F39F91A7E27C46ADC21 *)
  exists [143;57;249;26;126;39;196]. split; [repeat constructor; lia|]. split; [reflexivity|].
  unfold coherent_60, absent_is_zero, signed. vm_compute. intuition congruence.
Qed.
