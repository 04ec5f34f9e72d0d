(* C85: the registers an aircraft sends in Comm-B replies are among what the library tells. *)
From Verif.Proofs Require Import Tac.
From Verif.Spec Require Import Altitude ModeS Crc Floats Identification Adsb CommB CommBMessages Squitter Reply.
From Verif.Gen Require bds07 bds20 bds50 bds60.
From Verif.Model Require Import Crc ModesReader CommbReader.
From Verif.Proofs Require Import Octets Squitter Reply CommB1 CommB2 CommBApi.
Local Open Scope Z_scope.

Lemma signed_ok : forall i j w z data, w = j - i + 1 -> 2 <= w -> - 2 ^ (w - 1) <= z < 2 ^ (w - 1) ->
  bits i i data = flag (z <? 0) -> bits (i + 1) j data = z mod 2 ^ (w - 1) -> signed i j data = z.
Proof.
  intros i j w z data -> Hw Hz B1 B2. unfold signed, bit. rewrite B1, B2, flag_test.
  replace (j - i + 1 - 1) with (j - i) in * by lia. pose proof (Z.pow_pos_nonneg 2 (j - i)).
  destruct (Z.ltb_spec z 0).
  - rewrite <- (Z.mod_unique z (2 ^ (j - i)) (-1) (z + 2 ^ (j - i))); lia.
  - rewrite Z.mod_small; lia.
Qed.

Lemma signed_fits : forall w z, 1 <= w -> fits (signed_field w z).
Proof.
  intros w z H. constructor; [cbn [fst snd]; destruct (z <? 0); cbn; lia|]. constructor; [|constructor].
  cbn [fst snd]. split; [lia|]. apply Z.mod_pos_bound. apply Z.pow_pos_nonneg; lia.
Qed.

(* the registers that exclude the others all start with a zero bit *)
Lemma not_excluded : forall data, bytes data -> len data = 7 -> bits 1 1 data = 1 -> bits 12 12 data = 1 \/ bits 13 13 data = 1 ->
  bits 1 56 data <> 0 /\ ~ ((bits 4 6 data = 0 /\ bits 9 56 data = 0) /\ coherent_07 data) /\ ~ (recognised_20 data /\ legal_characters data).
Proof.
  intros data Hb Hl B1 BX.
  assert (J : forall c, 1 < c -> c <= 56 -> bits 1 c data >= 2 ^ (c - 1)).
  { intros c H1 H2. rewrite (bits_join 1 1 c data) by lia. rewrite B1. pose proof (bits_range (1 + 1) c data ltac:(lia)). lia. }
  split; [pose proof (J 56 ltac:(lia) ltac:(lia)) as Q; change (2 ^ (56 - 1)) with 36028797018963968 in Q; lia|]. split.
  - intros [[_ H] _]. destruct BX as [BX|BX].
    + rewrite (bits_of_zero 9 56 data 12 12) in BX by (lia || exact H). discriminate.
    + rewrite (bits_of_zero 9 56 data 13 13) in BX by (lia || exact H). discriminate.
  - intros [H _]. unfold recognised_20 in H. pose proof (J 8 ltac:(lia) ltac:(lia)) as Q. change (2 ^ (8 - 1)) with 128 in Q. lia.
Qed.

(* a register that the reader always decodes, plausible, is found once *)
Lemma found : forall data k, bytes data -> len data = 7 -> bits 1 1 data = 1 -> bits 12 12 data = 1 \/ bits 13 13 data = 1 ->
  plausible k data -> exists l m, ReadCommBMessage data = Ok l /\ List.In m l /\ number m = k /\ decodes data m /\
    forall m', List.In m' l -> number m' = k -> decodes data m'.
Proof.
  intros data k Hb Hl B1 BX P. destruct (not_excluded data Hb Hl B1 BX) as (N1 & N2 & N3).
  destruct (commb_registers data Hb Hl N1 N2 N3) as (l & R & H). destruct (proj2 (H k) P) as (m & I & E).
  exists l, m. split; [exact R|]. split; [exact I|]. split; [exact E|]. split; [exact (proj1 (commb_sound data l m Hb R I))|].
  intros m' I' _. exact (proj1 (commb_sound data l m' Hb R I')).
Qed.

Ltac look7 n c := match goal with |- bits ?i ?j (message ?fs) = ?x =>
  apply (bits_field fs n c i j 7 x); [assumption|reflexivity|reflexivity|reflexivity|reflexivity] end.

Theorem track_register_told : forall roll track speed rate airspeed,
  -284 <= roll <= 284 -> -1024 <= track < 1024 -> 0 <= speed <= 300 -> -512 <= rate < 512 -> 0 <= airspeed <= 250 ->
  Z.abs (speed - airspeed) <= 100 ->
  exists l m, ReadCommBMessage (message (track_register roll track speed rate airspeed)) = Ok l /\
    (forall x, List.In (B50 x) l <-> x = m) /\
    bds50.TrackAndTurnReport_RollAngleStatus m = true /\
    is_value (bds50.TrackAndTurnReport_RollAngle m) (inject_Z roll * (45 # 256)) /\
    bds50.TrackAndTurnReport_TrueTrackAngleStatus m = true /\
    is_value (bds50.TrackAndTurnReport_TrueTrackAngle m) (inject_Z track * (90 # 512)) /\
    bds50.TrackAndTurnReport_GroundSpeedStatus m = true /\
    bds50.TrackAndTurnReport_GroundSpeed m = 2 * speed /\
    bds50.TrackAndTurnReport_TrackAngleRateStatus m = true /\
    is_value (bds50.TrackAndTurnReport_TrackAngleRate m) (inject_Z rate * (8 # 256)) /\
    bds50.TrackAndTurnReport_TrueAirSpeedStatus m = true /\
    bds50.TrackAndTurnReport_TrueAirSpeed m = 2 * airspeed.
Proof.
  intros roll track speed rate airspeed Hr Ht Hs Ha Hv Hd.
  assert (F : fits (track_register roll track speed rate airspeed)).
  { assert (S1 : forall z, 0 <= z < 1024 -> fits [(10, z)]) by (intros z H; constructor; [cbn; lia|constructor]).
    assert (S0 : fits [(1, 1)]) by (constructor; [cbn; lia|constructor]).
    unfold track_register. change [(1, 1); (10, speed); (1, 1)] with ([(1, 1)] ++ [(10, speed)] ++ [(1, 1)]).
    change [(1, 1); (10, airspeed)] with ([(1, 1)] ++ [(10, airspeed)]).
    rewrite !fits_app. repeat split; try exact S0; try apply signed_fits; try apply S1; lia. }
  assert (Hb : bytes (message (track_register roll track speed rate airspeed))) by apply message_bytes.
  assert (Hl : len (message (track_register roll track speed rate airspeed)) = 7) by (apply message_len; [exact F|reflexivity]).
  assert (B1 : bits 1 1 (message (track_register roll track speed rate airspeed)) = 1) by look7 0%nat 1%nat.
  assert (B2 : bits 2 2 (message (track_register roll track speed rate airspeed)) = flag (roll <? 0)) by look7 1%nat 1%nat.
  assert (B3 : bits 3 11 (message (track_register roll track speed rate airspeed)) = roll mod 2 ^ 9) by look7 2%nat 1%nat.
  assert (B12 : bits 12 12 (message (track_register roll track speed rate airspeed)) = 1) by look7 3%nat 1%nat.
  assert (B13 : bits 13 13 (message (track_register roll track speed rate airspeed)) = flag (track <? 0)) by look7 4%nat 1%nat.
  assert (B14 : bits 14 23 (message (track_register roll track speed rate airspeed)) = track mod 2 ^ 10) by look7 5%nat 1%nat.
  assert (B24 : bits 24 24 (message (track_register roll track speed rate airspeed)) = 1) by look7 6%nat 1%nat.
  assert (B25 : bits 25 34 (message (track_register roll track speed rate airspeed)) = speed) by look7 7%nat 1%nat.
  assert (B35 : bits 35 35 (message (track_register roll track speed rate airspeed)) = 1) by look7 8%nat 1%nat.
  assert (B36 : bits 36 36 (message (track_register roll track speed rate airspeed)) = flag (rate <? 0)) by look7 9%nat 1%nat.
  assert (B37 : bits 37 45 (message (track_register roll track speed rate airspeed)) = rate mod 2 ^ 9) by look7 10%nat 1%nat.
  assert (B46 : bits 46 46 (message (track_register roll track speed rate airspeed)) = 1) by look7 11%nat 1%nat.
  assert (B47 : bits 47 56 (message (track_register roll track speed rate airspeed)) = airspeed) by look7 12%nat 1%nat.
  generalize dependent (message (track_register roll track speed rate airspeed)). intros data Hb Hl.
  intros. clear F.
  assert (S1 : signed 2 11 data = roll) by (apply (signed_ok 2 11 10); [lia|lia|cbn; lia|exact B2|exact B3]).
  assert (S2 : signed 13 23 data = track) by (apply (signed_ok 13 23 11); [lia|lia|cbn; lia|exact B13|exact B14]).
  assert (S3 : signed 36 45 data = rate) by (apply (signed_ok 36 45 10); [lia|lia|cbn; lia|exact B36|exact B37]).
  assert (C : coherent_50 data).
  { unfold coherent_50, absent_is_zero, bit. rewrite B1, B12, B24, B35, B46, S1, B25, B47.
    change (1 =? 1) with true. repeat split; try discriminate; auto; try lia.
    apply Qabs_Qle_condition. split; unfold Qle; cbn -[Z.mul]; lia. }
  destruct (found data 50 Hb Hl B1 (or_introl B12)) as (l & m & R & I & E & D & U).
  { unfold plausible. do 6 right. left. auto. }
  destruct m as [?|?|?|?|?|?|?|?|?|m0|m0]; try discriminate E. clear E.
  destruct (track_and_turn_report data Hb Hl) as (m & Rm & T & _).
  cbn [decodes] in D. rewrite Rm in D. injection D as <-.
  exists l, m. split; [exact R|]. split.
  { intros x. split; [intros Ix; specialize (U _ Ix eq_refl); cbn [decodes] in U; congruence|intros ->; exact I]. }
  destruct T as [rl tr ra T1 T2 T3]. unfold track_and_turn, bit. cbn -[Z.mul bits inject_Z].
  rewrite S1 in T1. rewrite S2 in T2. rewrite S3 in T3. rewrite B1, B12, B24, B35, B46, B25, B47. auto 12.
Qed.

Theorem heading_register_told : forall heading airspeed mach baro inertial,
  -1024 <= heading < 1024 -> 0 <= airspeed <= 500 -> 0 <= mach <= 250 -> -187 <= baro <= 187 -> -187 <= inertial <= 187 ->
  exists l m, ReadCommBMessage (message (heading_register heading airspeed mach baro inertial)) = Ok l /\
    (forall x, List.In (B60 x) l <-> x = m) /\
    bds60.HeadingAndTrackReport_MagneticHeadingStatus m = true /\
    is_value (bds60.HeadingAndTrackReport_MagneticHeading m) (inject_Z heading * (90 # 512)) /\
    bds60.HeadingAndTrackReport_IndicatedAirSpeedStatus m = true /\
    bds60.HeadingAndTrackReport_IndicatedAirSpeed m = airspeed /\
    bds60.HeadingAndTrackReport_MachStatus m = true /\
    is_close (bds60.HeadingAndTrackReport_Mach m) (inject_Z mach * (4 # 1000)) (1 # 1000000) /\
    bds60.HeadingAndTrackReport_BarometricAltitudeRateStatus m = true /\
    bds60.HeadingAndTrackReport_BarometricAltitudeRate m = 32 * baro /\
    bds60.HeadingAndTrackReport_InitialVerticalVelocityStatus m = true /\
    bds60.HeadingAndTrackReport_InitialVerticalVelocity m = 32 * inertial.
Proof.
  intros heading airspeed mach baro inertial Hh Ha Hm Hv Hi.
  assert (F : fits (heading_register heading airspeed mach baro inertial)).
  { assert (S1 : forall z, 0 <= z < 1024 -> fits [(10, z)]) by (intros z H; constructor; [cbn; lia|constructor]).
    assert (S0 : fits [(1, 1)]) by (constructor; [cbn; lia|constructor]).
    unfold heading_register. change [(1, 1); (10, airspeed); (1, 1); (10, mach); (1, 1)] with ([(1, 1)] ++ [(10, airspeed)] ++ [(1, 1)] ++ [(10, mach)] ++ [(1, 1)]).
    rewrite !fits_app. repeat split; try exact S0; try apply signed_fits; try apply S1; lia. }
  assert (Hb : bytes (message (heading_register heading airspeed mach baro inertial))) by apply message_bytes.
  assert (Hl : len (message (heading_register heading airspeed mach baro inertial)) = 7) by (apply message_len; [exact F|reflexivity]).
  assert (B1 : bits 1 1 (message (heading_register heading airspeed mach baro inertial)) = 1) by look7 0%nat 1%nat.
  assert (B2 : bits 2 2 (message (heading_register heading airspeed mach baro inertial)) = flag (heading <? 0)) by look7 1%nat 1%nat.
  assert (B3 : bits 3 12 (message (heading_register heading airspeed mach baro inertial)) = heading mod 2 ^ 10) by look7 2%nat 1%nat.
  assert (B13 : bits 13 13 (message (heading_register heading airspeed mach baro inertial)) = 1) by look7 3%nat 1%nat.
  assert (B14 : bits 14 23 (message (heading_register heading airspeed mach baro inertial)) = airspeed) by look7 4%nat 1%nat.
  assert (B24 : bits 24 24 (message (heading_register heading airspeed mach baro inertial)) = 1) by look7 5%nat 1%nat.
  assert (B25 : bits 25 34 (message (heading_register heading airspeed mach baro inertial)) = mach) by look7 6%nat 1%nat.
  assert (B35 : bits 35 35 (message (heading_register heading airspeed mach baro inertial)) = 1) by look7 7%nat 1%nat.
  assert (B36 : bits 36 36 (message (heading_register heading airspeed mach baro inertial)) = flag (baro <? 0)) by look7 8%nat 1%nat.
  assert (B37 : bits 37 45 (message (heading_register heading airspeed mach baro inertial)) = baro mod 2 ^ 9) by look7 9%nat 1%nat.
  assert (B46 : bits 46 46 (message (heading_register heading airspeed mach baro inertial)) = 1) by look7 10%nat 1%nat.
  assert (B47 : bits 47 47 (message (heading_register heading airspeed mach baro inertial)) = flag (inertial <? 0)) by look7 11%nat 1%nat.
  assert (B48 : bits 48 56 (message (heading_register heading airspeed mach baro inertial)) = inertial mod 2 ^ 9) by look7 12%nat 1%nat.
  generalize dependent (message (heading_register heading airspeed mach baro inertial)). intros data Hb Hl.
  intros. clear F.
  assert (S1 : signed 2 12 data = heading) by (apply (signed_ok 2 12 11); [lia|lia|cbn; lia|exact B2|exact B3]).
  assert (S2 : signed 36 45 data = baro) by (apply (signed_ok 36 45 10); [lia|lia|cbn; lia|exact B36|exact B37]).
  assert (S3 : signed 47 56 data = inertial) by (apply (signed_ok 47 56 10); [lia|lia|cbn; lia|exact B47|exact B48]).
  assert (C : coherent_60 data).
  { unfold coherent_60, absent_is_zero, bit. rewrite B1, B13, B24, B35, B46, S2, S3, B14, B25.
    change (1 =? 1) with true. repeat split; try discriminate; auto; try lia.
    unfold Qle; cbn -[Z.mul]; lia. }
  destruct (found data 60 Hb Hl B1 (or_intror B13)) as (l & m & R & I & E & D & U).
  { unfold plausible. do 7 right. auto. }
  destruct m as [?|?|?|?|?|?|?|?|?|m0|m0]; try discriminate E. clear E.
  destruct (heading_and_speed_report data Hb Hl) as (m & Rm & T & _).
  cbn [decodes] in D. rewrite Rm in D. injection D as <-.
  exists l, m. split; [exact R|]. split.
  { intros x. split; [intros Ix; specialize (U _ Ix eq_refl); cbn [decodes] in U; congruence|intros ->; exact I]. }
  destruct T as [hd mc T1 T2]. unfold heading_and_speed, bit. cbn -[Z.mul bits inject_Z].
  rewrite S1 in T1. rewrite B25 in T2. rewrite B1, B13, B24, B35, B46, S2, S3, B14. auto 12.
Qed.

(* BDS 2,0 excludes the other registers, except 0,7 which has a zero everywhere after the first byte *)
Theorem identification_register_told : forall codes callsign, len codes = 8 ->
  List.map ia5 codes = List.map Some callsign ->
  ReadCommBMessage (message (identification_register codes)) = Ok [B20 {| bds20.AircraftIdentification_Identification := text callsign |}].
Proof.
  intros codes callsign L E.
  assert (G : Forall (fun c => ia5 c <> None) codes).
  { apply Forall_forall. intros c I N. apply (in_map ia5) in I. rewrite E in I. apply in_map_iff in I as (a & Ea & _). congruence. }
  assert (G' : Forall (fun c => 1 <= c < 64) codes).
  { revert G. apply Forall_impl. intros c H. unfold ia5 in H. destruct (Z.leb_spec 1 c), (Z.leb_spec c 26), (Z.eqb_spec c 32), (Z.leb_spec 48 c), (Z.leb_spec c 57);
      cbn [andb] in H; first [lia | elim H; reflexivity]. }
  destruct (codes8 codes L) as (c0 & c1 & c2 & c3 & c4 & c5 & c6 & c7 & ->).
  assert (F : fits (identification_register [c0; c1; c2; c3; c4; c5; c6; c7])).
  { constructor; [cbn; lia|]. change (fits (List.map (fun c => (6, c)) [c0; c1; c2; c3; c4; c5; c6; c7])).
    revert G'. clear. induction 1 as [|c l H _ IH]; [constructor|]. constructor; [cbn [fst snd]; change (2 ^ 6) with 64; lia|exact IH]. }
  assert (Hb : bytes (message (identification_register [c0; c1; c2; c3; c4; c5; c6; c7]))) by apply message_bytes.
  assert (Hl : len (message (identification_register [c0; c1; c2; c3; c4; c5; c6; c7])) = 7) by (apply message_len; [exact F|reflexivity]).
  assert (B1 : bits 1 8 (message (identification_register [c0; c1; c2; c3; c4; c5; c6; c7])) = 32) by look7 0%nat 1%nat.
  assert (C : char_codes (message (identification_register [c0; c1; c2; c3; c4; c5; c6; c7])) = [c0; c1; c2; c3; c4; c5; c6; c7]).
  { unfold char_codes. cbn [List.map]. cbn [Z.mul Z.add Pos.mul Pos.add Pos.succ].
    repeat match goal with |- ?a :: ?l = _ => f_equal end;
      [look7 1%nat 1%nat|look7 2%nat 1%nat|look7 3%nat 1%nat|look7 4%nat 1%nat|look7 5%nat 1%nat|look7 6%nat 1%nat|look7 7%nat 1%nat|look7 8%nat 1%nat]. }
  generalize dependent (message (identification_register [c0; c1; c2; c3; c4; c5; c6; c7])). intros data Hb Hl B1 C.
  assert (N9 : bits 9 56 data <> 0).
  { intros Z0. assert (X : bits 9 14 data = 0) by (apply (bits_of_zero 9 56); auto; lia).
    unfold char_codes in C. cbn [List.map] in C. cbn [Z.mul Z.add Pos.mul Pos.add Pos.succ] in C. injection C as C _.
    inversion G'; subst. lia. }
  assert (N1 : bits 1 56 data <> 0) by (intros Z0; apply N9; apply (bits_of_zero 1 56); auto; lia).
  destruct (commb_exclusive data Hb Hl) as (_ & _ & X). apply X; [exact N1| | |].
  - intros m' D _. cbn [decodes] in D. apply N9.
    assert (B7 : bits 7 8 data = 0).
    { pose proof (bits_join 1 6 8 data ltac:(lia) ltac:(lia) ltac:(lia) ltac:(lia)) as J. rewrite B1 in J.
      pose proof (bits_range 7 8 data ltac:(lia)) as R. change (2 ^ (8 - 6)) with 4 in J. change (2 ^ (8 - 7 + 1)) with 4 in R. change (6 + 1) with 7 in J. lia. }
    destruct (bds07_partial data m' Hb Hl) as (_ & Y). destruct (Y B7 D) as [Y' _]. unfold recognised_07 in Y'.
    first [exact Y' | apply Y' | apply (bits_of_zero 4 56); [lia|lia|lia|lia|lia|apply Y']].
  - cbn [decodes]. apply read_bds20_iff; auto. split; [exact B1|]. rewrite C, (shown_of _ _ E). reflexivity.
  - unfold coherent. cbn [Message_CheckCoherency]. pose proof (coherence_bds20 data Hb Hl) as [Y _].
    rewrite C, (shown_of _ _ E) in Y. apply Y. unfold legal_characters. rewrite C. exact G.
Qed.

(* a published Comm-B reply: roll 2.1, track 114.3, ground speed 438 kt, track rate 0.125, airspeed 424 kt *)
Example track_register_example :
  message (track_register 12 650 219 4 212) = [0x81; 0x95; 0x15; 0x36; 0xE0; 0x24; 0xD4] /\
  -284 <= 12 <= 284 /\ -1024 <= 650 < 1024 /\ 0 <= 219 <= 300 /\ -512 <= 4 < 512 /\ 0 <= 212 <= 250 /\ Z.abs (219 - 212) <= 100.
Proof. split; [vm_compute; reflexivity|lia]. Qed.

(* to the left, descending *)
Example heading_register_example :
  exists frame, Reply (surveillance 21 0 0 0 0 (squawk_fields 2 0 0 0) ++ heading_register (-300) 270 195 (-40) (-41)) 0x4840D6 frame.
Proof.
  apply Reply.reply_exists; [repeat (constructor; [cbn; lia|]); constructor|right; reflexivity|lia].
Qed.

Example identification_register_example :
  message (identification_register [20; 8; 25; 51; 56; 25; 32; 32]) = [0x20; 0x50; 0x86; 0x73; 0xE1; 0x98; 0x20].
Proof. vm_compute. reflexivity. Qed.
