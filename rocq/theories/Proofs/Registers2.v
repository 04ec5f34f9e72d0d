(* C96, C97, C98: the registers of Comm-B replies, when the aircraft does not know everything. *)
From Verif.Proofs Require Import Tac.
From Verif.Spec Require Import Altitude ModeS Crc Floats Identification Adsb CommB CommBMessages Squitter Reply Payloads.
From Verif.Gen Require bds00 bds07 bds10 bds17 bds40 bds44 bds45 bds50 bds60.
From Verif.Model Require Import Crc ModesReader CommbReader.
From Verif.Proofs Require Import Octets Squitter Reply CommB1 CommB2 CommB3 CommBApi Registers.
Local Open Scope Z_scope.

(* a register that does not look like those that exclude the others is found once, if it is plausible, and only then *)
Lemma listed : forall data, bytes data -> len data = 7 -> bits 9 56 data <> 0 -> bits 1 8 data <> 32 ->
  exists l, ReadCommBMessage data = Ok l /\ (forall k, has k l <-> plausible k data) /\
    forall m, List.In m l -> decodes data m.
Proof.
  intros data Hb Hl N9 N8.
  destruct (commb_registers data Hb Hl) as (l & R & H).
  - intros Z0. apply N9. apply (bits_of_zero 1 56); auto; lia.
  - intros [[_ Z0] _]. exact (N9 Z0).
  - intros [Z0 _]. exact (N8 Z0).
  - exists l. split; [exact R|]. split; [exact H|]. intros m I. exact (proj1 (commb_sound data l m Hb R I)).
Qed.

Lemma nonzero : forall i j data a b, bits a b data <> 0 -> 1 <= i -> i <= a -> a <= b -> b <= j -> j <= 8 * len data -> bits i j data <> 0.
Proof. intros i j data a b N H1 H2 H3 H4 H5 Z0. apply N. apply (bits_of_zero i j); auto. Qed.

Lemma flag_known : forall v : option Z, v <> None -> flag (known v) = 1.
Proof. intros [z|] H; [reflexivity|elim H; reflexivity]. Qed.

Lemma fits_one : forall w z, 0 <= w -> 0 <= z < 2 ^ w -> fits [(w, z)].
Proof. intros w z Hw H. constructor; [auto|constructor]. Qed.
Lemma fits_optional : forall w v, 0 <= w -> between 0 (2 ^ w - 1) v -> fits (optional w v).
Proof.
  intros w v Hw H. pose proof (Z.pow_pos_nonneg 2 w ltac:(lia) Hw). constructor; [destruct v; cbn; lia|]. constructor; [|constructor].
  cbn [fst snd]. destruct v; cbn [value between] in *; lia.
Qed.
Lemma fits_optional_signed : forall w v, 1 <= w -> fits (optional_signed w v).
Proof. intros w v Hw. constructor; [destruct v; cbn; lia|]. apply signed_fits. exact Hw. Qed.
Lemma fits_flag : forall b, fits [(1, flag b)].
Proof. intros []; apply fits_one; cbn; lia. Qed.

(* the values between two bounds around zero, and zero when they are missing *)
Lemma between_value : forall a b v, a <= 0 <= b -> between a b v -> a <= value v <= b.
Proof. intros a b [z|] H0 H; cbn in *; lia. Qed.

(* absent fields are zero *)
Lemma absent_zero : forall s i j data v, bits s s data = flag (known v) -> bits i j data = value v -> absent_is_zero s i j data.
Proof. intros s i j data v Bs B A. unfold bit in A. rewrite Bs, flag_test in A. rewrite B. destruct v; [discriminate|reflexivity]. Qed.
Lemma absent_zero_signed : forall s i j w data v, w = j - i + 1 -> 2 <= w -> 1 <= i -> j <= 8 * len data ->
  bits s s data = flag (known v) -> bits i i data = flag (value v <? 0) -> bits (i + 1) j data = value v mod 2 ^ (w - 1) ->
  absent_is_zero s i j data.
Proof.
  intros s i j w data v -> Hw Hi Hj Bs B1 B2 A. unfold bit in A. rewrite Bs, flag_test in A. destruct v; [discriminate|]. cbn [value] in *.
  rewrite Z.mod_0_l in B2 by (apply Z.pow_nonzero; lia). rewrite (bits_join i i j data) by lia. rewrite B1, B2. reflexivity.
Qed.

Ltac bind_bits L F := pose proof (L F) as LB; cbv zeta in LB; clear F.
Lemma some_track_bits : forall roll track speed rate airspeed, let fs := some_track_register roll track speed rate airspeed in fits fs ->
  bits 1 1 (message fs) = flag (known roll) /\
  bits 2 2 (message fs) = flag (value roll <? 0) /\
  bits 3 11 (message fs) = value roll mod 2 ^ 9 /\
  bits 12 12 (message fs) = flag (known track) /\
  bits 13 13 (message fs) = flag (value track <? 0) /\
  bits 14 23 (message fs) = value track mod 2 ^ 10 /\
  bits 24 24 (message fs) = flag (known speed) /\
  bits 25 34 (message fs) = value speed /\
  bits 35 35 (message fs) = flag (known rate) /\
  bits 36 36 (message fs) = flag (value rate <? 0) /\
  bits 37 45 (message fs) = value rate mod 2 ^ 9 /\
  bits 46 46 (message fs) = flag (known airspeed) /\
  bits 47 56 (message fs) = value airspeed.
Proof.
  intros roll track speed rate airspeed fs F. unfold fs in *.
  split; [look7 0%nat 1%nat|].
  split; [look7 1%nat 1%nat|].
  split; [look7 2%nat 1%nat|].
  split; [look7 3%nat 1%nat|].
  split; [look7 4%nat 1%nat|].
  split; [look7 5%nat 1%nat|].
  split; [look7 6%nat 1%nat|].
  split; [look7 7%nat 1%nat|].
  split; [look7 8%nat 1%nat|].
  split; [look7 9%nat 1%nat|].
  split; [look7 10%nat 1%nat|].
  split; [look7 11%nat 1%nat|].
  look7 12%nat 1%nat.
Qed.

Lemma some_heading_bits : forall heading airspeed mach baro inertial, let fs := some_heading_register heading airspeed mach baro inertial in fits fs ->
  bits 1 1 (message fs) = flag (known heading) /\
  bits 2 2 (message fs) = flag (value heading <? 0) /\
  bits 3 12 (message fs) = value heading mod 2 ^ 10 /\
  bits 13 13 (message fs) = flag (known airspeed) /\
  bits 14 23 (message fs) = value airspeed /\
  bits 24 24 (message fs) = flag (known mach) /\
  bits 25 34 (message fs) = value mach /\
  bits 35 35 (message fs) = flag (known baro) /\
  bits 36 36 (message fs) = flag (value baro <? 0) /\
  bits 37 45 (message fs) = value baro mod 2 ^ 9 /\
  bits 46 46 (message fs) = flag (known inertial) /\
  bits 47 47 (message fs) = flag (value inertial <? 0) /\
  bits 48 56 (message fs) = value inertial mod 2 ^ 9.
Proof.
  intros heading airspeed mach baro inertial fs F. unfold fs in *.
  split; [look7 0%nat 1%nat|].
  split; [look7 1%nat 1%nat|].
  split; [look7 2%nat 1%nat|].
  split; [look7 3%nat 1%nat|].
  split; [look7 4%nat 1%nat|].
  split; [look7 5%nat 1%nat|].
  split; [look7 6%nat 1%nat|].
  split; [look7 7%nat 1%nat|].
  split; [look7 8%nat 1%nat|].
  split; [look7 9%nat 1%nat|].
  split; [look7 10%nat 1%nat|].
  split; [look7 11%nat 1%nat|].
  look7 12%nat 1%nat.
Qed.

Lemma intention_bits : forall mcp fms pressure modes vnav hold approach source, let fs := intention_register mcp fms pressure modes vnav hold approach source in fits fs ->
  bits 1 1 (message fs) = flag (known mcp) /\
  bits 2 13 (message fs) = value mcp /\
  bits 14 14 (message fs) = flag (known fms) /\
  bits 15 26 (message fs) = value fms /\
  bits 27 27 (message fs) = flag (known pressure) /\
  bits 28 39 (message fs) = value pressure /\
  bits 40 47 (message fs) = 0 /\
  bits 48 48 (message fs) = flag modes /\
  bits 49 49 (message fs) = flag vnav /\
  bits 50 50 (message fs) = flag hold /\
  bits 51 51 (message fs) = flag approach /\
  bits 52 53 (message fs) = 0 /\
  bits 54 54 (message fs) = flag (known source) /\
  bits 55 56 (message fs) = value source.
Proof.
  intros mcp fms pressure modes vnav hold approach source fs F. unfold fs in *.
  split; [look7 0%nat 1%nat|].
  split; [look7 1%nat 1%nat|].
  split; [look7 2%nat 1%nat|].
  split; [look7 3%nat 1%nat|].
  split; [look7 4%nat 1%nat|].
  split; [look7 5%nat 1%nat|].
  split; [look7 6%nat 1%nat|].
  split; [look7 7%nat 1%nat|].
  split; [look7 8%nat 1%nat|].
  split; [look7 9%nat 1%nat|].
  split; [look7 10%nat 1%nat|].
  split; [look7 11%nat 1%nat|].
  split; [look7 12%nat 1%nat|].
  look7 13%nat 1%nat.
Qed.

Lemma routine_bits : forall source wind direction temperature pressure turbulence humidity, let fs := routine_register source wind direction temperature pressure turbulence humidity in fits fs ->
  bits 1 4 (message fs) = source /\
  bits 5 5 (message fs) = flag (known wind) /\
  bits 6 14 (message fs) = value wind /\
  bits 15 15 (message fs) = flag (known direction) /\
  bits 16 23 (message fs) = value direction /\
  bits 24 24 (message fs) = flag (known temperature) /\
  bits 25 25 (message fs) = flag (value temperature <? 0) /\
  bits 26 35 (message fs) = value temperature mod 2 ^ 10 /\
  bits 36 36 (message fs) = flag (known pressure) /\
  bits 37 47 (message fs) = value pressure /\
  bits 48 48 (message fs) = turbulence /\
  bits 49 49 (message fs) = flag (known humidity) /\
  bits 50 56 (message fs) = value humidity.
Proof.
  intros source wind direction temperature pressure turbulence humidity fs F. unfold fs in *.
  split; [look7 0%nat 1%nat|].
  split; [look7 1%nat 1%nat|].
  split; [look7 2%nat 1%nat|].
  split; [look7 3%nat 1%nat|].
  split; [look7 4%nat 1%nat|].
  split; [look7 5%nat 1%nat|].
  split; [look7 6%nat 1%nat|].
  split; [look7 7%nat 1%nat|].
  split; [look7 8%nat 1%nat|].
  split; [look7 9%nat 1%nat|].
  split; [look7 10%nat 1%nat|].
  split; [look7 11%nat 1%nat|].
  look7 12%nat 1%nat.
Qed.


Lemma fits_track : forall roll track speed rate airspeed, between 0 300 speed -> between 0 250 airspeed ->
  fits (some_track_register roll track speed rate airspeed).
Proof.
  intros roll track speed rate airspeed Hs Hv. unfold some_track_register. rewrite !fits_app.
  assert (X : forall v b, b <= 1023 -> between 0 b v -> between 0 (2 ^ 10 - 1) v) by (intros [z|] b Hb H; cbn in *; lia).
  repeat split; try (apply fits_optional_signed; lia); apply fits_optional; try lia; eapply X; eauto; lia.
Qed.

Lemma track_excluded : forall data roll track speed rate airspeed, len data = 7 ->
  bits 1 1 data = flag (known roll) -> absent_is_zero 1 2 11 data ->
  bits 12 12 data = flag (known track) -> bits 24 24 data = flag (known speed) -> bits 35 35 data = flag (known rate) -> bits 46 46 data = flag (known airspeed) ->
  track <> None \/ speed <> None \/ rate <> None \/ airspeed <> None -> bits 9 56 data <> 0 /\ bits 1 8 data <> 32.
Proof.
  intros data roll track speed rate airspeed Hl B1 A B12 B24 B35 B46 N. split.
  - destruct N as [N|[N|[N|N]]]; apply flag_known in N;
      [apply (nonzero 9 56 data 12 12)|apply (nonzero 9 56 data 24 24)|apply (nonzero 9 56 data 35 35)|apply (nonzero 9 56 data 46 46)]; lia.
  - rewrite (bits_join 1 1 8 data) by lia. change (1 + 1) with 2. change (2 ^ (8 - 1)) with 128. bits_bound 2 8 data.
    destruct (known roll) eqn:K; cbn [flag] in B1; rewrite B1; [lia|].
    rewrite (bits_of_zero 2 11 data 2 8); try lia. apply A. unfold bit. rewrite B1. reflexivity.
Qed.

Theorem some_track_told_partial : forall roll track speed rate airspeed,
  between (-284) 284 roll -> between (-1024) 1023 track -> between 0 300 speed -> between (-512) 511 rate -> between 0 250 airspeed ->
  Z.abs (value speed - value airspeed) <= 100 ->
  track <> None \/ speed <> None \/ rate <> None \/ airspeed <> None ->
  exists l m, ReadCommBMessage (message (some_track_register roll track speed rate airspeed)) = Ok l /\
    (forall x, List.In (B50 x) l <-> x = m) /\
    bds50.TrackAndTurnReport_RollAngleStatus m = known roll /\
    is_value (bds50.TrackAndTurnReport_RollAngle m) (inject_Z (value roll) * (45 # 256)) /\
    bds50.TrackAndTurnReport_TrueTrackAngleStatus m = known track /\
    is_value (bds50.TrackAndTurnReport_TrueTrackAngle m) (inject_Z (value track) * (90 # 512)) /\
    bds50.TrackAndTurnReport_GroundSpeedStatus m = known speed /\
    bds50.TrackAndTurnReport_GroundSpeed m = 2 * value speed /\
    bds50.TrackAndTurnReport_TrackAngleRateStatus m = known rate /\
    is_value (bds50.TrackAndTurnReport_TrackAngleRate m) (inject_Z (value rate) * (8 # 256)) /\
    bds50.TrackAndTurnReport_TrueAirSpeedStatus m = known airspeed /\
    bds50.TrackAndTurnReport_TrueAirSpeed m = 2 * value airspeed.
Proof.
  intros roll track speed rate airspeed Hr Ht Hs Ha Hv Hd N.
  pose proof (fits_track roll track speed rate airspeed Hs Hv) as F.
  assert (Hb : bytes (message (some_track_register roll track speed rate airspeed))) by apply message_bytes.
  assert (Hl : len (message (some_track_register roll track speed rate airspeed)) = 7) by (apply message_len; [exact F|reflexivity]).
  destruct (some_track_bits _ _ _ _ _ F) as (B1 & B2 & B3 & B12 & B13 & B14 & B24 & B25 & B35 & B36 & B37 & B46 & B47). clear F.
  generalize dependent (message (some_track_register roll track speed rate airspeed)). intros data; intros.
  apply between_value in Hr, Ht, Hs, Ha, Hv; try lia.
  assert (S1 : signed 2 11 data = value roll) by (apply (signed_ok 2 11 10); [lia|lia|cbn; lia|exact B2|exact B3]).
  assert (S2 : signed 13 23 data = value track) by (apply (signed_ok 13 23 11); [lia|lia|cbn; lia|exact B13|exact B14]).
  assert (S3 : signed 36 45 data = value rate) by (apply (signed_ok 36 45 10); [lia|lia|cbn; lia|exact B36|exact B37]).
  assert (A1 : absent_is_zero 1 2 11 data) by (apply (absent_zero_signed 1 2 11 10 data roll); auto; lia).
  assert (A2 : absent_is_zero 12 13 23 data) by (apply (absent_zero_signed 12 13 23 11 data track); auto; lia).
  assert (A3 : absent_is_zero 24 25 34 data) by (apply (absent_zero 24 25 34 data speed); auto).
  assert (A4 : absent_is_zero 35 36 45 data) by (apply (absent_zero_signed 35 36 45 10 data rate); auto; lia).
  assert (A5 : absent_is_zero 46 47 56 data) by (apply (absent_zero 46 47 56 data airspeed); auto).
  destruct (track_excluded data roll track speed rate airspeed Hl B1 A1 B12 B24 B35 B46 N) as [N9 N8].
  assert (C : coherent_50 data).
  { unfold coherent_50. split.
    - unfold bit. destruct N as [N|[N|[N|N]]]; apply flag_known in N; rewrite ?B12, ?B24, ?B35, ?B46, ?N; auto.
    - repeat (split; [assumption|]). rewrite S1, B25, B47. repeat split; try lia. apply Qabs_Qle_condition. split; unfold Qle; cbn -[Z.mul]; lia. }
  destruct (listed data Hb Hl N9 N8) as (l & R & H & D).
  destruct (proj2 (H 50)) as (m0 & I & E). { unfold plausible. do 6 right. left. auto. }
  destruct m0 as [?|?|?|?|?|?|?|?|?|m0|m0]; try discriminate E. clear E.
  destruct (track_and_turn_report data Hb Hl) as (m & Rm & T & _).
  pose proof (D _ I) as D0. cbn [decodes] in D0. rewrite Rm in D0. injection D0 as <-.
  exists l, m. split; [exact R|]. split.
  { intros x. split; [intros Ix; specialize (D _ Ix); cbn [decodes] in D; congruence|intros ->; exact I]. }
  destruct T as [rl tr ra T1 T2 T3]. unfold track_and_turn, bit. cbn -[Z.mul bits inject_Z flag known value].
  rewrite S1 in T1. rewrite S2 in T2. rewrite S3 in T3. rewrite B1, B12, B24, B35, B46, B25, B47, !flag_test. auto 12.
Qed.

(* an aircraft that gives its ground speed, above 200 kt, and not its airspeed *)
Theorem track_lost_refuted : forall roll track speed rate,
  between (-284) 284 roll -> between (-1024) 1023 track -> 100 < speed <= 300 -> between (-512) 511 rate ->
  exists l, ReadCommBMessage (message (some_track_register roll track (Some speed) rate None)) = Ok l /\
    forall x, ~ List.In (B50 x) l.
Proof.
  intros roll track speed rate Hr Ht Hs Ha.
  pose proof (fits_track roll track (Some speed) rate None ltac:(cbn; lia) I) as F.
  assert (Hb : bytes (message (some_track_register roll track (Some speed) rate None))) by apply message_bytes.
  assert (Hl : len (message (some_track_register roll track (Some speed) rate None)) = 7) by (apply message_len; [exact F|reflexivity]).
  destruct (some_track_bits _ _ _ _ _ F) as (B1 & B2 & B3 & B12 & B13 & B14 & B24 & B25 & B35 & B36 & B37 & B46 & B47). clear F.
  generalize dependent (message (some_track_register roll track (Some speed) rate None)). intros data; intros.
  assert (A1 : absent_is_zero 1 2 11 data) by (apply (absent_zero_signed 1 2 11 10 data roll); auto; lia).
  destruct (track_excluded data roll track (Some speed) rate None Hl B1 A1 B12 B24 B35 B46 ltac:(right; left; discriminate)) as [N9 N8].
  destruct (listed data Hb Hl N9 N8) as (l & R & H & D).
  exists l. split; [exact R|]. intros x I. assert (P : plausible 50 data) by (apply H; exists (B50 x); auto).
  unfold plausible in P. do 6 (destruct P as [[P _]|P]; [discriminate P|]). destruct P as [[_ P]|[P _]]; [|discriminate P].
  destruct P as (_ & _ & _ & _ & _ & _ & _ & _ & _ & P). rewrite B25, B47 in P. cbn [value] in P. lia.
Qed.

(* ---- BDS 6,0 ---- *)
Theorem some_heading_told : forall heading airspeed mach baro inertial,
  between (-1024) 1023 heading -> between 0 500 airspeed -> between 0 250 mach -> between (-187) 187 baro -> between (-187) 187 inertial ->
  airspeed <> None \/ mach <> None \/ baro <> None \/ inertial <> None ->
  exists l m, ReadCommBMessage (message (some_heading_register heading airspeed mach baro inertial)) = Ok l /\
    (forall x, List.In (B60 x) l <-> x = m) /\
    bds60.HeadingAndTrackReport_MagneticHeadingStatus m = known heading /\
    is_value (bds60.HeadingAndTrackReport_MagneticHeading m) (inject_Z (value heading) * (90 # 512)) /\
    bds60.HeadingAndTrackReport_IndicatedAirSpeedStatus m = known airspeed /\
    bds60.HeadingAndTrackReport_IndicatedAirSpeed m = value airspeed /\
    bds60.HeadingAndTrackReport_MachStatus m = known mach /\
    is_close (bds60.HeadingAndTrackReport_Mach m) (inject_Z (value mach) * (4 # 1000)) (1 # 1000000) /\
    bds60.HeadingAndTrackReport_BarometricAltitudeRateStatus m = known baro /\
    bds60.HeadingAndTrackReport_BarometricAltitudeRate m = 32 * value baro /\
    bds60.HeadingAndTrackReport_InitialVerticalVelocityStatus m = known inertial /\
    bds60.HeadingAndTrackReport_InitialVerticalVelocity m = 32 * value inertial.
Proof.
  intros heading airspeed mach baro inertial Hh Ha Hm Hv Hi N.
  assert (F : fits (some_heading_register heading airspeed mach baro inertial)).
  { unfold some_heading_register. rewrite !fits_app.
    assert (X : forall v b, b <= 1023 -> between 0 b v -> between 0 (2 ^ 10 - 1) v) by (intros [z|] b Hb H; cbn in *; lia).
    repeat split; try (apply fits_optional_signed; lia); apply fits_optional; try lia; eapply X; eauto; lia. }
  assert (Hb : bytes (message (some_heading_register heading airspeed mach baro inertial))) by apply message_bytes.
  assert (Hl : len (message (some_heading_register heading airspeed mach baro inertial)) = 7) by (apply message_len; [exact F|reflexivity]).
  destruct (some_heading_bits _ _ _ _ _ F) as (B1 & B2 & B3 & B13 & B14 & B24 & B25 & B35 & B36 & B37 & B46 & B47 & B48). clear F.
  generalize dependent (message (some_heading_register heading airspeed mach baro inertial)). intros data; intros.
  apply between_value in Hh, Ha, Hm, Hv, Hi; try lia.
  assert (S1 : signed 2 12 data = value heading) by (apply (signed_ok 2 12 11); [lia|lia|cbn; lia|exact B2|exact B3]).
  assert (S2 : signed 36 45 data = value baro) by (apply (signed_ok 36 45 10); [lia|lia|cbn; lia|exact B36|exact B37]).
  assert (S3 : signed 47 56 data = value inertial) by (apply (signed_ok 47 56 10); [lia|lia|cbn; lia|exact B47|exact B48]).
  assert (A1 : absent_is_zero 1 2 12 data) by (apply (absent_zero_signed 1 2 12 11 data heading); auto; lia).
  assert (A2 : absent_is_zero 13 14 23 data) by (apply (absent_zero 13 14 23 data airspeed); auto).
  assert (A3 : absent_is_zero 24 25 34 data) by (apply (absent_zero 24 25 34 data mach); auto).
  assert (A4 : absent_is_zero 35 36 45 data) by (apply (absent_zero_signed 35 36 45 10 data baro); auto; lia).
  assert (A5 : absent_is_zero 46 47 56 data) by (apply (absent_zero_signed 46 47 56 10 data inertial); auto; lia).
  assert (N9 : bits 9 56 data <> 0).
  { destruct N as [N|[N|[N|N]]]; apply flag_known in N;
      [apply (nonzero 9 56 data 13 13)|apply (nonzero 9 56 data 24 24)|apply (nonzero 9 56 data 35 35)|apply (nonzero 9 56 data 46 46)]; lia. }
  assert (N8 : bits 1 8 data <> 32).
  { rewrite (bits_join 1 1 8 data) by lia. change (1 + 1) with 2. change (2 ^ (8 - 1)) with 128. bits_bound 2 8 data.
    destruct (known heading) eqn:K; cbn [flag] in B1; rewrite B1; [lia|].
    rewrite (bits_of_zero 2 12 data 2 8); try lia. apply A1. unfold bit. rewrite B1. reflexivity. }
  assert (C : coherent_60 data).
  { unfold coherent_60. split.
    - unfold bit. destruct N as [N|[N|[N|N]]]; apply flag_known in N; rewrite ?B13, ?B24, ?B35, ?B46, ?N; auto.
    - repeat (split; [assumption|]). rewrite S2, S3, B14, B25. repeat split; try lia. unfold Qle; cbn -[Z.mul]; lia. }
  destruct (listed data Hb Hl N9 N8) as (l & R & H & D).
  destruct (proj2 (H 60)) as (m0 & I & E). { unfold plausible. do 7 right. auto. }
  destruct m0 as [?|?|?|?|?|?|?|?|?|m0|m0]; try discriminate E. clear E.
  destruct (heading_and_speed_report data Hb Hl) as (m & Rm & T & _).
  pose proof (D _ I) as D0. cbn [decodes] in D0. rewrite Rm in D0. injection D0 as <-.
  exists l, m. split; [exact R|]. split.
  { intros x. split; [intros Ix; specialize (D _ Ix); cbn [decodes] in D; congruence|intros ->; exact I]. }
  destruct T as [hd mc T1 T2]. unfold heading_and_speed, bit. cbn -[Z.mul bits inject_Z flag known value].
  rewrite S1 in T1. rewrite B25 in T2. rewrite B1, B13, B24, B35, B46, S2, S3, B14, !flag_test. auto 12.
Qed.

(* ---- BDS 4,4 ---- *)
Theorem routine_told : forall source wind direction temperature pressure turbulence humidity,
  0 <= source <= 4 -> between 0 250 wind -> between 0 255 direction -> between (-640) 480 temperature -> between 0 2047 pressure ->
  0 <= turbulence <= 1 -> between 0 127 humidity ->
  source <> 2 \/ wind <> None ->
  direction <> None \/ temperature <> None \/ pressure <> None \/ humidity <> None ->
  exists l m, ReadCommBMessage (message (routine_register source wind direction temperature pressure turbulence humidity)) = Ok l /\
    (forall x, List.In (B44 x) l <-> x = m) /\
    routine_said source wind direction temperature pressure turbulence humidity m.
Proof.
  intros source wind direction temperature pressure turbulence humidity Hs Hw Hd Ht Hp Hu Hh N2 N.
  assert (F : fits (routine_register source wind direction temperature pressure turbulence humidity)).
  { unfold routine_register. rewrite !fits_app.
    assert (X : between 0 511 wind) by (destruct wind; cbn in *; lia).
    split; [apply fits_one; cbn; lia|]. split; [apply fits_optional; [lia|exact X]|]. split; [apply fits_optional; [lia|exact Hd]|].
    split; [apply fits_optional_signed; lia|]. split; [apply fits_optional; [lia|exact Hp]|]. split; [apply fits_one; cbn; lia|]. apply fits_optional; [lia|exact Hh]. }
  assert (Hb : bytes (message (routine_register source wind direction temperature pressure turbulence humidity))) by apply message_bytes.
  assert (Hl : len (message (routine_register source wind direction temperature pressure turbulence humidity)) = 7) by (apply message_len; [exact F|reflexivity]).
  destruct (routine_bits _ _ _ _ _ _ _ F) as (B1 & B5 & B6 & B15 & B16 & B24 & B25 & B26 & B36 & B37 & B48 & B49 & B50). clear F.
  generalize dependent (message (routine_register source wind direction temperature pressure turbulence humidity)). intros data; intros.
  assert (Hw' : 0 <= value wind <= 250) by (apply between_value; [lia|exact Hw]).
  assert (Ht' : -640 <= value temperature <= 480) by (apply between_value; [lia|exact Ht]).
  assert (S1 : signed 25 35 data = value temperature) by (apply (signed_ok 25 35 11); [lia|lia|cbn; lia|exact B25|exact B26]).
  assert (B66 : bit 6 data = false /\ bits 7 14 data = value wind).
  { unfold bit. pose proof (bits_join 6 6 14 data ltac:(lia) ltac:(lia) ltac:(lia) ltac:(lia)) as J. rewrite B6 in J. change (6 + 1) with 7 in J. change (2 ^ (14 - 6)) with 256 in J.
    bits_bound 6 6 data. bits_bound 7 14 data. destruct (Z.eqb_spec (bits 6 6 data) 1); split; try reflexivity; lia. }
  destruct B66 as [B66 B7].
  assert (A1 : absent_is_zero 15 16 23 data) by (apply (absent_zero 15 16 23 data direction); auto).
  assert (A2 : absent_is_zero 24 25 35 data) by (apply (absent_zero_signed 24 25 35 11 data temperature); auto; lia).
  assert (A3 : absent_is_zero 36 37 47 data) by (apply (absent_zero 36 37 47 data pressure); auto).
  assert (A4 : absent_is_zero 49 50 56 data) by (apply (absent_zero 49 50 56 data humidity); auto).
  assert (N9 : bits 9 56 data <> 0).
  { destruct N as [N|[N|[N|N]]]; apply flag_known in N;
      [apply (nonzero 9 56 data 15 15)|apply (nonzero 9 56 data 24 24)|apply (nonzero 9 56 data 36 36)|apply (nonzero 9 56 data 49 49)]; lia. }
  assert (N8 : bits 1 8 data <> 32).
  { rewrite (bits_join 1 4 8 data) by lia. rewrite B1. rewrite (bits_join (4 + 1) 5 8 data) by lia. change (4 + 1) with 5. rewrite B5. change (5 + 1) with 6.
    change (2 ^ (8 - 4)) with 16. change (2 ^ (8 - 5)) with 8. bits_bound 6 8 data.
    destruct N2 as [N2|N2]; [|apply flag_known in N2; rewrite N2; lia]. destruct (known wind); cbn [flag]; lia. }
  assert (P : plausible 44 data).
  { unfold plausible. do 4 right. left. split; [reflexivity|]. split; [lia|]. unfold accepted_44. split.
    - unfold bit. destruct N as [N|[N|[N|N]]]; apply flag_known in N; rewrite ?B15, ?B24, ?B36, ?B49, ?N; auto.
    - split. { unfold bit. rewrite B5, flag_test, B7. destruct wind; [discriminate|reflexivity]. }
      repeat (split; [assumption|]). rewrite S1, B7. lia. }
  destruct (listed data Hb Hl N9 N8) as (l & R & H & D).
  destruct (proj2 (H 44) P) as (m0 & I & E).
  destruct m0 as [?|?|?|?|?|?|?|m|?|?|?]; try discriminate E. clear E.
  pose proof (D _ I) as D0. cbn [decodes] in D0.
  exists l, m. split; [exact R|]. split.
  { intros x. split; [intros Ix; specialize (D _ Ix); cbn [decodes] in D; congruence|intros ->; exact I]. }
  destruct (routine_report_partial data Hb Hl) as (Q & _). destruct (Q m B66 D0) as [T _].
  destruct T as [d t h Z0 T1 T2 T3|d t h Z0 T1 T2 T3]; rewrite S1 in T2; rewrite B16 in T1; rewrite B50 in T3.
  - unfold routine_v1, bit. rewrite B5, B6, B15, B24, B36, B37, B48, B49, !flag_test. apply routine_said_1; auto. lia.
  - unfold routine_v2, bit. rewrite B1, B5, B6, B15, B24, B36, B37, B48, B49, !flag_test. apply routine_said_2; auto. lia.
Qed.

(* ---- BDS 4,5 ---- *)
Definition turbulent (t : option (Z * Z * Z)) : bool := match t with Some _ => true | None => false end.

Lemma hazard_shape : forall shear burst icing wake temperature height turbulence,
  hazard_register shear burst icing wake temperature height turbulence =
  optional 2 shear ++ optional 2 burst ++ optional 2 icing ++ optional 2 wake ++ optional_signed 11 temperature ++ optional 12 height ++
  [(1, flag (turbulent turbulence)); (6, average turbulence); (6, peak turbulence); (4, delay turbulence); (2, 0)].
Proof. intros. unfold hazard_register. destruct turbulence as [[[a p] d]|]; reflexivity. Qed.

Lemma hazard_bits : forall shear burst icing wake temperature height turbulence, let fs := (optional 2 shear ++ optional 2 burst ++ optional 2 icing ++ optional 2 wake ++ optional_signed 11 temperature ++ optional 12 height ++
  [(1, flag (turbulent turbulence)); (6, average turbulence); (6, peak turbulence); (4, delay turbulence); (2, 0)]) in fits fs ->
  bits 1 1 (message fs) = flag (known shear) /\
  bits 2 3 (message fs) = value shear /\
  bits 4 4 (message fs) = flag (known burst) /\
  bits 5 6 (message fs) = value burst /\
  bits 7 7 (message fs) = flag (known icing) /\
  bits 8 9 (message fs) = value icing /\
  bits 10 10 (message fs) = flag (known wake) /\
  bits 11 12 (message fs) = value wake /\
  bits 13 13 (message fs) = flag (known temperature) /\
  bits 14 14 (message fs) = flag (value temperature <? 0) /\
  bits 15 24 (message fs) = value temperature mod 2 ^ 10 /\
  bits 25 25 (message fs) = flag (known height) /\
  bits 26 37 (message fs) = value height /\
  bits 38 38 (message fs) = flag (turbulent turbulence) /\
  bits 39 44 (message fs) = average turbulence /\
  bits 45 50 (message fs) = peak turbulence /\
  bits 51 54 (message fs) = delay turbulence /\
  bits 55 56 (message fs) = 0.
Proof.
  intros shear burst icing wake temperature height turbulence fs F. unfold fs in *.
  split; [look7 0%nat 1%nat|].
  split; [look7 1%nat 1%nat|].
  split; [look7 2%nat 1%nat|].
  split; [look7 3%nat 1%nat|].
  split; [look7 4%nat 1%nat|].
  split; [look7 5%nat 1%nat|].
  split; [look7 6%nat 1%nat|].
  split; [look7 7%nat 1%nat|].
  split; [look7 8%nat 1%nat|].
  split; [look7 9%nat 1%nat|].
  split; [look7 10%nat 1%nat|].
  split; [look7 11%nat 1%nat|].
  split; [look7 12%nat 1%nat|].
  split; [look7 13%nat 1%nat|].
  split; [look7 14%nat 1%nat|].
  split; [look7 15%nat 1%nat|].
  split; [look7 16%nat 1%nat|].
  look7 17%nat 1%nat.
Qed.



Theorem hazard_told : forall shear burst icing wake temperature height turbulence,
  between 0 3 shear -> between 0 3 burst -> between 0 3 icing -> between 0 3 wake -> between (-640) 480 temperature -> between 0 4095 height ->
  0 <= average turbulence <= 63 -> 0 <= peak turbulence <= 63 -> 0 <= delay turbulence <= 15 ->
  wake <> None \/ temperature <> None \/ height <> None \/ turbulence <> None ->
  exists l m, ReadCommBMessage (message (hazard_register shear burst icing wake temperature height turbulence)) = Ok l /\
    (forall x, List.In (B45 x) l <-> x = m) /\
    hazard_said shear burst icing wake temperature height turbulence m.
Proof.
  intros shear burst icing wake temperature height turbulence Hs Hb0 Hi Hw Ht Hh Ha Hp Hd N.
  rewrite hazard_shape.
  assert (F : fits (optional 2 shear ++ optional 2 burst ++ optional 2 icing ++ optional 2 wake ++ optional_signed 11 temperature ++ optional 12 height ++
    [(1, flag (turbulent turbulence)); (6, average turbulence); (6, peak turbulence); (4, delay turbulence); (2, 0)])).
  { rewrite !fits_app. do 4 (split; [apply fits_optional; [lia|assumption]|]). split; [apply fits_optional_signed; lia|].
    split; [apply fits_optional; [lia|exact Hh]|]. constructor; [destruct turbulence; cbn; lia|]. repeat (constructor; [cbn -[average peak delay]; lia|]). constructor. }
  assert (BB := hazard_bits _ _ _ _ _ _ _ F). cbv zeta in BB.
  match type of BB with context [message ?fs] => set (fs0 := fs) in * end.
  assert (Hb : bytes (message fs0)) by apply message_bytes.
  assert (Hl : len (message fs0) = 7) by (apply message_len; [exact F|reflexivity]).
  destruct BB as (B1 & B2 & B4 & B5 & B7 & B8 & B10 & B11 & B13 & B14 & B15 & B25 & B26 & B38 & B39 & B45 & B51 & B55). clear F.
  generalize dependent (message fs0). intros data; intros. clear fs0.
  assert (Ht' : -640 <= value temperature <= 480) by (apply between_value; [lia|exact Ht]).
  assert (S1 : signed 14 24 data = value temperature) by (apply (signed_ok 14 24 11); [lia|lia|cbn; lia|exact B14|exact B15]).
  assert (A1 : absent_is_zero 1 2 3 data) by (apply (absent_zero 1 2 3 data shear); auto).
  assert (A2 : absent_is_zero 4 5 6 data) by (apply (absent_zero 4 5 6 data burst); auto).
  assert (A3 : absent_is_zero 7 8 9 data) by (apply (absent_zero 7 8 9 data icing); auto).
  assert (A4 : absent_is_zero 10 11 12 data) by (apply (absent_zero 10 11 12 data wake); auto).
  assert (A6 : absent_is_zero 25 26 37 data) by (apply (absent_zero 25 26 37 data height); auto).
  assert (A7 : absent_is_zero 38 39 54 data).
  { intros A. unfold bit in A. rewrite B38, flag_test in A. destruct turbulence; [discriminate|]. cbn [average peak delay] in *.
    rewrite (bits_join 39 44 54 data) by lia. rewrite B39. change (44 + 1) with 45. rewrite (bits_join 45 50 54 data) by lia. rewrite B45. change (50 + 1) with 51. rewrite B51. reflexivity. }
  assert (FT : turbulence <> None -> flag (turbulent turbulence) = 1) by (destruct turbulence; [reflexivity|intros X; elim X; reflexivity]).
  assert (N9 : bits 9 56 data <> 0).
  { destruct N as [N|[N|[N|N]]]; [apply flag_known in N|apply flag_known in N|apply flag_known in N|apply FT in N];
      [apply (nonzero 9 56 data 10 10)|apply (nonzero 9 56 data 13 13)|apply (nonzero 9 56 data 25 25)|apply (nonzero 9 56 data 38 38)]; lia. }
  assert (N8 : bits 1 8 data <> 32).
  { rewrite (bits_join 1 1 8 data) by lia. rewrite B1. change (1 + 1) with 2. rewrite (bits_join 2 3 8 data) by lia. rewrite B2. change (3 + 1) with 4.
    change (2 ^ (8 - 1)) with 128. change (2 ^ (8 - 3)) with 32. bits_bound 4 8 data.
    destruct shear as [s|]; cbn [known value flag between] in *; lia. }
  assert (P : plausible 45 data).
  { unfold plausible. do 5 right. left. split; [reflexivity|]. split; [exact B55|]. unfold coherent_45. split.
    - unfold bit. destruct N as [N|[N|[N|N]]]; [apply flag_known in N|apply flag_known in N|apply flag_known in N|apply FT in N]; rewrite ?B10, ?B13, ?B25, ?B38, ?N; auto 8.
    - repeat (split; [assumption|]). split; [|assumption]. intros _. rewrite S1. lia. }
  destruct (listed data Hb Hl N9 N8) as (l & R & H & D).
  destruct (proj2 (H 45) P) as (m0 & I & E).
  destruct m0 as [?|?|?|?|?|?|?|?|m|?|?]; try discriminate E. clear E.
  pose proof (D _ I) as D0. cbn [decodes] in D0.
  exists l, m. split; [exact R|]. split.
  { intros x. split; [intros Ix; specialize (D _ Ix); cbn [decodes] in D; congruence|intros ->; exact I]. }
  destruct (hazard_report data m Hb Hl D0) as [T _].
  destruct T as [t a p Z0 T1 T2 T3]; rewrite S1 in T1; rewrite B39 in T2; rewrite B45 in T3.
  unfold hazard_v1, bit. rewrite B1, B2, B4, B5, B7, B8, B10, B11, B13, B25, B26, B38, B51, !flag_test. apply hazard_said_1; auto.
Qed.

Lemma services_bits : forall (f : Z -> bool), let fs := services_register f in fits fs ->
  bits 1 1 (message fs) = flag (f 1) /\
  bits 2 2 (message fs) = flag (f 2) /\
  bits 3 3 (message fs) = flag (f 3) /\
  bits 4 4 (message fs) = flag (f 4) /\
  bits 5 5 (message fs) = flag (f 5) /\
  bits 6 6 (message fs) = flag (f 6) /\
  bits 7 7 (message fs) = flag (f 7) /\
  bits 8 8 (message fs) = flag (f 8) /\
  bits 9 9 (message fs) = flag (f 9) /\
  bits 10 10 (message fs) = flag (f 10) /\
  bits 11 11 (message fs) = flag (f 11) /\
  bits 12 12 (message fs) = flag (f 12) /\
  bits 13 13 (message fs) = flag (f 13) /\
  bits 14 14 (message fs) = flag (f 14) /\
  bits 15 15 (message fs) = flag (f 15) /\
  bits 16 16 (message fs) = flag (f 16) /\
  bits 17 17 (message fs) = flag (f 17) /\
  bits 18 18 (message fs) = flag (f 18) /\
  bits 19 19 (message fs) = flag (f 19) /\
  bits 20 20 (message fs) = flag (f 20) /\
  bits 21 21 (message fs) = flag (f 21) /\
  bits 22 22 (message fs) = flag (f 22) /\
  bits 23 23 (message fs) = flag (f 23) /\
  bits 24 24 (message fs) = flag (f 24) /\
  bits 25 28 (message fs) = 0 /\
  bits 29 29 (message fs) = flag (f 29) /\
  bits 30 56 (message fs) = 0.
Proof.
  intros f fs F. unfold fs in *.
  split; [look7 0%nat 1%nat|].
  split; [look7 1%nat 1%nat|].
  split; [look7 2%nat 1%nat|].
  split; [look7 3%nat 1%nat|].
  split; [look7 4%nat 1%nat|].
  split; [look7 5%nat 1%nat|].
  split; [look7 6%nat 1%nat|].
  split; [look7 7%nat 1%nat|].
  split; [look7 8%nat 1%nat|].
  split; [look7 9%nat 1%nat|].
  split; [look7 10%nat 1%nat|].
  split; [look7 11%nat 1%nat|].
  split; [look7 12%nat 1%nat|].
  split; [look7 13%nat 1%nat|].
  split; [look7 14%nat 1%nat|].
  split; [look7 15%nat 1%nat|].
  split; [look7 16%nat 1%nat|].
  split; [look7 17%nat 1%nat|].
  split; [look7 18%nat 1%nat|].
  split; [look7 19%nat 1%nat|].
  split; [look7 20%nat 1%nat|].
  split; [look7 21%nat 1%nat|].
  split; [look7 22%nat 1%nat|].
  split; [look7 23%nat 1%nat|].
  split; [look7 24%nat 1%nat|].
  split; [look7 25%nat 1%nat|].
  look7 26%nat 1%nat.
Qed.

Lemma capability_bits : forall continuation overlay acas version enhanced specific uplink downlink identification squitter sic common hybrid generation document terminals, let fs := capability_register continuation overlay acas version enhanced specific uplink downlink identification squitter sic common hybrid generation document terminals in fits fs ->
  bits 1 8 (message fs) = 0x10 /\
  bits 9 9 (message fs) = continuation /\
  bits 10 14 (message fs) = 0 /\
  bits 15 15 (message fs) = overlay /\
  bits 16 16 (message fs) = acas /\
  bits 17 23 (message fs) = version /\
  bits 24 24 (message fs) = enhanced /\
  bits 25 25 (message fs) = specific /\
  bits 26 28 (message fs) = uplink /\
  bits 29 32 (message fs) = downlink /\
  bits 33 33 (message fs) = identification /\
  bits 34 34 (message fs) = squitter /\
  bits 35 35 (message fs) = sic /\
  bits 36 36 (message fs) = common /\
  bits 37 37 (message fs) = hybrid /\
  bits 38 38 (message fs) = generation /\
  bits 39 40 (message fs) = document /\
  bits 41 56 (message fs) = terminals.
Proof.
  intros continuation overlay acas version enhanced specific uplink downlink identification squitter sic common hybrid generation document terminals fs F. unfold fs in *.
  split; [look7 0%nat 1%nat|].
  split; [look7 1%nat 1%nat|].
  split; [look7 2%nat 1%nat|].
  split; [look7 3%nat 1%nat|].
  split; [look7 4%nat 1%nat|].
  split; [look7 5%nat 1%nat|].
  split; [look7 6%nat 1%nat|].
  split; [look7 7%nat 1%nat|].
  split; [look7 8%nat 1%nat|].
  split; [look7 9%nat 1%nat|].
  split; [look7 10%nat 1%nat|].
  split; [look7 11%nat 1%nat|].
  split; [look7 12%nat 1%nat|].
  split; [look7 13%nat 1%nat|].
  split; [look7 14%nat 1%nat|].
  split; [look7 15%nat 1%nat|].
  split; [look7 16%nat 1%nat|].
  look7 17%nat 1%nat.
Qed.


Theorem services_told : forall f, f 7 = true -> (exists i, 9 <= i <= 24 /\ f i = true) \/ f 29 = true ->
  exists l, ReadCommBMessage (message (services_register f)) = Ok l /\
    forall x, List.In (B17 x) l <-> x = services_said f.
Proof.
  intros f H7 N.
  assert (F : fits (services_register f)).
  { unfold services_register. rewrite fits_app. split.
    - apply Forall_map. apply Forall_forall. intros i _. cbn [fst snd]. destruct (f i); cbn; lia.
    - constructor; [cbn; lia|]. constructor; [destruct (f 29); cbn; lia|]. constructor; [cbn; lia|constructor]. }
  assert (Hb : bytes (message (services_register f))) by apply message_bytes.
  assert (Hl : len (message (services_register f)) = 7) by (apply message_len; [exact F|reflexivity]).
  destruct (services_bits f F) as (B1 & B2 & B3 & B4 & B5 & B6 & B7 & B8 & B9 & B10 & B11 & B12 & B13 & B14 & B15 & B16 & B17 & B18 & B19 & B20 & B21 & B22 & B23 & B24 & B25 & B29 & B30). clear F.
  generalize dependent (message (services_register f)). intros data; intros.
  assert (N8 : bits 1 8 data <> 32).
  { intros E. rewrite (bits_join 1 6 8 data) in E by lia. change (6 + 1) with 7 in E. rewrite (bits_join 7 7 8 data) in E by lia. rewrite B7, H7 in E.
    change (2 ^ (8 - 6)) with 4 in E. change (2 ^ (8 - 7)) with 2 in E. change (7 + 1) with 8 in E. cbn [flag] in E. bits_bound 8 8 data. lia. }
  assert (N9 : bits 9 56 data <> 0).
  { destruct N as [(i & Hi & Hf)|Hf].
    - apply (nonzero 9 56 data i i); try lia.
      assert (Q : bits i i data = flag (f i)).
      { assert (i = 9 \/ i = 10 \/ i = 11 \/ i = 12 \/ i = 13 \/ i = 14 \/ i = 15 \/ i = 16 \/ i = 17 \/ i = 18 \/ i = 19 \/ i = 20 \/ i = 21 \/ i = 22 \/ i = 23 \/ i = 24) as Ci by lia.
        repeat (destruct Ci as [->|Ci]; [assumption|]). subst i. assumption. }
      rewrite Q, Hf. discriminate.
    - apply (nonzero 9 56 data 29 29); try lia. rewrite B29, Hf. discriminate. }
  destruct (listed data Hb Hl N9 N8) as (l & R & H & D).
  assert (E : capability_17 data = services_said f).
  { unfold capability_17, services_said, bit. rewrite B1, B2, B3, B4, B5, B6, B7, B8, B9, B10, B11, B12, B13, B14, B15, B16, B17, B18, B19, B20, B21, B22, B23, B24, B29, !flag_test. reflexivity. }
  exists l. split; [exact R|]. intros x. split.
  - intros I. specialize (D _ I). cbn [decodes] in D. apply read_bds17 in D; [|assumption|assumption]. destruct D as [_ ->]. exact E.
  - intros ->. destruct (proj2 (H 17)) as (m & I & K). { unfold plausible. right. left. split; [reflexivity|exact B30]. }
    destruct m as [?|?|?|m|?|?|?|?|?|?|?]; try discriminate K. pose proof (D _ I) as D0. cbn [decodes] in D0. apply read_bds17 in D0; [|assumption|assumption].
    destruct D0 as [_ ->]. rewrite <- E. exact I.
Qed.

(* ---- BDS 1,0 ---- *)
Theorem capability_told_partial : forall continuation overlay acas version enhanced specific uplink downlink identification squitter sic common hybrid generation document terminals,
  fits (capability_register continuation overlay acas version enhanced specific uplink downlink identification squitter sic common hybrid generation document terminals) ->
  version <= 5 -> uplink <= 6 -> downlink <= 6 -> (acas = 1 -> document <= 2) -> (acas = 0 -> hybrid = 0 /\ generation = 0 /\ document = 0) ->
  exists l sic', ReadCommBMessage (message (capability_register continuation overlay acas version enhanced specific uplink downlink identification squitter sic common hybrid generation document terminals)) = Ok l /\
    forall x, List.In (B10 x) l <-> x = capability_said continuation overlay acas version enhanced specific uplink downlink identification squitter sic' common hybrid generation document terminals.
Proof.
  intros continuation overlay acas version enhanced specific uplink downlink identification squitter sic common hybrid generation document terminals F Hv Hu Hd Ha1 Ha0.
  assert (Hb : bytes (message (capability_register continuation overlay acas version enhanced specific uplink downlink identification squitter sic common hybrid generation document terminals))) by apply message_bytes.
  assert (Hl : len (message (capability_register continuation overlay acas version enhanced specific uplink downlink identification squitter sic common hybrid generation document terminals)) = 7) by (apply message_len; [exact F|reflexivity]).
  destruct (capability_bits _ _ _ _ _ _ _ _ _ _ _ _ _ _ _ _ F) as (B1 & B9 & B10 & B15 & B16 & B17 & B24 & B25 & B26 & B29 & B33 & B34 & B35 & B36 & B37 & B38 & B39 & B41). clear F.
  generalize dependent (message (capability_register continuation overlay acas version enhanced specific uplink downlink identification squitter sic common hybrid generation document terminals)). intros data; intros.
  destruct (commb_registers data Hb Hl) as (l & R & H).
  { intros Z0. rewrite (bits_of_zero 1 56 data 1 8) in B1 by (lia || exact Z0). discriminate. }
  { intros [[Z0 _] _]. rewrite (bits_join 1 3 8 data) in B1 by lia. rewrite (bits_join (3 + 1) 6 8 data) in B1 by lia.
    change (3 + 1) with 4 in B1. rewrite Z0 in B1. change (6 + 1) with 7 in B1. bits_bound 7 8 data. change (2 ^ (8 - 3)) with 32 in B1. change (2 ^ (8 - 6)) with 4 in B1. lia. }
  { intros [Z0 _]. unfold recognised_20 in Z0. rewrite B1 in Z0. discriminate. }
  assert (E : forall z, capability_10 data z = capability_said continuation overlay acas version enhanced specific uplink downlink identification squitter z common hybrid generation document terminals).
  { intros z. unfold capability_10, capability_said. rewrite B9, B15, B16, B17, B24, B25, B26, B29, B33, B34, B36, B37, B38, B39, B41. reflexivity. }
  exists l, (2 * bits 18 18 data). split; [exact R|]. intros x. split.
  - intros I. pose proof (proj1 (commb_sound data l _ Hb R I)) as D. cbn [decodes] in D. apply read_bds10 in D; [|assumption|assumption]. destruct D as [_ ->]. apply E.
  - intros ->. destruct (proj2 (H 10)) as (m & I & K).
    { unfold plausible. left. split; [reflexivity|]. split; [split; [exact B1|exact B10]|]. unfold coherent_10, bit. rewrite B16, B17, B26, B29.
      split; [exact Hv|]. split; [exact Hu|]. split; [exact Hd|]. split; intros T.
      - rewrite B39. apply Ha1. destruct (Z.eqb_spec acas 1); [assumption|discriminate].
      - bits_bound 16 16 data. destruct (Z.eqb_spec acas 1); [discriminate|]. destruct Ha0 as (Z1 & Z2 & Z3); [lia|].
        rewrite (bits_join 37 37 40 data), (bits_join (37 + 1) 38 40 data) by lia. change (37 + 1) with 38. change (38 + 1) with 39. rewrite B37, B38, B39, Z1, Z2, Z3. reflexivity. }
    destruct m as [?|?|m|?|?|?|?|?|?|?|?]; try discriminate K. pose proof (proj1 (commb_sound data l _ Hb R I)) as D0. cbn [decodes] in D0. apply read_bds10 in D0; [|assumption|assumption].
    destruct D0 as [_ ->]. rewrite <- E. exact I.
Qed.

(* ---- BDS 0,7 ---- *)
Theorem status_told : forall rate altitude, 0 <= rate <= 2 -> 0 <= altitude <= 1 -> 0 < rate + altitude ->
  ReadCommBMessage (message [(2, rate); (1, altitude); (53, 0)]) =
    Ok [B07 {| bds07.Status_TransmissionRateSubfield := rate; bds07.Status_AltitudeTypeSubfield := altitude |}].
Proof.
  intros rate altitude Hr Ha Hp.
  assert (C : (rate = 0 \/ rate = 1 \/ rate = 2) /\ (altitude = 0 \/ altitude = 1)) by lia.
  destruct C as [[->|[->| ->]] [->| ->]]; try (exfalso; lia); vm_compute; reflexivity.
Qed.

Theorem nothing_told : ReadCommBMessage (message [(56, 0)]) = Ok [B00 bds00.mkNoMessageAvailable].
Proof. vm_compute. reflexivity. Qed.

(* ---- BDS 4,0 ---- *)
Lemma intention_fits : forall mcp fms pressure modes vnav hold approach source,
  between 0 4095 mcp -> between 0 4095 fms -> between 0 4095 pressure -> between 0 3 source ->
  fits (intention_register mcp fms pressure modes vnav hold approach source).
Proof.
  intros mcp fms pressure modes vnav hold approach source H1 H2 H3 H4. unfold intention_register. rewrite !fits_app.
  do 3 (split; [apply fits_optional; [lia|assumption]|]). split; [|apply fits_optional; [lia|assumption]].
  constructor; [cbn; lia|]. do 4 (constructor; [match goal with |- context [flag ?b] => destruct b end; cbn; lia|]). constructor; [cbn; lia|constructor].
Qed.

Lemma intention_excluded : forall data mcp fms pressure, len data = 7 ->
  bits 1 1 data = flag (known mcp) -> bits 2 13 data = value mcp -> bits 14 14 data = flag (known fms) -> bits 27 27 data = flag (known pressure) ->
  fms <> None \/ pressure <> None -> bits 9 56 data <> 0 /\ bits 1 8 data <> 32.
Proof.
  intros data mcp fms pressure Hl B1 B2 B14 B27 N. split.
  - destruct N as [N|N]; apply flag_known in N; [apply (nonzero 9 56 data 14 14)|apply (nonzero 9 56 data 27 27)]; lia.
  - rewrite (bits_join 1 1 8 data) by lia. change (1 + 1) with 2. change (2 ^ (8 - 1)) with 128. bits_bound 2 8 data.
    destruct mcp as [z|]; cbn [known value flag] in *; rewrite B1; [lia|]. rewrite (bits_of_zero 2 13 data 2 8); lia.
Qed.

(* both altitudes are known and equal, and the pressure setting is known *)
Theorem intention_told_partial : forall altitude pressure modes vnav hold approach source,
  0 <= altitude <= 4095 -> 0 <= pressure <= 4095 -> between 0 3 source ->
  exists l m, ReadCommBMessage (message (intention_register (Some altitude) (Some altitude) (Some pressure) modes vnav hold approach source)) = Ok l /\
    (forall x, List.In (B40 x) l <-> x = m) /\
    intention_said (Some altitude) (Some altitude) (Some pressure) modes vnav hold approach source m.
Proof.
  intros altitude pressure modes vnav hold approach source Ha Hp Hs.
  pose proof (intention_fits (Some altitude) (Some altitude) (Some pressure) modes vnav hold approach source Ha Ha Hp Hs) as F.
  assert (Hb : bytes (message (intention_register (Some altitude) (Some altitude) (Some pressure) modes vnav hold approach source))) by apply message_bytes.
  assert (Hl : len (message (intention_register (Some altitude) (Some altitude) (Some pressure) modes vnav hold approach source)) = 7) by (apply message_len; [exact F|reflexivity]).
  destruct (intention_bits _ _ _ _ _ _ _ _ F) as (B1 & B2 & B14 & B15 & B27 & B28 & B40 & B48 & B49 & B50 & B51 & B52 & B54 & B55). clear F.
  generalize dependent (message (intention_register (Some altitude) (Some altitude) (Some pressure) modes vnav hold approach source)). intros data; intros.
  destruct (intention_excluded data _ _ _ Hl B1 B2 B14 B27 ltac:(left; discriminate)) as [N9 N8].
  destruct (listed data Hb Hl N9 N8) as (l & R & H & D).
  assert (Rc : recognised_40 data) by (split; assumption).
  destruct (proj2 (H 40)) as (m0 & I & E).
  { unfold plausible. do 3 right. left. split; [reflexivity|]. split; [exact Rc|]. unfold accepted_40, absent_is_zero, bit. rewrite B1, B14. split; [reflexivity|discriminate]. }
  destruct m0 as [?|?|?|?|?|?|m|?|?|?|?]; try discriminate E. clear E.
  pose proof (D _ I) as D0. cbn [decodes] in D0.
  exists l, m. split; [exact R|]. split.
  { intros x. split; [intros Ix; specialize (D _ Ix); cbn [decodes] in D; congruence|intros ->; exact I]. }
  destruct (bds40_partial data Hb Hl) as (_ & _ & Q).
  destruct (Q ltac:(congruence) ltac:(unfold bit; rewrite B27, B1; reflexivity) m D0) as [p _ Hpr].
  unfold intention, bit. rewrite B1, B2, B14, B15, B27, B48, B49, B50, B51, B54, B55, !flag_test. rewrite B28 in Hpr. apply intention_said_1. exact Hpr.
Qed.

(* an aircraft that gives the altitude selected on its control panel and none in its flight management system, or the
   other way round, as most do, is not told *)
Theorem intention_lost_refuted : forall mcp fms pressure modes vnav hold approach source,
  between 0 4095 mcp -> between 0 4095 fms -> between 0 4095 pressure -> between 0 3 source -> fms <> None \/ pressure <> None ->
  mcp = None \/ fms = None /\ value mcp <> 0 ->
  exists l, ReadCommBMessage (message (intention_register mcp fms pressure modes vnav hold approach source)) = Ok l /\
    forall x, ~ List.In (B40 x) l.
Proof.
  intros mcp fms pressure modes vnav hold approach source H1 H2 H3 H4 N L.
  pose proof (intention_fits mcp fms pressure modes vnav hold approach source H1 H2 H3 H4) as F.
  assert (Hb : bytes (message (intention_register mcp fms pressure modes vnav hold approach source))) by apply message_bytes.
  assert (Hl : len (message (intention_register mcp fms pressure modes vnav hold approach source)) = 7) by (apply message_len; [exact F|reflexivity]).
  destruct (intention_bits _ _ _ _ _ _ _ _ F) as (B1 & B2 & B14 & B15 & B27 & B28 & B40 & B48 & B49 & B50 & B51 & B52 & B54 & B55). clear F.
  generalize dependent (message (intention_register mcp fms pressure modes vnav hold approach source)). intros data; intros.
  destruct (intention_excluded data _ _ _ Hl B1 B2 B14 B27 N) as [N9 N8].
  destruct (listed data Hb Hl N9 N8) as (l & R & H & D).
  exists l. split; [exact R|]. intros x I. assert (P : plausible 40 data) by (apply H; exists (CommbReader.B40 x); auto).
  unfold plausible in P. do 3 (destruct P as [[P _]|P]; [discriminate P|]). destruct P as [(_ & _ & P)|P].
  - destruct P as [P Q]. unfold absent_is_zero, bit in P, Q. rewrite B1, flag_test in P. rewrite B14, flag_test, B2 in Q.
    destruct L as [->|[-> L]]; [discriminate|]. apply L, Q. reflexivity.
  - repeat (destruct P as [[P _]|P]; [discriminate P|]). destruct P as [P _]. discriminate P.
Qed.

Example some_track_example :
  message (some_track_register (Some (-12)) (Some 650) (Some 219) None (Some 212)) = [0xFE; 0x95; 0x15; 0x36; 0xC0; 0x04; 0xD4] /\
  between (-284) 284 (Some (-12)) /\ between (-1024) 1023 (Some 650) /\ between 0 300 (Some 219) /\ between (-512) 511 None /\ between 0 250 (Some 212) /\
  Z.abs (value (Some 219) - value (Some 212)) <= 100.
Proof. split; [vm_compute; reflexivity|]. cbn. lia. Qed.

Example some_heading_example :
  message (some_heading_register (Some (-300)) (Some 270) None (Some (-40)) None) = [0xED; 0x4A; 0x1C; 0x00; 0x3E; 0xC0; 0x00] /\
  between (-1024) 1023 (Some (-300)) /\ between 0 500 (Some 270) /\ between 0 250 None /\ between (-187) 187 (Some (-40)) /\ between (-187) 187 None.
Proof. split; [vm_compute; reflexivity|]. cbn. lia. Qed.

(* wind 22 kt from 344.5 degrees, -48.75 degrees C *)
Example routine_told_example :
  message (routine_register 1 (Some 22) (Some 245) (Some (-390)) None 0 None) = [0x18; 0x5B; 0xEB; 0xCF; 0x40; 0x00; 0x00] /\
  between 0 250 (Some 22) /\ between 0 255 (Some 245) /\ between (-640) 480 (Some (-390)).
Proof. split; [vm_compute; reflexivity|]. cbn. lia. Qed.

Example hazard_told_example :
  message (hazard_register None None (Some 2) None (Some (-100)) (Some 500) (Some (10, 20, 3))) = [0x03; 0x0F; 0x9C; 0x8F; 0xA4; 0xA5; 0x0C] /\
  between (-640) 480 (Some (-100)) /\ between 0 4095 (Some 500) /\ 0 <= average (Some (10, 20, 3)) <= 63.
Proof. split; [vm_compute; reflexivity|]. cbn. lia. Qed.

Example services_told_example :
  message (services_register (fun i => existsb (Z.eqb i) [1; 2; 3; 4; 5; 7; 9; 16; 24])) = [0xFA; 0x81; 0x01; 0x00; 0x00; 0x00; 0x00].
Proof. vm_compute. reflexivity. Qed.

Example capability_told_example :
  message (capability_register 0 0 1 5 0 1 6 6 1 1 0 1 1 1 2 0) = [0x10; 0x01; 0x0A; 0xE6; 0xDE; 0x00; 0x00] /\ fits (capability_register 0 0 1 5 0 1 6 6 1 1 0 1 1 1 2 0).
Proof. split; [vm_compute; reflexivity|]. unfold fits; repeat (constructor; [cbn; lia|]); constructor. Qed.

(* 30000 ft, 1013.2 hPa *)
Example intention_told_example :
  message (intention_register (Some 1875) (Some 1875) (Some 2132) true true false false (Some 2)) = [0xBA; 0x9D; 0xD4; 0xF0; 0xA8; 0x01; 0x86].
Proof. vm_compute. reflexivity. Qed.
