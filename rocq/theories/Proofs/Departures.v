(* What the library does where it departs from the standards (C102): the readers that the
   _partial theorems leave open, for every input. *)
From Verif.Proofs Require Import Tac Octets Gillham AcasReader Status61 Status62 CommB1 CommB3 AdsbApi Adsb0506.
From Verif.Spec Require Import Altitude Floats Acas Status CommB CommBMessages Adsb AdsbMessages Departures.
From Verif.Gen Require acas_ra acas_ra_fields bds07 bds10 bds30 bds40 bds44 bds61 bds62.
From Verif.Gen Require adsb_surface_position adsb_surface_position_fields bitutils.
From Verif.Model Require Import AdsbReader.
Require Import String.
From Verif.Spec Require Import Text.
Local Open Scope Z_scope.

Lemma land_pow2 : forall n k, 0 <= k -> negb (Z.land n (2 ^ k) =? 0) = Z.testbit n k.
Proof.
  intros n k Hk.
  assert (E : Z.land n (2 ^ k) = if Z.testbit n k then 2 ^ k else 0).
  { apply Z.bits_inj'. intros i Hi. rewrite Z.land_spec, Z.pow2_bits_eqb by lia.
    destruct (Z.eqb_spec k i) as [<-|N].
    - rewrite Bool.andb_true_r. destruct (Z.testbit n k) eqn:T; [rewrite Z.pow2_bits_true by lia; reflexivity|rewrite Z.bits_0; reflexivity].
    - rewrite Bool.andb_false_r. destruct (Z.testbit n k); [rewrite Z.pow2_bits_false by lia; reflexivity|rewrite Z.bits_0; reflexivity]. }
  rewrite E. pose proof (Z.pow_pos_nonneg 2 k). destruct (Z.testbit n k); [|reflexivity].
  destruct (Z.eqb_spec (2 ^ k) 0); [lia|reflexivity].
Qed.

Lemma read_threat_altitude_any : forall data, bytes data -> len data = 6 ->
  acas_ra_fields.ReadThreatIdentityAltitude data =
  let pulse := Z.testbit (threat_code data) in
  if threat_code data =? 0
  then Ok {| acas_ra_fields.ThreatIdentityAltitude_AltitudeStatus := acas_ra_fields.AltitudeInvalid;
             acas_ra_fields.ThreatIdentityAltitude_AltitudeInFeet := 0 |}
  else match bitutils.GillhamToAltitude (pulse 4) (pulse 2) (pulse 0) (pulse 10) (pulse 8) (pulse 6)
             (pulse 5) (pulse 3) (pulse 1) (pulse 11) (pulse 9) (pulse 7) with
       | Ok feet => Ok {| acas_ra_fields.ThreatIdentityAltitude_AltitudeStatus := acas_ra_fields.AltitudeValid;
             acas_ra_fields.ThreatIdentityAltitude_AltitudeInFeet := feet |}
       | Err _ => Err "the Altitude field is malformed"%string
       | Panic => Panic
       end.
Proof.
  intros data Hb Hl. unfold acas_ra_fields.ReadThreatIdentityAltitude, threat_code.
  bits_bound 25 28 data. bits_bound 30 35 data. bits_bound 23 24 data.
  split_list data Hl. gostep.
  match type of Hb with bytes ?l =>
    match goal with |- context [u16 (?x + u16 (Z.shiftl (Z.land ?d 3) 2))] =>
      assert (E : u16 (Z.shiftl (Z.land d 3) 2) = bits 23 24 l * 4) by (bveq l Hb);
      rewrite E; clear E;
      assert (E : u16 x = bits 25 28 l * 64 + bits 30 35 l) by (bveq l Hb);
      replace (u16 (x + bits 23 24 l * 4)) with (64 * bits 25 28 l + bits 30 35 l + 4 * bits 23 24 l)
        by (unfold u16 in *; rewrite <- Zplus_mod_idemp_l, E, Z.mod_small by lia; lia);
      clear E
    end;
    remember (64 * bits 25 28 l + bits 30 35 l + 4 * bits 23 24 l) as n
  end.
  cbv zeta. destruct (n =? 0); [reflexivity|].
  rewrite <- !land_pow2 by lia. cbn [Z.pow Z.pow_pos Pos.iter Z.mul Pos.mul].
  reflexivity.
Qed.

Theorem advisory_departs : forall data, bytes data -> len data = 6 -> forall ra,
  acas_ra.ReadResolutionAdvisory data = Ok ra <-> AdvisoryRead data ra.
Proof.
  intros data Hb Hl ra. bits_bound 21 22 data.
  assert (bits 21 22 data = 0 \/ bits 21 22 data = 3 \/ bits 21 22 data = 1 \/ bits 21 22 data = 2) as D by lia.
  split.
  - intros R. destruct D as [D|[D|[D|D]]].
    + rewrite read_ra_no_identity in R by auto. injection R as <-. constructor; auto.
    + rewrite read_ra_no_identity in R by auto. injection R as <-. constructor; auto.
    + rewrite read_ra_mode_s in R by auto. injection R as <-. constructor; auto.
    + rewrite read_ra_arb in R by auto. rewrite read_threat_altitude_any in R by auto. cbv zeta in R.
      destruct (Z.eqb_spec (threat_code data) 0).
      * injection R as <-. apply advisory_arb; [exact D|]. constructor; assumption.
      * destruct (bitutils.GillhamToAltitude _ _ _ _ _ _ _ _ _ _ _ _) eqn:G; try discriminate.
        injection R as <-. apply advisory_arb; [exact D|]. constructor; [assumption|]. apply gillham_decodes. exact G.
  - intros [T|T|alt T A].
    + apply read_ra_no_identity; auto.
    + apply read_ra_mode_s; auto.
    + rewrite read_ra_arb by auto. rewrite read_threat_altitude_any by auto. cbv zeta.
      inversion A as [A1|feet N G]; subst; clear A.
      * rewrite A1. reflexivity.
      * destruct (Z.eqb_spec (threat_code data) 0); [contradiction|].
        apply gillham_decodes in G. rewrite G. reflexivity.
Qed.

Theorem advisory_register_departs : forall data, bytes data -> len data = 7 -> forall m,
  bds30.ReadACASResolutionAdvisory data = Ok m <->
  bits 1 8 data = 48 /\ AdvisoryRead (octets 2 7 data) (bds30.ACASResolutionAdvisory_ResolutionAdvisory m).
Proof.
  intros data Hb Hl m. rewrite read_bds30 by assumption. rewrite advisory_departs.
  - reflexivity.
  - apply octets_bytes; assumption.
  - rewrite octets_len by lia. reflexivity.
Qed.

Theorem status_departs : forall data, bytes data -> len data = 7 -> bits 1 5 data = 28 -> forall m,
  bds61.ReadAircraftStatus data = Ok m <-> StatusRead data m.
Proof.
  intros data Hb Hl Ht m. rewrite read_bds61_code by assumption.
  assert (R : forall ra, acas_ra.ReadResolutionAdvisory (octets 2 7 data) = Ok ra <-> AdvisoryRead (octets 2 7 data) ra).
  { apply advisory_departs; [apply octets_bytes; assumption|rewrite octets_len by lia; reflexivity]. }
  split.
  - intros G. destruct (bits 6 8 data =? 0) eqn:S0.
    + destruct (bits 12 16 data =? 0) eqn:S1; [|discriminate]. injection G as <-. constructor; lia.
    + destruct (bits 6 8 data =? 1) eqn:S1.
      * destruct (bits 25 56 data =? 0) eqn:S2; [|discriminate]. injection G as <-. constructor; lia.
      * destruct (bits 6 8 data =? 2) eqn:S2; [|discriminate].
        destruct (acas_ra.ReadResolutionAdvisory (octets 2 7 data)) eqn:S3; try discriminate.
        injection G as <-. constructor; [lia|]. apply R. reflexivity.
  - intros [S Z0|S Z0|ra S Z0].
    + do 2 decide_if. reflexivity.
    + do 3 decide_if. reflexivity.
    + do 3 decide_if. apply R in Z0. rewrite Z0. reflexivity.
Qed.

Theorem target_departs : forall data, bytes data -> len data = 7 -> bits 1 5 data = 29 ->
  (forall m, bds62.ReadTargetStateAndStatus data = Ok m -> TargetRead data m) /\
  (forall e, bds62.ReadTargetStateAndStatus data = Err e -> forall m, ~ TargetRead data m).
Proof.
  intros data Hb Hl Ht. bits_bound 6 7 data.
  assert (E1 : bits 47 51 data = bits 47 48 data * 8 + bits 49 51 data)
    by (clear - Hb Hl; split_list data Hl; match type of Hb with bytes ?l => bveq l Hb end).
  bits_bound 47 48 data. bits_bound 49 51 data.
  assert (bits 6 7 data = 0 \/ bits 6 7 data = 1 \/ 2 <= bits 6 7 data) as [S|[S|S]] by lia.
  - rewrite read_bds62_0 by assumption. cbv zeta.
    destruct (bits 47 48 data =? 0) eqn:C1; [destruct (bits 49 51 data =? 0) eqn:C2|];
      (split; [intros m R; try discriminate R|intros e R m T; try discriminate R]).
    + injection R as <-. apply read_target_0; try lia. apply surjective_pairing.
    + inversion T; lia.
    + inversion T; lia.
  - rewrite read_bds62_1 by assumption. split; [|discriminate].
    intros m R. injection R as <-. bits_bound 21 29 data. bits_bound 32 39 data.
    apply read_target_1; [exact S|apply pressure_ok; lia|].
    destruct (bit 31 data); [apply neg_heading_ok|apply heading_ok]; lia.
  - rewrite (read_bds62_other data Hb Hl Ht S). split; [discriminate|].
    intros e' _ m T. inversion T; lia.
Qed.

Theorem status_register_departs : forall data m, bytes data -> len data = 7 ->
  bds07.ReadStatus data = Ok m <-> bits 4 6 data = 0 /\ bits 9 56 data = 0 /\ m = status_07 data.
Proof. intros. rewrite read_bds07 by assumption. tauto. Qed.

Theorem capability_departs : forall data m, bytes data -> len data = 7 ->
  bds10.ReadDataLinkCapabilityReport data = Ok m <->
  recognised_10 data /\ m = capability_10 data (2 * bits 18 18 data).
Proof. intros. apply read_bds10; assumption. Qed.

Theorem intention_departs : forall data, bytes data -> len data = 7 ->
  (forall m, bds40.ReadSelectedVerticalIntention data = Ok m -> IntentionRead data m) /\
  (forall e, bds40.ReadSelectedVerticalIntention data = Err e -> ~ recognised_40 data).
Proof.
  intros data Hb Hl. bits_bound 28 39 data. split.
  - intros m R. apply read_bds40 in R as [R ->]; [|assumption..]. constructor; [exact R|]. apply setting_ok. lia.
  - intros e R K. pose proof (proj2 (read_bds40 data _ Hb Hl) (conj K eq_refl)) as X. rewrite R in X. discriminate.
Qed.

Theorem routine_departs : forall data, bytes data -> len data = 7 ->
  (forall m, bds44.ReadMeteorologicalRoutineAirReport data = Ok m ->
     RoutineRead data m /\ bds44.IMeteorologicalRoutineAirReport_GetSource m = 0) /\
  (forall e, bds44.ReadMeteorologicalRoutineAirReport data = Err e -> 4 < bits 1 4 data).
Proof.
  intros data Hb Hl. rewrite read_bds44 by assumption. cbv zeta.
  bits_bound 16 23 data. bits_bound 26 35 data. bits_bound 50 56 data. bits_bound 1 4 data.
  destruct (bits 1 4 data =? 0) eqn:E0; [|destruct (bits 1 4 data <=? 4) eqn:E4].
  - split; [|discriminate]. intros m R. injection R as <-. split; [|reflexivity].
    apply routine_read_v1; [lia|apply direction_ok; lia|apply temperature_ok; lia|apply humidity_ok; lia].
  - split; [|discriminate]. intros m R. injection R as <-. split; [|reflexivity].
    apply routine_read_v2; [lia|apply direction_ok; lia|apply temperature_ok; lia|apply humidity_ok; lia].
  - split; [discriminate|]. intros. lia.
Qed.

Lemma temperature_v0_ok : forall s n, 0 <= n < 0 + 1024 -> is_value (code_temperature_v0 s n) (temperature_v0 s n).
Proof. apply (CommB2.value_range2 code_temperature_v0 temperature_v0 0 1024). vm_compute. reflexivity. Qed.

Theorem routine_v0_departs : forall data, bytes data -> len data = 7 ->
  exists m, bds44.ReadMeteorologicalRoutineAirReportV0 data = Ok m /\ RoutineReadV0 data m.
Proof.
  intros data Hb Hl. rewrite read_bds44_v0 by assumption. eexists. split; [reflexivity|].
  bits_bound 15 23 data. bits_bound 25 34 data. bits_bound 51 56 data.
  constructor; [apply direction_v0_ok; lia|apply temperature_v0_ok; lia|apply humidity_v0_ok; lia].
Qed.

Theorem surface_7_departs : forall c data, bytes data -> len data = 7 -> bits 1 5 data = 7 ->
  exists m, ReadADSBMessage 1 false c data = Ok (ASurface m) /\ SurfaceRead7 data m.
Proof.
  intros c data Hb Hl H7.
  assert (K : KindOf data KSurface) by (apply kind_surface; unfold surface_type; lia).
  rewrite read_surface_dispatch by (assumption || lia).
  destruct (read_bds06 data Hb Hl ltac:(unfold surface_type in *; lia)) as (p & Hp & Sp).
  assert (Etc : bds06.SurfacePosition_FormatTypeCode p = bits 1 5 data) by (apply Sp).
  cbn [Z.eqb Pos.eqb]. unfold adsb_surface_position.ReadSurfacePositionV1. rewrite Hp, Etc, H7.
  eexists. split; [reflexivity|]. constructor; [exact Sp|reflexivity].
Qed.

(* ---- texts ---- *)

Theorem sense_departs : forall ffmt s a,
  acas_ra.ResolutionAdvisory_ToString ffmt (with_sense s a) = acas_ra.ResolutionAdvisory_ToString ffmt a.
Proof. intros ffmt s [[x|x|x] c t n i ad al r b]; reflexivity. Qed.

Theorem bearing_departs : forall b, 43 <= b <= 60 ->
  acas_ra_fields.ThreatIdentityBearing_ToString b =
  (numeral b ++ " - between " ++ numeral ((6 * (b - 1)) mod 256) ++ " and " ++ numeral (6 * b - 256))%string.
Proof.
  intros b H. unfold acas_ra_fields.ThreatIdentityBearing_ToString.
  destruct (Z.eqb_spec b 0); [lia|]. destruct (Z.leb_spec 1 b); [|lia]. destruct (Z.leb_spec b 60); [|lia]. cbn [andb].
  unfold u8. rewrite (Z.mod_small (b - 1) 256) by lia. rewrite (Z.mul_comm 6 (b - 1)).
  replace ((b * 6) mod 256) with (6 * b - 256); [reflexivity|].
  apply (Z.mod_unique _ _ 1); lia.
Qed.

Theorem continuation_departs : forall c m,
  bds10.DataLinkCapabilityReport_ToString (with_continuation c m) = bds10.DataLinkCapabilityReport_ToString m.
Proof. intros c m. destruct m. reflexivity. Qed.

(* ---- cases *)

(* a threat coded with the pulses A1 and C4, at 30 700 ft, is read at 126 700 ft (pulses D2 and C4) *)
Example threat_read_example :
  let data := [0x80; 0; 0x09; 0x20; 0; 0] in
  bytes data /\ len data = 6 /\ bits 21 22 data = 2 /\
  exists ra, AdvisoryRead data ra /\ acas_ra.ReadResolutionAdvisory data = Ok ra /\
    acas_ra.ResolutionAdvisory_ThreatIdentityAltitude ra =
      Some {| acas_ra_fields.ThreatIdentityAltitude_AltitudeStatus := acas_ra_fields.AltitudeValid;
              acas_ra_fields.ThreatIdentityAltitude_AltitudeInFeet := 126700 |}.
Proof.
  cbv zeta. assert (B : bytes [0x80; 0; 0x09; 0x20; 0; 0]) by (repeat constructor; lia).
  split; [exact B|]. split; [reflexivity|]. split; [reflexivity|]. eexists. split; [|split; [vm_compute; reflexivity|reflexivity]].
  apply advisory_departs; [exact B|reflexivity|vm_compute; reflexivity].
Qed.

(* a selected heading of 270 degrees (-90, coded -128) is told -90; 225 degrees (coded -192) is told -45 *)
Example heading_read_example :
  let data := [0xEA; 0; 0; 6; 0x80; 0; 0] in
  bytes data /\ len data = 7 /\ bits 1 5 data = 29 /\ bits 6 7 data = 1 /\
  bits 30 30 data = 1 /\ bit 31 data = true /\ (heading_degrees true (bits 32 39 data) == -135)%Q /\
  exists m, bds62.ReadTargetStateAndStatus data = Ok (bds62.ITargetStateAndStatus_TargetStateAndStatus1 m) /\
    is_value (bds62.TargetStateAndStatus1_SelectedHeading m) (-45).
Proof.
  cbv zeta. split; [repeat constructor; lia|]. do 5 (split; [reflexivity|]). split; [vm_compute; reflexivity|].
  eexists. split; [vm_compute; reflexivity|]. vm_compute. reflexivity.
Qed.
