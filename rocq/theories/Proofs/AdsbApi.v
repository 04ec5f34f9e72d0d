(* ReadADSBMessage: dispatch, totality, and what each kind of message carries (C19-C28, C30-C34). *)
From Verif.Proofs Require Import Tac Gillham Octets Adsb0506 Ident VelocityReader Status61 Status62 Status65.
From Verif.Spec Require Import Altitude Floats Adsb Identification Velocity Status AdsbMessages.
From Verif.Gen Require bds05 bds05_fields bds06 bds06_fields adsb adsb_airborne_position
  adsb_airborne_position_fields adsb_surface_position adsb_surface_position_fields
  adsb_no_position_information adsb_aircraft_identification_and_category adsb_airborne_velocity
  adsb_aircraft_status adsb_target_state_and_status adsb_aircraft_operational_status bds08 bds09 bds61 bds62 bds65.
From Verif.Model Require Import AdsbReader.
Local Open Scope Z_scope.

Lemma adsb_dispatch : forall v a c data, bytes data -> len data = 7 ->
  ReadADSBMessage v a c data =
  let tc := bits 1 5 data in
  if tc =? 0 then
    if bits 21 56 data =? 0 then rmap ANoPosition (adsb_no_position_information.ReadNoPositionInformation v data)
    else rmap AAirborneType0 (adsb_airborne_position.ReadAirbornePositionType0 v data)
  else if (1 <=? tc) && (tc <=? 4) then
    rmap AIdentification (adsb_aircraft_identification_and_category.ReadAircraftIdentificationAndCategory v data)
  else if (5 <=? tc) && (tc <=? 8) then
    rmap ASurface (adsb_surface_position.ReadSurfacePosition v data a c)
  else if (9 <=? tc) && (tc <=? 18) || (20 <=? tc) && (tc <=? 22) then
    rmap AAirborne (adsb_airborne_position.ReadAirbornePosition v data a)
  else if tc =? 19 then rmap AVelocity (adsb_airborne_velocity.ReadAirborneVelocity v data)
  else if tc =? 28 then rmap AStatus (adsb_aircraft_status.ReadAircraftStatus v data)
  else if tc =? 29 then rmap ATarget (adsb_target_state_and_status.ReadTargetStateAndStatus v data)
  else if tc =? 31 then rmap AOperational (adsb_aircraft_operational_status.ReadAircraftOperationalStatus v data)
  else Err ("the formatTypeCode " ++ dec tc ++ " is not supported")%string.
Proof.
  intros v a c data Hb Hl. unfold ReadADSBMessage.
  remember (adsb_no_position_information.ReadNoPositionInformation v data) as R0.
  remember (adsb_airborne_position.ReadAirbornePositionType0 v data) as R1.
  remember (adsb_aircraft_identification_and_category.ReadAircraftIdentificationAndCategory v data) as R2.
  remember (adsb_surface_position.ReadSurfacePosition v data a c) as R3.
  remember (adsb_airborne_position.ReadAirbornePosition v data a) as R4.
  remember (adsb_airborne_velocity.ReadAirborneVelocity v data) as R5.
  remember (adsb_aircraft_status.ReadAircraftStatus v data) as R6.
  remember (adsb_target_state_and_status.ReadTargetStateAndStatus v data) as R7.
  remember (adsb_aircraft_operational_status.ReadAircraftOperationalStatus v data) as R8.
  clear HeqR0 HeqR1 HeqR2 HeqR3 HeqR4 HeqR5 HeqR6 HeqR7 HeqR8.
  split_list data Hl. gostep. normbits Hb. cbv zeta.
  match type of Hb with bytes ?l =>
    assert (Z0 : (bits 21 24 l =? 0) && (d2 =? 0) && (d3 =? 0) && (d4 =? 0) && (d5 =? 0) = (bits 21 56 l =? 0)) end.
  { match type of Hb with bytes ?l =>
      assert (E : bits 21 56 l = bits 21 24 l * 4294967296 + bits 25 32 l * 16777216 + bits 33 40 l * 65536
                  + bits 41 48 l * 256 + bits 49 56 l) by (bveq l Hb);
      assert (E3 : d2 = bits 25 32 l) by (bveq l Hb);
      assert (E4 : d3 = bits 33 40 l) by (bveq l Hb);
      assert (E5 : d4 = bits 41 48 l) by (bveq l Hb);
      assert (E6 : d5 = bits 49 56 l) by (bveq l Hb);
      rewrite E; rewrite <- E3, <- E4, <- E5, <- E6;
      bits_bound 21 24 l; bits_bound 25 32 l; bits_bound 33 40 l; bits_bound 41 48 l; bits_bound 49 56 l;
      rewrite <- ?E3, <- ?E4, <- ?E5, <- ?E6 in *; remember (bits 21 24 l) as t; clear - B B0 B1 B2 B3
    end. lia. }
  rewrite Z0. clear Z0.
  match type of Hb with bytes ?l => remember (bits 1 5 l) as tc eqn:Etc; bits_bound 1 5 l; rewrite <- Etc in B; clear Etc;
    remember (bits 21 56 l =? 0) as z eqn:Ez; clear Ez end.
  clear Hb. 
  assert (C : (tc = 0 \/ 1 <= tc <= 4 \/ 5 <= tc <= 8 \/ 9 <= tc <= 18 \/ tc = 19 \/ 20 <= tc <= 22 \/ tc = 23 \/ 24 <= tc <= 27 \/ tc = 28 \/ tc = 29 \/ tc = 30 \/ tc = 31)) by lia.
  assert (T : forall x y, x = y -> (tc =? x) = (tc =? y)) by (intros; subst; reflexivity). clear T.
  repeat match goal with |- _ => progress (try reflexivity) end.
  repeat (destruct C as [C|C]);
  repeat (decide_if; try reflexivity).
Qed.

(* ---- totality of the pieces ---- *)
Definition total {A} (r : res A) : Prop := r <> Panic.

Lemma total_rmap : forall A B (f : A -> B) r, total r -> total (rmap f r).
Proof. intros A B f [] H; unfold total in *; cbn; congruence. Qed.

Lemma airborne_bds05_total : forall data, bytes data -> len data = 7 -> airborne_type (bits 1 5 data) ->
  bds05.ReadAirbornePosition data <> Panic.
Proof.
  intros data Hb Hl Ht. destruct (altitude12_dec data) as [[alt Ha]|Ha].
  - rewrite (read_bds05 data Hb Hl Ht alt Ha). discriminate.
  - rewrite (read_bds05_bad_altitude data Hb Hl Ht Ha). discriminate.
Qed.

(* ---- airborne positions ---- *)
Definition saysb (label text : string) : bool := match String.index 0 text label with Some _ => true | None => false end.
Lemma saysb_ok : forall l t, saysb l t = true -> says l t.
Proof. unfold saysb, says. intros l t. destruct (String.index 0 t l); congruence. Qed.

Lemma Forall_saysb : forall l ts, List.forallb (saysb l) ts = true -> Forall (says l) ts.
Proof.
  intros l ts H. apply Forall_forall. intros t Ht. rewrite List.forallb_forall in H. apply saysb_ok. auto.
Qed.

Lemma airborne_v0_labels : forall tc, 0 <= tc < 0 + 32 -> airborne_type tc ->
  Forall (says (adsb_airborne_position_fields.HorizontalProtectionLimit_ToString tc)) (hpl_airborne_v0 tc) /\
  Forall (says (adsb_airborne_position_fields.ContainmentRadius_ToString tc)) (mu_airborne_v0 tc).
Proof.
  intros tc Hr Ht.
  assert (H : (negb ((9 <=? tc) && (tc <=? 18) || (20 <=? tc) && (tc <=? 22)) ||
     List.forallb (saysb (adsb_airborne_position_fields.HorizontalProtectionLimit_ToString tc)) (hpl_airborne_v0 tc) &&
     List.forallb (saysb (adsb_airborne_position_fields.ContainmentRadius_ToString tc)) (mu_airborne_v0 tc))%bool = true).
  { revert tc Hr Ht. intros tc Hr _. revert tc Hr. apply forall_range. vm_compute. reflexivity. }
  unfold airborne_type in Ht.
  apply Bool.orb_true_iff in H as [H|H]; [exfalso; lia|].
  apply Bool.andb_true_iff in H as [H1 H2]. split; apply Forall_saysb; assumption.
Qed.

Definition nic_okb (hcr_label : Z -> string) (got : Z * Z) (want : Z * string) : bool :=
  (snd got =? fst want) && saysb (hcr_label (fst got)) (snd want).

Lemma nic_okb_ok : forall label got want, nic_okb label got want = true ->
  fst want = snd got /\ says (label (fst got)) (snd want).
Proof.
  intros. unfold nic_okb in H. apply Bool.andb_true_iff in H as [H1 H2]. split; [lia|apply saysb_ok; exact H2].
Qed.

Lemma airborne_v1_table : forall a tc, 0 <= tc < 0 + 32 -> airborne_type tc ->
  nic_okb adsb_airborne_position_fields.HorizontalContainmentRadiusV1_ToString
    (adsb_airborne_position.getHCRAndNICForV1 tc a) (nic_airborne_v1 tc a) = true.
Proof.
  intros a tc Hr Ht.
  assert (H : (negb ((9 <=? tc) && (tc <=? 18) || (20 <=? tc) && (tc <=? 22)) || nic_okb adsb_airborne_position_fields.HorizontalContainmentRadiusV1_ToString
    (adsb_airborne_position.getHCRAndNICForV1 tc a) (nic_airborne_v1 tc a))%bool = true).
  { clear Ht. destruct a; revert tc Hr; apply forall_range; vm_compute; reflexivity. }
  unfold airborne_type in Ht. apply Bool.orb_true_iff in H as [H|H]; [exfalso; lia|exact H].
Qed.

Lemma airborne_v2_table : forall a b tc, 0 <= tc < 0 + 32 -> airborne_type tc ->
  nic_okb adsb_airborne_position_fields.HorizontalContainmentRadiusV2_ToString
    (adsb_airborne_position.getHCRAndNICForV2 tc a (if b : bool then 1 else 0)) (nic_airborne_v2 tc a b) = true.
Proof.
  intros a b tc Hr Ht.
  assert (H : (negb ((9 <=? tc) && (tc <=? 18) || (20 <=? tc) && (tc <=? 22)) || nic_okb adsb_airborne_position_fields.HorizontalContainmentRadiusV2_ToString
    (adsb_airborne_position.getHCRAndNICForV2 tc a (if b : bool then 1 else 0)) (nic_airborne_v2 tc a b))%bool = true).
  { clear Ht. destruct a, b; revert tc Hr; apply forall_range; vm_compute; reflexivity. }
  unfold airborne_type in Ht. apply Bool.orb_true_iff in H as [H|H]; [exfalso; lia|exact H].
Qed.

(* a non-zero type code needs a non-zero first byte *)
Lemma first_byte : forall data, bytes data -> len data = 7 -> exists d, idx data 0 = Ok d /\ (bits 1 5 data <> 0 -> (d =? 0) = false).
Proof.
  intros data Hb Hl. split_list data Hl. eexists. split; [reflexivity|].
  intros H. match type of Hb with bytes (?d :: ?l) => assert (E : d = bits 1 5 (d :: l) * 8 + bits 6 8 (d :: l)) by (bveq (d :: l) Hb);
    bits_bound 1 5 (d :: l); bits_bound 6 8 (d :: l) end. 
  lia.
Qed.

Lemma supplement_b : forall data, bytes data -> len data = 7 ->
  adsb_airborne_position_fields.ReadNavigationIntegritySupplementB data = Ok (bits 8 8 data).
Proof.
  intros data Hb Hl. unfold adsb_airborne_position_fields.ReadNavigationIntegritySupplementB.
  split_list data Hl. reg_run Hb. reflexivity.
Qed.

Lemma kind_airborne : forall data, KindOf data KAirborne <-> airborne_type (bits 1 5 data).
Proof. intros. split; [inversion 1; assumption|constructor; assumption]. Qed.
Lemma kind_surface : forall data, KindOf data KSurface <-> surface_type (bits 1 5 data).
Proof. intros. split; [inversion 1; assumption|constructor; assumption]. Qed.

Ltac adsb_start Hk :=
  match goal with Hb : bytes ?data, Hl : len ?data = 7 |- _ =>
    rewrite (adsb_dispatch _ _ _ data Hb Hl); cbv zeta; bits_bound 1 5 data end.

Lemma read_airborne_dispatch : forall v a c data, bytes data -> len data = 7 -> KindOf data KAirborne ->
  ReadADSBMessage v a c data = rmap AAirborne
   (if v =? 0 then rmap adsb_airborne_position.IMessage_AirbornePositionV0 (adsb_airborne_position.ReadAirbornePositionV0 data)
    else if v =? 1 then rmap adsb_airborne_position.IMessage_AirbornePositionV1 (adsb_airborne_position.ReadAirbornePositionV1 data a)
    else if v =? 2 then rmap adsb_airborne_position.IMessage_AirbornePositionV2 (adsb_airborne_position.ReadAirbornePositionV2 data a)
    else Err ("the ADS-B version " ++ dec v ++ " does not allow to read AirbornePosition messages")%string).
Proof.
  intros v a c data Hb Hl Hk. apply kind_airborne in Hk. unfold airborne_type in Hk. adsb_start Hk.
  repeat decide_if. unfold adsb_airborne_position.ReadAirbornePosition.
  destruct (first_byte data Hb Hl) as (d & E & H). rewrite E. cbn [bind]. rewrite H by lia. reflexivity.
Qed.

Theorem airborne_ok : forall v a c data alt, bytes data -> len data = 7 -> KindOf data KAirborne ->
  0 <= v <= 2 -> Altitude12 data alt ->
  exists m, ReadADSBMessage v a c data = Ok (AAirborne m) /\ AirborneOf v a data m.
Proof.
  intros v a c data alt Hb Hl Hk Hv Ha. rewrite read_airborne_dispatch by assumption.
  apply kind_airborne in Hk. bits_bound 1 5 data.
  assert (V : v = 0 \/ v = 1 \/ v = 2) by lia. destruct V as [-> | [-> | ->]]; cbn [Z.eqb Pos.eqb].
  - unfold adsb_airborne_position.ReadAirbornePositionV0. rewrite (read_bds05 data Hb Hl Hk alt Ha). cbn [rmap].
    eexists. split; [reflexivity|]. 
    destruct (airborne_v0_labels (bits 1 5 data) ltac:(lia) Hk) as [H1 H2].
    apply airborne_0; auto.
  - unfold adsb_airborne_position.ReadAirbornePositionV1. rewrite (read_bds05 data Hb Hl Hk alt Ha).
    cbn [bds05.AirbornePosition_FormatTypeCode airborne_position].
    pose proof (airborne_v1_table a (bits 1 5 data) ltac:(lia) Hk) as T. apply nic_okb_ok in T as [T1 T2].
    destruct (adsb_airborne_position.getHCRAndNICForV1 (bits 1 5 data) a) as [hcr nic].
    cbn [rmap]. eexists. split; [reflexivity|]. cbn [fst snd] in *.
    apply airborne_1 with (rc := snd (nic_airborne_v1 (bits 1 5 data) a)); auto.
    rewrite <- T1. apply surjective_pairing.
  - unfold adsb_airborne_position.ReadAirbornePositionV2. rewrite (read_bds05 data Hb Hl Hk alt Ha).
    rewrite supplement_b by assumption. cbn [bind].
    cbn [bds05.AirbornePosition_FormatTypeCode airborne_position].
    pose proof (airborne_v2_table a (bit 8 data) (bits 1 5 data) ltac:(lia) Hk) as T. apply nic_okb_ok in T as [T1 T2].
    rewrite <- bit_spec in T1, T2.
    destruct (adsb_airborne_position.getHCRAndNICForV2 (bits 1 5 data) a (bits 8 8 data)) as [hcr nic].
    cbn [rmap]. eexists. split; [reflexivity|]. cbn [fst snd] in *.
    apply airborne_2 with (rc := snd (nic_airborne_v2 (bits 1 5 data) a (bit 8 data))); auto.
    rewrite <- T1. apply surjective_pairing.
Qed.

Theorem airborne_bad_altitude : forall v a c data, bytes data -> len data = 7 -> KindOf data KAirborne ->
  (forall alt, ~ Altitude12 data alt) -> exists e, ReadADSBMessage v a c data = Err e.
Proof.
  intros v a c data Hb Hl Hk Ha. rewrite read_airborne_dispatch by assumption. apply kind_airborne in Hk.
  pose proof (read_bds05_bad_altitude data Hb Hl Hk Ha) as E.
  unfold adsb_airborne_position.ReadAirbornePositionV0, adsb_airborne_position.ReadAirbornePositionV1, adsb_airborne_position.ReadAirbornePositionV2.
  rewrite E. destruct (v =? 0), (v =? 1), (v =? 2); cbn [rmap]; eauto.
Qed.

Theorem airborne_bad_version : forall v a c data, bytes data -> len data = 7 -> KindOf data KAirborne ->
  ~ 0 <= v <= 2 -> exists e, ReadADSBMessage v a c data = Err e.
Proof.
  intros v a c data Hb Hl Hk Hv. rewrite read_airborne_dispatch by assumption. repeat decide_if. cbn. eauto.
Qed.

(* ---- surface positions ---- *)
Lemma surface_v0_labels : forall tc, 5 <= tc < 5 + 4 ->
  says (adsb_surface_position_fields.HorizontalProtectionLimit_ToString tc) (hpl_surface_v0 tc) /\
  Forall (says (adsb_surface_position_fields.ContainmentRadius_ToString tc)) (mu_surface_v0 tc).
Proof.
  intros tc Hr.
  assert (H : (saysb (adsb_surface_position_fields.HorizontalProtectionLimit_ToString tc) (hpl_surface_v0 tc) &&
     List.forallb (saysb (adsb_surface_position_fields.ContainmentRadius_ToString tc)) (mu_surface_v0 tc))%bool = true).
  { revert tc Hr. apply forall_range. vm_compute. reflexivity. }
  apply Bool.andb_true_iff in H as [H1 H2]. split; [apply saysb_ok|apply Forall_saysb]; assumption.
Qed.

Lemma surface_v1_table : forall a tc, 5 <= tc < 5 + 4 -> (tc =? 7) && negb a = false ->
  nic_okb adsb_surface_position_fields.HorizontalContainmentRadiusV1_ToString
    (adsb_surface_position.getHCRAndNICForV1 tc a) (nic_surface_v1 tc a) = true.
Proof.
  intros a tc Hr Ht.
  assert (H : ((tc =? 7) && negb a || nic_okb adsb_surface_position_fields.HorizontalContainmentRadiusV1_ToString
    (adsb_surface_position.getHCRAndNICForV1 tc a) (nic_surface_v1 tc a))%bool = true).
  { clear Ht. destruct a; revert tc Hr; apply forall_range; vm_compute; reflexivity. }
  rewrite Ht in H. exact H.
Qed.

Lemma surface_v2_table : forall a c tc, 5 <= tc < 5 + 4 ->
  nic_okb adsb_surface_position_fields.HorizontalContainmentRadiusV2_ToString
    (adsb_surface_position.getHCRAndNICForV2 tc a c) (nic_surface_v2 tc a c) = true.
Proof.
  intros a c tc Hr. destruct a, c; revert tc Hr; apply forall_range; vm_compute; reflexivity.
Qed.

Lemma read_surface_dispatch : forall v a c data, bytes data -> len data = 7 -> KindOf data KSurface ->
  ReadADSBMessage v a c data = rmap ASurface
   (if v =? 0 then rmap adsb_surface_position.IMessage_SurfacePositionV0 (adsb_surface_position.ReadSurfacePositionV0 data)
    else if v =? 1 then rmap adsb_surface_position.IMessage_SurfacePositionV1 (adsb_surface_position.ReadSurfacePositionV1 data a)
    else if v =? 2 then rmap adsb_surface_position.IMessage_SurfacePositionV2 (adsb_surface_position.ReadSurfacePositionV2 data a c)
    else Err ("the ADS-B version " ++ dec v ++ " does not allow to read AirbornePosition messages")%string).
Proof.
  intros v a c data Hb Hl Hk. apply kind_surface in Hk. unfold surface_type in Hk. adsb_start Hk.
  repeat decide_if. reflexivity.
Qed.

(* version 1, type code 7, supplement A not set: the radius printed is the bound of NIC 0 *)
Theorem surface_ok_partial : forall v a c data, bytes data -> len data = 7 -> KindOf data KSurface ->
  0 <= v <= 2 -> ~ (v = 1 /\ bits 1 5 data = 7 /\ a = false) ->
  exists m, ReadADSBMessage v a c data = Ok (ASurface m) /\ SurfaceOf v a c data m.
Proof.
  intros v a c data Hb Hl Hk Hv Hbug. rewrite read_surface_dispatch by assumption.
  apply kind_surface in Hk. unfold surface_type in Hk. destruct (read_bds06 data Hb Hl Hk) as (p & Hp & Sp).
  assert (Etc : bds06.SurfacePosition_FormatTypeCode p = bits 1 5 data) by (apply Sp).
  assert (V : v = 0 \/ v = 1 \/ v = 2) by lia. destruct V as [-> | [-> | ->]]; cbn [Z.eqb Pos.eqb].
  - unfold adsb_surface_position.ReadSurfacePositionV0. rewrite Hp. cbn [rmap]. rewrite Etc.
    eexists. split; [reflexivity|]. 
    destruct (surface_v0_labels (bits 1 5 data) ltac:(lia)) as [H1 H2].
    apply surface_0; auto.
  - unfold adsb_surface_position.ReadSurfacePositionV1. rewrite Hp, Etc.
    pose proof (surface_v1_table a (bits 1 5 data) ltac:(lia)) as T.
    assert (N : (bits 1 5 data =? 7) && negb a = false).
    { destruct (Z.eqb_spec (bits 1 5 data) 7); [|reflexivity]. destruct a; [reflexivity|]. exfalso. apply Hbug. auto. }
    specialize (T N). apply nic_okb_ok in T as [T1 T2].
    destruct (adsb_surface_position.getHCRAndNICForV1 (bits 1 5 data) a) as [hcr nic].
    cbn [rmap]. eexists. split; [reflexivity|]. cbn [fst snd] in *.
    apply surface_1 with (rc := snd (nic_surface_v1 (bits 1 5 data) a)); auto.
    rewrite <- T1. apply surjective_pairing.
  - unfold adsb_surface_position.ReadSurfacePositionV2. rewrite Hp, Etc.
    pose proof (surface_v2_table a c (bits 1 5 data) ltac:(lia)) as T. apply nic_okb_ok in T as [T1 T2].
    destruct (adsb_surface_position.getHCRAndNICForV2 (bits 1 5 data) a c) as [hcr nic].
    cbn [rmap]. eexists. split; [reflexivity|]. cbn [fst snd] in *.
    apply surface_2 with (rc := snd (nic_surface_v2 (bits 1 5 data) a c)); auto.
    rewrite <- T1. apply surjective_pairing.
Qed.

Theorem surface_fields : forall v a c data, bytes data -> len data = 7 -> KindOf data KSurface -> 0 <= v <= 2 ->
  exists m, ReadADSBMessage v a c data = Ok (ASurface m) /\ surface_position data (surface_part m).
Proof.
  intros v a c data Hb Hl Hk Hv. rewrite read_surface_dispatch by assumption.
  apply kind_surface in Hk. unfold surface_type in Hk. destruct (read_bds06 data Hb Hl Hk) as (p & Hp & Sp).
  unfold adsb_surface_position.ReadSurfacePositionV0, adsb_surface_position.ReadSurfacePositionV1, adsb_surface_position.ReadSurfacePositionV2.
  rewrite Hp.
  assert (V : v = 0 \/ v = 1 \/ v = 2) by lia. destruct V as [-> | [-> | ->]]; cbn [Z.eqb Pos.eqb].
  - cbn [rmap]. eexists. split; [reflexivity|exact Sp].
  - destruct (adsb_surface_position.getHCRAndNICForV1 _ a). cbn [rmap]. eexists. split; [reflexivity|exact Sp].
  - destruct (adsb_surface_position.getHCRAndNICForV2 _ a c). cbn [rmap]. eexists. split; [reflexivity|exact Sp].
Qed.

Theorem surface_bad_version : forall v a c data, bytes data -> len data = 7 -> KindOf data KSurface ->
  ~ 0 <= v <= 2 -> exists e, ReadADSBMessage v a c data = Err e.
Proof.
  intros v a c data Hb Hl Hk Hv. rewrite read_surface_dispatch by assumption. repeat decide_if. cbn. eauto.
Qed.

(* the bug: version 1, type code 7 without supplement A has NIC 8, which means Rc < 0.1 NM *)
Theorem surface_v1_radius_refuted : exists c data m, bytes data /\ len data = 7 /\ KindOf data KSurface /\
  ReadADSBMessage 1 false c data = Ok (ASurface m) /\ ~ SurfaceOf 1 false c data m.
Proof.
  exists false, [56; 0; 0; 0; 0; 0; 0].
  match goal with |- exists m, _ /\ _ /\ _ /\ ?r = _ /\ _ => let x := eval vm_compute in r in
    match x with Ok (ASurface ?m) => exists m end end.
  repeat split; try (vm_compute; reflexivity).
  - repeat constructor; unfold byte; lia.
  - apply kind_surface. unfold surface_type. vm_compute. split; discriminate.
  - intros H. inversion H; subst; try discriminate.
    match goal with E : nic_surface_v1 _ _ = _ |- _ => vm_compute in E; injection E as <- end.
    match goal with E : says _ _ |- _ => apply E; vm_compute; reflexivity end.
Qed.

(* ---- identification ---- *)
Theorem identification_ok : forall v a c data, bytes data -> len data = 7 -> KindOf data KIdentification ->
  ReadADSBMessage v a c data = Ok (AIdentification
    {| adsb_aircraft_identification_and_category.AircraftIdentificationAndCategory_AircraftIdentificationAndCategory := identification data;
       adsb_aircraft_identification_and_category.AircraftIdentificationAndCategory_adsbVersion := v |}).
Proof.
  intros v a c data Hb Hl Hk. inversion_clear Hk as [ | | H | | | | | | ]. adsb_start H. repeat decide_if.
  unfold adsb_aircraft_identification_and_category.ReadAircraftIdentificationAndCategory.
  rewrite (read_bds08 data Hb Hl H). reflexivity.
Qed.

Lemma category_coherent : forall data, 1 <= bits 1 5 data <= 4 ->
  (bds08_fields.IAircraftCategory_CheckCoherency (category data) = Ok tt <-> category_defined data).
Proof.
  intros data H. unfold category, category_defined, bds08_fields.IAircraftCategory_CheckCoherency, bds08_fields.AircraftCategorySetA_CheckCoherency,
    bds08_fields.AircraftCategorySetB_CheckCoherency, bds08_fields.AircraftCategorySetC_CheckCoherency, bds08_fields.AircraftCategorySetD_CheckCoherency.
  destruct (Z.eqb_spec (bits 1 5 data) 1) as [E|E]; [split; [discriminate|tauto]|].
  destruct (Z.eqb_spec (bits 1 5 data) 2) as [E2|E2].
  - destruct (Z.gtb_spec (bits 6 8 data) 3); split; try discriminate; try reflexivity; try lia.
  - destruct (bits 1 5 data =? 3); (split; [|reflexivity]); intros _; split; lia.
Qed.

Theorem identification_coherent : forall v a c data m, bytes data -> len data = 7 -> KindOf data KIdentification ->
  ReadADSBMessage v a c data = Ok m ->
  (Message_CheckCoherency m = Ok tt <-> legal_characters data /\ category_defined data).
Proof.
  intros v a c data m Hb Hl Hk E. rewrite (identification_ok v a c data Hb Hl Hk) in E. injection E as <-.
  inversion_clear Hk as [ | | H | | | | | | ].
  cbn [Message_CheckCoherency adsb_aircraft_identification_and_category.AircraftIdentificationAndCategory_CheckCoherency
    adsb_aircraft_identification_and_category.AircraftIdentificationAndCategory_AircraftIdentificationAndCategory].
  unfold adsb_aircraft_identification_and_category.AircraftIdentificationAndCategory_CheckCoherency, bds08.AircraftIdentificationAndCategory_CheckCoherency.
  cbn [adsb_aircraft_identification_and_category.AircraftIdentificationAndCategory_AircraftIdentificationAndCategory
    bds08.AircraftIdentificationAndCategory_Identification bds08.AircraftIdentificationAndCategory_Category identification].
  pose proof (coherent_text data) as T. pose proof (category_coherent data H) as C.
  destruct (contains_any (text (List.map shown (char_codes data))) "#").
  - split; [discriminate|]. intros [L _]. apply T in L. discriminate.
  - destruct (bds08_fields.IAircraftCategory_CheckCoherency (category data)) as [[]| |]; split; try discriminate; try tauto.
Qed.

(* ---- velocity ---- *)
Theorem velocity_ok : forall v a c data, bytes data -> len data = 7 -> KindOf data KVelocity -> 1 <= bits 6 8 data <= 4 ->
  exists x, VelocityOf data x /\ ReadADSBMessage v a c data = Ok (AVelocity
    {| adsb_airborne_velocity.AirborneVelocity_AirborneVelocity := x; adsb_airborne_velocity.AirborneVelocity_adsbVersion := v |}).
Proof.
  intros v a c data Hb Hl Hk Hs. inversion_clear Hk as [ | | | | | H | | | ]. adsb_start H. repeat decide_if.
  unfold adsb_airborne_velocity.ReadAirborneVelocity.
  assert (S : bits 6 8 data = 1 \/ bits 6 8 data = 2 \/ bits 6 8 data = 3 \/ bits 6 8 data = 4) by lia.
  destruct S as [S|[S|[S|S]]].
  - rewrite (read_ground_speed_normal data Hb Hl H S). eexists. split; [apply velocity_1; exact S|reflexivity].
  - rewrite (read_ground_speed_supersonic data Hb Hl H S). eexists. split; [apply velocity_2; exact S|reflexivity].
  - destruct (read_air_speed_normal data Hb Hl H S) as (h & V & ->). eexists. split; [apply velocity_3; eassumption|reflexivity].
  - destruct (read_air_speed_supersonic data Hb Hl H S) as (h & V & ->). eexists. split; [apply velocity_4; eassumption|reflexivity].
Qed.

Theorem velocity_bad_subtype : forall v a c data, bytes data -> len data = 7 -> KindOf data KVelocity -> ~ 1 <= bits 6 8 data <= 4 ->
  exists e, ReadADSBMessage v a c data = Err e.
Proof.
  intros v a c data Hb Hl Hk Hs. inversion_clear Hk as [ | | | | | H | | | ]. adsb_start H. repeat decide_if.
  unfold adsb_airborne_velocity.ReadAirborneVelocity.
  rewrite (read_velocity_other data Hb Hl H Hs). cbn. eauto.
Qed.

(* ---- status messages ---- *)
Lemma read_status : forall v a c data, bytes data -> len data = 7 -> KindOf data KStatus ->
  ReadADSBMessage v a c data = rmap (fun x => AStatus
    {| adsb_aircraft_status.AircraftStatus_AircraftStatus := x; adsb_aircraft_status.AircraftStatus_adsbVersion := v |})
    (bds61.ReadAircraftStatus data).
Proof.
  intros v a c data Hb Hl Hk. inversion_clear Hk as [ | | | | | | H | | ]. adsb_start H. repeat decide_if.
  unfold adsb_aircraft_status.ReadAircraftStatus. destruct (bds61.ReadAircraftStatus data); reflexivity.
Qed.

Lemma read_target : forall v a c data, bytes data -> len data = 7 -> KindOf data KTarget ->
  ReadADSBMessage v a c data = rmap (fun x => ATarget
    {| adsb_target_state_and_status.TargetStateAndStatus_TargetStateAndStatus := x; adsb_target_state_and_status.TargetStateAndStatus_adsbVersion := v |})
    (bds62.ReadTargetStateAndStatus data).
Proof.
  intros v a c data Hb Hl Hk. inversion_clear Hk as [ | | | | | | | H | ]. adsb_start H. repeat decide_if.
  unfold adsb_target_state_and_status.ReadTargetStateAndStatus. destruct (bds62.ReadTargetStateAndStatus data); reflexivity.
Qed.

Lemma read_operational : forall v a c data, bytes data -> len data = 7 -> KindOf data KOperational ->
  ReadADSBMessage v a c data = rmap (fun x => AOperational
    {| adsb_aircraft_operational_status.AircraftOperationalStatus_AircraftOperationalStatus := x;
       adsb_aircraft_operational_status.AircraftOperationalStatus_adsbVersion := bds65.IAircraftOperationalStatus_GetADSBLevel x |})
    (bds65.ReadAircraftOperationalStatus data).
Proof.
  intros v a c data Hb Hl Hk. inversion_clear Hk as [ | | | | | | | | H]. adsb_start H. repeat decide_if.
  unfold adsb_aircraft_operational_status.ReadAircraftOperationalStatus. destruct (bds65.ReadAircraftOperationalStatus data); reflexivity.
Qed.

Lemma rmap_ok : forall A B (f : A -> B) r y, rmap f r = Ok y <-> exists x, r = Ok x /\ y = f x.
Proof.
  intros A B f [x|e|] y; cbn; split; try discriminate.
  - intros E. injection E as <-. eauto.
  - intros (x' & E & ->). injection E as ->. reflexivity.
  - intros (x' & E & _). discriminate.
  - intros (x' & E & _). discriminate.
Qed.

Theorem status_message_partial : forall v a c data, bytes data -> len data = 7 -> KindOf data KStatus ->
  (bits 6 8 data = 0 -> bits 17 56 data = 0) ->
  (bits 6 8 data = 2 -> bits 29 30 data = 2 -> bits 31 32 data = 0 /\ bits 50 50 data = 0) ->
  forall x, StatusOf data x <-> ReadADSBMessage v a c data = Ok (AStatus
    {| adsb_aircraft_status.AircraftStatus_AircraftStatus := x; adsb_aircraft_status.AircraftStatus_adsbVersion := v |}).
Proof.
  intros v a c data Hb Hl Hk H0 H2 x. rewrite read_status by assumption.
  inversion_clear Hk as [ | | | | | | H | | ]. rewrite (aircraft_status_partial data Hb Hl H H0 H2 x).
  rewrite rmap_ok. split.
  - intros E. exists x. auto.
  - intros (y & E & F). injection F as ->. exact E.
Qed.

Theorem target_message_partial : forall v a c data, bytes data -> len data = 7 -> KindOf data KTarget ->
  (bits 6 7 data = 0 -> bits 17 20 data = bits 33 36 data) ->
  (bits 6 7 data = 1 -> bits 8 8 data = bits 9 9 data /\ bit 31 data = false) ->
  (forall m, ReadADSBMessage v a c data = Ok m -> exists x, TargetOf data x /\ m = ATarget
    {| adsb_target_state_and_status.TargetStateAndStatus_TargetStateAndStatus := x; adsb_target_state_and_status.TargetStateAndStatus_adsbVersion := v |}) /\
  (forall e, ReadADSBMessage v a c data = Err e -> forall x, ~ TargetOf data x).
Proof.
  intros v a c data Hb Hl Hk H0 H1. rewrite read_target by assumption.
  inversion_clear Hk as [ | | | | | | | H | ].
  destruct (target_state_partial data Hb Hl H H0 H1) as [P Q]. split.
  - intros m E. apply rmap_ok in E as (x & E & ->). exists x. auto.
  - intros e E. destruct (bds62.ReadTargetStateAndStatus data) as [x|e'|]; try discriminate. eapply Q. reflexivity.
Qed.

Theorem operational_message : forall v a c data, bytes data -> len data = 7 -> KindOf data KOperational ->
  forall x, OperationalOf data x <-> exists l, ReadADSBMessage v a c data = Ok (AOperational
    {| adsb_aircraft_operational_status.AircraftOperationalStatus_AircraftOperationalStatus := x;
       adsb_aircraft_operational_status.AircraftOperationalStatus_adsbVersion := l |}).
Proof.
  intros v a c data Hb Hl Hk x. rewrite read_operational by assumption.
  inversion_clear Hk as [ | | | | | | | | H]. rewrite (read_bds65 data Hb Hl H x). split.
  - intros ->. eexists. reflexivity.
  - intros [l E]. apply rmap_ok in E as (y & E & F). injection F as -> ->. exact E.
Qed.

(* the version announced; the exception is the surface format of version 2 *)
Theorem operational_version_partial : forall v a c data m, bytes data -> len data = 7 -> KindOf data KOperational ->
  ~ (bits 6 8 data = 1 /\ bits 41 43 data = 2) ->
  ReadADSBMessage v a c data = Ok m -> Message_GetADSBVersion m = bits 41 43 data.
Proof.
  intros v a c data m Hb Hl Hk N E. rewrite read_operational in E by assumption. apply rmap_ok in E as (x & E & ->).
  inversion_clear Hk as [ | | | | | | | | H]. apply (read_bds65 data Hb Hl H x) in E.
    inversion E; subst; clear E; cbn [Message_GetADSBVersion]; unfold adsb_aircraft_operational_status.AircraftOperationalStatus_GetADSBVersion;
  cbn [adsb_aircraft_operational_status.AircraftOperationalStatus_adsbVersion bds65.IAircraftOperationalStatus_GetADSBLevel];
  first [symmetry; assumption | symmetry; apply (bits_of_zero 41 56); (lia || assumption) | exfalso; apply N; split; assumption].
Qed.

Theorem operational_version_refuted : exists data m, bytes data /\ len data = 7 /\ KindOf data KOperational /\
  ReadADSBMessage 2 false false data = Ok m /\ bits 41 43 data = 2 /\ Message_GetADSBVersion m = 1.
Proof.
  exists [0xF9; 0; 0; 0; 0; 0x40; 0]. eexists. repeat split; try reflexivity.
  - repeat constructor; lia.
  - apply k_operational. reflexivity.
Qed.

(* the other messages are labelled with the version given by the caller *)
Theorem version_of_the_caller : forall v a c data m, bytes data -> len data = 7 -> ~ KindOf data KOperational ->
  ReadADSBMessage v a c data = Ok m -> Message_GetADSBVersion m = v.
Proof.
  intros v a c data m Hb Hl Hk E. rewrite adsb_dispatch in E by assumption. cbv zeta in E.
  unfold adsb_no_position_information.ReadNoPositionInformation, adsb_airborne_position.ReadAirbornePositionType0,
    adsb_aircraft_identification_and_category.ReadAircraftIdentificationAndCategory,
    adsb_surface_position.ReadSurfacePosition, adsb_airborne_position.ReadAirbornePosition,
    adsb_airborne_velocity.ReadAirborneVelocity, adsb_aircraft_status.ReadAircraftStatus,
    adsb_target_state_and_status.ReadTargetStateAndStatus in E.
  destruct (first_byte data Hb Hl) as (d & D & HD). rewrite D in E. cbn [bind] in E.
  destruct (bits 1 5 data =? 0) eqn:T0.
  { destruct (bits 21 56 data =? 0);
    repeat match type of E with
    | context [idx data ?i] => destruct (idx data i); cbn [bind rmap] in E; try discriminate E end;
    destruct (bds05.ReadAirbornePosition _); try discriminate E; injection E as <-; reflexivity. }
  destruct ((1 <=? bits 1 5 data) && (bits 1 5 data <=? 4)).
  { destruct (bds08.ReadAircraftIdentificationAndCategory data); try discriminate E. injection E as <-. reflexivity. }
  destruct ((5 <=? bits 1 5 data) && (bits 1 5 data <=? 8)).
  { unfold adsb_surface_position.ReadSurfacePositionV0, adsb_surface_position.ReadSurfacePositionV1, adsb_surface_position.ReadSurfacePositionV2 in E.
    unfold adsb.ADSBV0, adsb.ADSBV1, adsb.ADSBV2 in E.
    destruct (bds06.ReadSurfacePosition data) as [p| |];
    (destruct (v =? 0) eqn:V0; [|destruct (v =? 1) eqn:V1; [|destruct (v =? 2) eqn:V2]]);
    repeat match type of E with context [adsb_surface_position.getHCRAndNICForV1 ?x ?y] => destruct (adsb_surface_position.getHCRAndNICForV1 x y)
    | context [adsb_surface_position.getHCRAndNICForV2 ?x ?y ?z] => destruct (adsb_surface_position.getHCRAndNICForV2 x y z) end;
    cbn [rmap] in E; try discriminate E; injection E as <-; cbn; unfold adsb_surface_position.SurfacePositionV0_GetADSBVersion, adsb_surface_position.SurfacePositionV1_GetADSBVersion, adsb_surface_position.SurfacePositionV2_GetADSBVersion, adsb.ADSBV0, adsb.ADSBV1, adsb.ADSBV2; lia. }
  destruct ((9 <=? bits 1 5 data) && (bits 1 5 data <=? 18) || (20 <=? bits 1 5 data) && (bits 1 5 data <=? 22)).
  { rewrite HD in E by lia.
    unfold adsb_airborne_position.ReadAirbornePositionV0, adsb_airborne_position.ReadAirbornePositionV1, adsb_airborne_position.ReadAirbornePositionV2 in E.
    unfold adsb.ADSBV0, adsb.ADSBV1, adsb.ADSBV2 in E. rewrite supplement_b in E by assumption. cbn [bind] in E.
    destruct (bds05.ReadAirbornePosition data) as [p| |];
    (destruct (v =? 0) eqn:V0; [|destruct (v =? 1) eqn:V1; [|destruct (v =? 2) eqn:V2]]);
    repeat match type of E with context [adsb_airborne_position.getHCRAndNICForV1 ?x ?y] => destruct (adsb_airborne_position.getHCRAndNICForV1 x y)
    | context [adsb_airborne_position.getHCRAndNICForV2 ?x ?y ?z] => destruct (adsb_airborne_position.getHCRAndNICForV2 x y z) end;
    cbn [rmap] in E; try discriminate E; injection E as <-; cbn; unfold adsb_airborne_position.AirbornePositionV0_GetADSBVersion, adsb_airborne_position.AirbornePositionV1_GetADSBVersion, adsb_airborne_position.AirbornePositionV2_GetADSBVersion, adsb.ADSBV0, adsb.ADSBV1, adsb.ADSBV2; lia. }
  destruct (bits 1 5 data =? 19).
  { destruct (bds09.ReadAirborneVelocity data); try discriminate E. injection E as <-. reflexivity. }
  destruct (bits 1 5 data =? 28).
  { destruct (bds61.ReadAircraftStatus data); try discriminate E. injection E as <-. reflexivity. }
  destruct (bits 1 5 data =? 29).
  { destruct (bds62.ReadTargetStateAndStatus data); try discriminate E. injection E as <-. reflexivity. }
  destruct (bits 1 5 data =? 31) eqn:T31; [|discriminate E].
  exfalso. apply Hk. apply k_operational. lia.
Qed.

(* ---- type code 0 ---- *)
Lemma bits_tail : forall x y l i j, 9 <= i -> i <= j -> j <= 8 * len (x :: l) -> bits i j (x :: l) = bits i j (y :: l).
Proof.
  intros x y l i j Hi Hij Hj. rewrite len_cons in Hj.
  change (x :: l) with ([x] ++ l). change (y :: l) with ([y] ++ l).
  pose proof (bits_app_r [x] l (i - 8) (j - 8) ltac:(lia) ltac:(lia) ltac:(lia)) as A.
  pose proof (bits_app_r [y] l (i - 8) (j - 8) ltac:(lia) ltac:(lia) ltac:(lia)) as B.
  change (8 * len [x]) with 8 in A. change (8 * len [y]) with 8 in B.
  replace (8 + (i - 8)) with i in * by lia. replace (8 + (j - 8)) with j in * by lia. congruence.
Qed.

Lemma altitude12_same : forall f g, (forall i j, 9 <= i -> i <= j -> j <= 20 -> bits i j f = bits i j g) ->
  forall alt, Altitude12 f alt <-> Altitude12 g alt.
Proof.
  intros f g H alt. unfold Altitude12, bit. 
  rewrite !H by lia. reflexivity.
Qed.

(* what is returned: all the fields are right but three *)
Definition type0_code (data : list Z) (alt : Z) : bds05.AirbornePosition :=
  {| bds05.AirbornePosition_FormatTypeCode := 0;
     bds05.AirbornePosition_SurveillanceStatus := 0;
     bds05.AirbornePosition_SingleAntennaFlag := 0;
     bds05.AirbornePosition_AltitudeSource := 1;
     bds05.AirbornePosition_AltitudeReportMethod := bits 16 16 data;
     bds05.AirbornePosition_AltitudeInFeet := alt;
     bds05.AirbornePosition_Time := bits 21 21 data;
     bds05.AirbornePosition_CPRFormat := bits 22 22 data;
     bds05.AirbornePosition_EncodedLatitude := bits 23 39 data;
     bds05.AirbornePosition_EncodedLongitude := bits 40 56 data |}.

Lemma type0_dispatch : forall v a c data, bytes data -> len data = 7 -> KindOf data KType0 ->
  ReadADSBMessage v a c data = rmap AAirborneType0 (adsb_airborne_position.ReadAirbornePositionType0 v data).
Proof.
  intros v a c data Hb Hl Hk. inversion_clear Hk as [ | H H2 | | | | | | | ]. adsb_start H. repeat decide_if. reflexivity.
Qed.

Lemma type0_read : forall v data, bytes data -> len data = 7 ->
  (forall alt, Altitude12 data alt -> adsb_airborne_position.ReadAirbornePositionType0 v data = Ok (type0_message (type0_code data alt) v)) /\
  ((forall alt, ~ Altitude12 data alt) -> adsb_airborne_position.ReadAirbornePositionType0 v data = Err "the field Altitude is malformed"%string).
Proof.
  intros v data Hb Hl. unfold adsb_airborne_position.ReadAirbornePositionType0, type0_code.
  split_list data Hl. gostep. rename d into x.
  match goal with |- context [bds05.ReadAirbornePosition ?g] => remember g as G eqn:EG end.
  match type of Hb with bytes ?f => remember f as F eqn:EF end.
  assert (HbG : bytes G) by (subst; apply bytes_cons in Hb as [_ Hb]; apply bytes_cons; split; [split; lia|exact Hb]).
  assert (HlG : len G = 7) by (subst; reflexivity).
  assert (S : forall i j, 9 <= i -> i <= j -> j <= 56 -> bits i j G = bits i j F).
  { intros. subst F G. apply bits_tail; try assumption; try (vm_compute; assumption). }
  assert (T : bits 1 5 G = 22 /\ bits 6 7 G = 0 /\ bits 8 8 G = 0).
  { clear S. subst G. pose proof HbG as Hb'. 
    match type of HbG with bytes ?l =>
      assert (A1 : bits 1 5 l = Z.shiftr 176 3);
      [transitivity (Z.shiftr (Z.land (List.nth 0 l 0) 0xF8) 3); [symmetry|reflexivity]|];
      [|assert (A2 : bits 6 8 l = Z.land 176 7);
        [transitivity (Z.land (List.nth 0 l 0) 7); [symmetry|reflexivity]|]] end.
    - exact (same_sound _ 7 (EShr (ELand (EByte 0) (EConst 0xF8)) 3) (EBits 1 5) HbG eq_refl eq_refl).
    - exact (same_sound _ 7 (ELand (EByte 0) (EConst 7)) (EBits 6 8) HbG eq_refl eq_refl).
    - change (Z.land 176 7) with 0 in A2. change (Z.shiftr 176 3) with 22 in A1. split; [exact A1|].
      split; apply (bits_of_zero 6 8); cbn [len List.length]; try lia; unfold len; cbn; lia. }
  destruct T as (T1 & T2 & T3). clear EG EF.
  assert (Ht : airborne_type (bits 1 5 G)) by (right; lia).
  pose proof (altitude12_same G F ltac:(intros; apply S; lia)) as SA.
  split.
  - intros alt Ha. apply SA in Ha. rewrite (read_bds05 G HbG HlG Ht alt Ha).
    unfold airborne_position, type0_message. cbn [bds05.AirbornePosition_FormatTypeCode bds05.AirbornePosition_SurveillanceStatus
      bds05.AirbornePosition_SingleAntennaFlag bds05.AirbornePosition_AltitudeSource bds05.AirbornePosition_AltitudeReportMethod
      bds05.AirbornePosition_AltitudeInFeet bds05.AirbornePosition_Time bds05.AirbornePosition_CPRFormat
      bds05.AirbornePosition_EncodedLatitude bds05.AirbornePosition_EncodedLongitude].
    rewrite T1, T2, T3, !S by lia. reflexivity.
  - intros N. rewrite (read_bds05_bad_altitude G HbG HlG Ht).
    { reflexivity. }
    intros alt Ha. apply (N alt). apply SA. exact Ha.
Qed.

(* full agreement when the status and antenna bits are zero, but for the altitude source *)
Theorem type0_partial : forall v a c data, bytes data -> len data = 7 -> KindOf data KType0 ->
  (forall alt, Altitude12 data alt -> exists m, ReadADSBMessage v a c data = Ok (AAirborneType0 (type0_message m v)) /\
     bds05.AirbornePosition_FormatTypeCode m = bds05.AirbornePosition_FormatTypeCode (type0_position data alt) /\
     bds05.AirbornePosition_AltitudeReportMethod m = bds05.AirbornePosition_AltitudeReportMethod (type0_position data alt) /\
     bds05.AirbornePosition_AltitudeInFeet m = bds05.AirbornePosition_AltitudeInFeet (type0_position data alt) /\
     bds05.AirbornePosition_Time m = bds05.AirbornePosition_Time (type0_position data alt) /\
     bds05.AirbornePosition_CPRFormat m = bds05.AirbornePosition_CPRFormat (type0_position data alt) /\
     bds05.AirbornePosition_EncodedLatitude m = bds05.AirbornePosition_EncodedLatitude (type0_position data alt) /\
     bds05.AirbornePosition_EncodedLongitude m = bds05.AirbornePosition_EncodedLongitude (type0_position data alt)) /\
  ((forall alt, ~ Altitude12 data alt) -> exists e, ReadADSBMessage v a c data = Err e).
Proof.
  intros v a c data Hb Hl Hk. rewrite type0_dispatch by assumption. destruct (type0_read v data Hb Hl) as [P Q]. split.
  - intros alt Ha. rewrite (P alt Ha). cbn [rmap]. eexists. split; [reflexivity|]. cbn. tauto.
  - intros N. rewrite (Q N). cbn. eauto.
Qed.

(* never right: the altitude is announced as GNSS, and status and antenna flag are lost *)
Theorem type0_refuted : forall v a c data alt, bytes data -> len data = 7 -> KindOf data KType0 -> Altitude12 data alt ->
  exists m, ReadADSBMessage v a c data = Ok (AAirborneType0 (type0_message m v)) /\
    bds05.AirbornePosition_AltitudeSource m = 1 /\
    bds05.AirbornePosition_SurveillanceStatus m = 0 /\
    bds05.AirbornePosition_SingleAntennaFlag m = 0 /\ m <> type0_position data alt.
Proof.
  intros v a c data alt Hb Hl Hk Ha. rewrite type0_dispatch by assumption. destruct (type0_read v data Hb Hl) as [P _].
  rewrite (P alt Ha). cbn [rmap]. eexists. split; [reflexivity|]. cbn. repeat split. discriminate.
Qed.

Lemma no_position_read : forall v data, bytes data -> len data = 7 ->
  (forall alt, Altitude12 data alt -> adsb_no_position_information.ReadNoPositionInformation v data = Ok (no_position alt v)) /\
  ((forall alt, ~ Altitude12 data alt) -> adsb_no_position_information.ReadNoPositionInformation v data = Err "the field Altitude is malformed"%string).
Proof.
  intros v data Hb Hl. unfold adsb_no_position_information.ReadNoPositionInformation.
  split_list data Hl. gostep.
  match goal with |- context [bds05.ReadAirbornePosition ?g] => remember g as G eqn:EG end.
  match type of Hb with bytes ?f => remember f as F eqn:EF end.
  assert (HbG : bytes G).
  { subst. repeat (apply bytes_cons in Hb; let h := fresh in destruct Hb as [h Hb]).
    repeat (apply bytes_cons; split; [first [assumption|split; lia]|]). constructor. }
  assert (HlG : len G = 7) by (subst; reflexivity).
  assert (S : forall i j, 9 <= i -> i <= j -> j <= 20 -> bits i j G = bits i j F).
  { intros i j Hi Hij Hj. subst F G. 
    transitivity (bits i j [120; d0; d1]); [|transitivity (bits i j [d; d0; d1])].
    - change [120; d0; d1; 0; 0; 0; 0] with ([120; d0; d1] ++ [0; 0; 0; 0]).
      apply bits_app_l; try lia. repeat constructor; lia. unfold len; cbn; lia.
    - apply bits_tail; try lia. unfold len; cbn; lia.
    - change (d :: d0 :: d1 :: ?l) with ([d; d0; d1] ++ l). symmetry. apply bits_app_l; try lia.
      repeat (apply bytes_cons in Hb; let h := fresh in destruct Hb as [h Hb]).
      repeat (apply bytes_cons; split; [first [assumption|split; lia]|]). constructor. unfold len; cbn; lia. }
  assert (T : bits 1 5 G = 15).
  { clear S. subst G.
    match type of HbG with bytes ?l =>
      transitivity (Z.shiftr (Z.land (List.nth 0 l 0) 0xF8) 3); [symmetry|reflexivity] end.
    exact (same_sound _ 7 (EShr (ELand (EByte 0) (EConst 0xF8)) 3) (EBits 1 5) HbG eq_refl eq_refl). }
  clear EG EF.
  assert (Ht : airborne_type (bits 1 5 G)) by (left; lia).
  pose proof (altitude12_same G F ltac:(intros; apply S; lia)) as SA.
  split.
  - intros alt Ha. apply SA in Ha. rewrite (read_bds05 G HbG HlG Ht alt Ha). reflexivity.
  - intros N. rewrite (read_bds05_bad_altitude G HbG HlG Ht).
    { reflexivity. }
    intros alt Ha. apply (N alt). apply SA. exact Ha.
Qed.

Theorem no_position_ok : forall v a c data, bytes data -> len data = 7 -> KindOf data KNoPosition ->
  (forall alt, Altitude12 data alt -> ReadADSBMessage v a c data = Ok (ANoPosition (no_position alt v))) /\
  ((forall alt, ~ Altitude12 data alt) -> exists e, ReadADSBMessage v a c data = Err e).
Proof.
  intros v a c data Hb Hl Hk. inversion_clear Hk as [H H2 | | | | | | | | ].
  destruct (no_position_read v data Hb Hl) as [P Q]. adsb_start H. repeat decide_if. split.
  - intros alt Ha. rewrite (P alt Ha). reflexivity.
  - intros N. rewrite (Q N). cbn. eauto.
Qed.

(* ---- totality, acceptance, kind ---- *)
Lemma read_bds65_total : forall data, bytes data -> len data = 7 -> bits 1 5 data = 31 -> bds65.ReadAircraftOperationalStatus data <> Panic.
Proof.
  intros data Hb Hl Ht. unfold bds65.ReadAircraftOperationalStatus.
  split_list data Hl. gorun. normbits Hb.
  intros H. tests H.
Qed.

Theorem adsb_total : forall v a c data, bytes data -> ReadADSBMessage v a c data <> Panic.
Proof.
  intros v a c data Hb. destruct (Z.eq_dec (len data) 7) as [Hl|Hl].
  2: { unfold ReadADSBMessage. decide_if. discriminate. }
  assert (forall k, KindOf data k -> ReadADSBMessage v a c data <> Panic) as K.
  { intros k Hk. destruct k.
    - destruct (no_position_ok v a c data Hb Hl Hk) as [P Q]. destruct (altitude12_dec data) as [[alt Ha]|N].
      + rewrite (P alt Ha). discriminate.
      + destruct (Q N) as [e ->]. discriminate.
    - destruct (type0_partial v a c data Hb Hl Hk) as [P Q]. destruct (altitude12_dec data) as [[alt Ha]|N].
      + destruct (P alt Ha) as (m & -> & _). discriminate.
      + destruct (Q N) as [e ->]. discriminate.
    - rewrite (identification_ok v a c data Hb Hl Hk). discriminate.
    - destruct (Z_le_dec 0 v); [destruct (Z_le_dec v 2)|].
      1: destruct (surface_fields v a c data Hb Hl Hk ltac:(lia)) as (m & -> & _); discriminate.
      1, 2: destruct (surface_bad_version v a c data Hb Hl Hk ltac:(lia)) as [e ->]; discriminate.
    - destruct (altitude12_dec data) as [[alt Ha]|N].
      + destruct (Z_le_dec 0 v); [destruct (Z_le_dec v 2)|].
        1: destruct (airborne_ok v a c data alt Hb Hl Hk ltac:(lia) Ha) as (m & -> & _); discriminate.
        1, 2: destruct (airborne_bad_version v a c data Hb Hl Hk ltac:(lia)) as [e ->]; discriminate.
      + destruct (airborne_bad_altitude v a c data Hb Hl Hk N) as [e ->]. discriminate.
    - destruct (Z_le_dec 1 (bits 6 8 data)); [destruct (Z_le_dec (bits 6 8 data) 4)|].
      1: destruct (velocity_ok v a c data Hb Hl Hk ltac:(lia)) as (m & _ & ->); discriminate.
      1, 2: destruct (velocity_bad_subtype v a c data Hb Hl Hk ltac:(lia)) as [e ->]; discriminate.
    - rewrite read_status by assumption. apply total_rmap. apply read_bds61_total; try assumption. inversion Hk; assumption.
    - rewrite read_target by assumption. apply total_rmap. apply read_bds62_total; try assumption. inversion Hk; assumption.
    - rewrite read_operational by assumption. apply total_rmap. apply read_bds65_total; try assumption. inversion Hk; assumption. }
  bits_bound 1 5 data.
  assert (C : (bits 1 5 data = 0 \/ 1 <= bits 1 5 data <= 4 \/ 5 <= bits 1 5 data <= 8 \/ (9 <= bits 1 5 data <= 18 \/ 20 <= bits 1 5 data <= 22) \/
     bits 1 5 data = 19 \/ bits 1 5 data = 28 \/ bits 1 5 data = 29 \/ bits 1 5 data = 31 \/ 23 <= bits 1 5 data <= 27 \/ bits 1 5 data = 30)) by lia.
  destruct C as [C|[C|[C|[C|[C|[C|[C|[C|C]]]]]]]]; try (eapply K; constructor; assumption).
  - destruct (Z.eq_dec (bits 21 56 data) 0); [eapply K; apply k_nopos; assumption|eapply K; apply k_type0; assumption].
  - rewrite adsb_dispatch by assumption. cbv zeta. repeat decide_if. discriminate.
Qed.

Theorem adsb_bad_length : forall v a c data, len data <> 7 -> exists e, ReadADSBMessage v a c data = Err e.
Proof. intros. unfold ReadADSBMessage. decide_if. eauto. Qed.

Theorem adsb_kind : forall v a c data m, bytes data -> ReadADSBMessage v a c data = Ok m -> len data = 7 /\ KindOf data (kind m).
Proof.
  intros v a c data m Hb E. destruct (Z.eq_dec (len data) 7) as [Hl|Hl].
  2: { destruct (adsb_bad_length v a c data Hl) as [e E']. congruence. }
  split; [exact Hl|]. rewrite adsb_dispatch in E by assumption. cbv zeta in E.
  destruct (bits 1 5 data =? 0) eqn:T0.
  { destruct (bits 21 56 data =? 0) eqn:Z0; apply rmap_ok in E as (x & _ & ->); [apply k_nopos|apply k_type0]; lia. }
  destruct ((1 <=? bits 1 5 data) && (bits 1 5 data <=? 4)) eqn:T1.
  { apply rmap_ok in E as (x & _ & ->). apply k_ident; lia. }
  destruct ((5 <=? bits 1 5 data) && (bits 1 5 data <=? 8)) eqn:T2.
  { apply rmap_ok in E as (x & _ & ->). apply k_surface; lia. }
  destruct ((9 <=? bits 1 5 data) && (bits 1 5 data <=? 18) || (20 <=? bits 1 5 data) && (bits 1 5 data <=? 22)) eqn:T3.
  { apply rmap_ok in E as (x & _ & ->). apply k_airborne; lia. }
  destruct (bits 1 5 data =? 19) eqn:T4. { apply rmap_ok in E as (x & _ & ->). apply k_velocity; lia. }
  destruct (bits 1 5 data =? 28) eqn:T5. { apply rmap_ok in E as (x & _ & ->). apply k_status; lia. }
  destruct (bits 1 5 data =? 29) eqn:T6. { apply rmap_ok in E as (x & _ & ->). apply k_target; lia. }
  destruct (bits 1 5 data =? 31) eqn:T7. { apply rmap_ok in E as (x & _ & ->). apply k_operational; lia. }
  discriminate.
Qed.

(* the kind is a function of the body *)
Theorem kind_unique : forall data k k', KindOf data k -> KindOf data k' -> k = k'.
Proof. intros data k k' H H'. inversion H; inversion H'; subst; try reflexivity; exfalso; try contradiction; lia. Qed.
