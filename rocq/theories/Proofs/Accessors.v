(* The accessors of decoded messages (C62-C65). *)
From Verif.Proofs Require Import Tac AcasReader AdsbApi Adsb0506 VelocityReader Status61 Status62 Status65 CommB3 Labels.
From Verif.Spec Require Import Floats Adsb Identification Velocity Acas Status AdsbMessages CommB Accessors Text.
From Verif.Gen Require acas_ra acas_ra_fields adsb_surface_position adsb_surface_position_fields
  adsb_airborne_velocity adsb_aircraft_status adsb_target_state_and_status bds06 bds08 bds08_fields bds09 bds09_fields
  bds61 bds62 bds45 modes_messages.
From Verif.Model Require Import AdsbReader Crc ModesReader.
Local Open Scope Z_scope.

(* ---- threat range and bearing *)
Lemma range_sweep :
  forallb (fun n => match acas_ra_fields.ThreatIdentityRange_GetRange n with
    | S754_finite false m e =>
        Qle_bool (Qabs (dyadic (Zpos m) e - ((n - 1) # 10))) (1 # 100000000000000) &&
        Qeq_bool (dyadic (Zpos m) e) (dyadic (Zpos m) e)
    | _ => false end) (map Z.of_nat (seq 2 125)) = true.
Proof. vm_compute. reflexivity. Qed.

Theorem threat_range_value : forall n, 0 <= n <= 127 ->
  exists r, threat_range n r /\ is_close (acas_ra_fields.ThreatIdentityRange_GetRange n) r (1 # 100000000000000).
Proof.
  intros n H. assert (C : n <= 1 \/ n = 127 \/ 2 <= n <= 126) by lia.
  destruct C as [C|[C|C]].
  - exists 0%Q. split.
    + unfold threat_range. repeat split; try (intro; exfalso; lia); reflexivity.
    + assert (n = 0 \/ n = 1) as [E|E] by lia; rewrite E; exists 0%Q; split; vm_compute; congruence.
  - exists (126 # 10)%Q. split.
    + unfold threat_range. repeat split; try (intro; exfalso; lia); reflexivity.
    + rewrite C. exists (dyadic (Zpos 7093169413108531) (-49)). split; vm_compute; congruence.
  - exists ((n - 1) # 10)%Q. split.
    + unfold threat_range. repeat split; try (intro; exfalso; lia); reflexivity.
    + pose proof range_sweep as S. rewrite forallb_forall in S. specialize (S n).
      assert (I : In n (map Z.of_nat (seq 2 125))).
      { apply in_map_iff. exists (Z.to_nat n). split; [lia|]. apply in_seq. lia. }
      specialize (S I).
      destruct (acas_ra_fields.ThreatIdentityRange_GetRange n) as [s|s| |s m e]; try discriminate.
      destruct s; try discriminate.
      apply andb_true_iff in S as [S _]. apply Qle_bool_iff in S.
      exists (dyadic (Zpos m) e). split; [reflexivity|exact S].
Qed.

Theorem threat_bearing_value : forall n,
  (1 <= n <= 60 -> in_sector n (acas_ra_fields.ThreatIdentityBearing_GetBearing n) /\
     2 * acas_ra_fields.ThreatIdentityBearing_GetBearing n = 6 * (n - 1) + 6 * n) /\
  (n = 0 -> acas_ra_fields.ThreatIdentityBearing_GetBearing n = 0) /\
  (61 <= n <= 63 -> acas_ra_fields.ThreatIdentityBearing_GetBearing n > 360).
Proof.
  intro n. unfold acas_ra_fields.ThreatIdentityBearing_GetBearing, in_sector. repeat split; intros.
  all: destruct (Z.eqb_spec n 0); try lia.
  all: rewrite ?Z.geb_leb; try (destruct (Z.leb_spec 61 n); try lia).
  all: assert (E6 : i64 (n * 6) = n * 6) by (unfold i64; rewrite Z.mod_small; lia);
    assert (E3 : i64 (n * 6 - 3) = n * 6 - 3) by (unfold i64; rewrite Z.mod_small; lia);
    rewrite E6, E3; lia.
Qed.

(* the label of a bearing says the sector *)
Theorem bearing_text_partial : forall n, 1 <= n <= 42 ->
  acas_ra_fields.ThreatIdentityBearing_ToString n =
  (numeral n ++ " - between " ++ numeral (6 * (n - 1)) ++ " and " ++ numeral (6 * n))%string.
Proof.
  intros n H. unfold acas_ra_fields.ThreatIdentityBearing_ToString.
  destruct (Z.eqb_spec n 0); try lia.
  replace ((1 <=? n) && (n <=? 60)) with true by (symmetry; apply andb_true_iff; split; apply Z.leb_le; lia).
  unfold u8. rewrite (Z.mod_small (n - 1) 256) by lia. rewrite !Z.mod_small by lia.
  rewrite (Z.mul_comm (n-1)), (Z.mul_comm n 6). reflexivity.
Qed.

Theorem bearing_text_refuted :
  acas_ra_fields.ThreatIdentityBearing_ToString 43 = "43 - between 252 and 2"%string /\
  acas_ra_fields.ThreatIdentityBearing_ToString 60 = "60 - between 98 and 104"%string.
Proof. split; vm_compute; reflexivity. Qed.

(* the form of the advisory *)
Theorem advisory_form_type : forall data ra, bytes data -> len data = 6 ->
  acas_ra.ReadResolutionAdvisory data = Ok ra ->
  acas_ra_fields.IActiveResolutionAdvisory_GetType (acas_ra.ResolutionAdvisory_ActiveRA ra) =
  match advisory_of data with
  | OneThreat => acas_ra_fields.OneThreatOrSameSeparation
  | SeveralThreats => acas_ra_fields.MultipleThreatDifferentSeparation
  | NoVerticalAdvisory => acas_ra_fields.NoVerticalRAGenerated
  end.
Proof.
  intros data ra Hb Hl H.
  assert (A : acas_ra.ResolutionAdvisory_ActiveRA ra = active_ra data).
  { unfold acas_ra.ReadResolutionAdvisory in H. rewrite Hl in H. cbn [Z.eqb Pos.eqb negb] in H.
    rewrite (read_active_ra data Hb Hl) in H.
    rewrite (read_complement data Hb Hl), (read_rat data Hb Hl), (read_mte data Hb Hl), (read_tti data Hb Hl) in H.
    cbv zeta in H. cbn [bind] in H.
    destruct (bits 21 22 data =? acas_ra_fields.ThreatTypeModeS);
    [|destruct (bits 21 22 data =? acas_ra_fields.ThreatTypeAltitudeRangeBearing)].
    - destruct (acas_ra_fields.ReadThreatIdentityAddress data); cbn [bind] in H; try discriminate;
      injection H as <-; reflexivity.
    - destruct (acas_ra_fields.ReadThreatIdentityAltitude data);
      destruct (acas_ra_fields.ReadThreatIdentityRange data); cbn [bind] in H; try discriminate;
      destruct (acas_ra_fields.ReadThreatIdentityBearing data); cbn [bind] in H; try discriminate;
      injection H as <-; reflexivity.
    - injection H as <-; reflexivity. }
  rewrite A. unfold active_ra, advisory_of. destruct (bit 1 data), (bit 20 data); reflexivity.
Qed.

Theorem advisory_forms_distinct :
  NoDup [acas_ra_fields.OneThreatOrSameSeparation; acas_ra_fields.MultipleThreatDifferentSeparation; acas_ra_fields.NoVerticalRAGenerated].
Proof. repeat constructor; cbn; intuition discriminate. Qed.

Definition bound_b (x : spec_float) (b : option Q) : bool :=
  match b, x with
  | None, S754_finite s m e => Qeq_bool (-1) (dyadic (if s then Zneg m else Zpos m) e)
  | Some q, S754_finite s m e =>
      Qle_bool (Qabs (dyadic (if s then Zneg m else Zpos m) e - q)) (1 # 1000000000000)
  | _, _ => false
  end.

Lemma bound_b_ok : forall x b, bound_b x b = true -> bound_is x b.
Proof.
  intros x [q|] H; destruct x as [s|s| |s m e]; try discriminate; cbn in *.
  - exists (dyadic (if s then Zneg m else Zpos m) e). split; [reflexivity|]. apply Qle_bool_iff. exact H.
  - apply Qeq_bool_iff. exact H.
Qed.

(* ---- bounds of the horizontal protection limit and of the containment radius *)
Theorem surface_bounds : forall a c data m, bytes data -> len data = 7 -> KindOf data KSurface ->
  ReadADSBMessage 0 a c data = Ok (ASurface (adsb_surface_position.IMessage_SurfacePositionV0 m)) ->
  let hpl := adsb_surface_position.SurfacePositionV0_HorizontalProtectionLimit m in
  let radius := adsb_surface_position.SurfacePositionV0_ContainmentRadius m in
  bound_is (adsb_surface_position_fields.HorizontalProtectionLimit_GetHPLLowerBound hpl) (fst (hpl_bounds (bits 1 5 data))) /\
  bound_is (adsb_surface_position_fields.HorizontalProtectionLimit_GetHPLHigherBound hpl) (snd (hpl_bounds (bits 1 5 data))) /\
  bound_is (adsb_surface_position_fields.ContainmentRadius_GetHorizontalContainmentLowerBound radius) (fst (radius_bounds (bits 1 5 data))) /\
  bound_is (adsb_surface_position_fields.ContainmentRadius_GetHorizontalContainmentHigherBound radius) (snd (radius_bounds (bits 1 5 data))).
Proof.
  intros a c data m Hb Hl Hk H. rewrite read_surface_dispatch in H by assumption.
  cbn [Z.eqb] in H. inversion_clear Hk as [ | | | H' | | | | | ].
  unfold adsb_surface_position.ReadSurfacePositionV0 in H.
  destruct (read_bds06 data Hb Hl H') as (p & E & P). rewrite E in H. cbn [rmap] in H.
  injection H as <-. destruct P as (T & _). cbn. rewrite T.
  assert (C : bits 1 5 data = 5 \/ bits 1 5 data = 6 \/ bits 1 5 data = 7 \/ bits 1 5 data = 8)
    by (unfold surface_type in H'; lia).
  destruct C as [C|[C|[C|C]]]; rewrite C; clear;
  (repeat split); apply bound_b_ok; vm_compute; reflexivity.
Qed.

(* the bounds delimit an interval *)
Theorem surface_bounds_ordered : forall tc l h,
  hpl_bounds tc = (Some l, Some h) \/ radius_bounds tc = (Some l, Some h) -> (l < h)%Q.
Proof.
  intros tc l h [H|H]; unfold hpl_bounds, radius_bounds in H;
  repeat match type of H with context [if ?b then _ else _] => destruct b end;
  inversion H; reflexivity.
Qed.

(* ---- subtypes *)
Theorem velocity_subtype : forall v a c data m, bytes data -> len data = 7 -> KindOf data KVelocity ->
  ReadADSBMessage v a c data = Ok (AVelocity m) ->
  bds09.IAirborneVelocity_GetSubtype (adsb_airborne_velocity.AirborneVelocity_AirborneVelocity m) = bits 6 8 data.
Proof.
  intros v a c data m Hb Hl Hk H.
  assert (S : 1 <= bits 6 8 data <= 4 \/ ~ 1 <= bits 6 8 data <= 4) by lia. destruct S as [S|S].
  - destruct (velocity_ok v a c data Hb Hl Hk S) as (x & X & E). rewrite E in H. injection H as <-.
    cbn [adsb_airborne_velocity.AirborneVelocity_AirborneVelocity]. destruct X; cbn; symmetry; assumption.
  - destruct (velocity_bad_subtype v a c data Hb Hl Hk S) as (e & E). rewrite E in H. discriminate.
Qed.

Theorem status_subtype : forall v a c data m, bytes data -> len data = 7 -> KindOf data KStatus ->
  ReadADSBMessage v a c data = Ok (AStatus m) ->
  bds61.IAircraftStatus_GetSubtype (adsb_aircraft_status.AircraftStatus_AircraftStatus m) = bits 6 8 data.
Proof.
  intros v a c data m Hb Hl Hk H. rewrite read_status in H by assumption.
  inversion_clear Hk as [ | | | | | | T | | ]. rewrite (read_bds61_code data Hb Hl T) in H.
  destruct (Z.eqb_spec (bits 6 8 data) 0) as [E|E].
  { destruct (bits 12 16 data =? 0); try discriminate. injection H as <-. cbn; first [reflexivity|symmetry; exact E]. }
  destruct (Z.eqb_spec (bits 6 8 data) 1) as [E1|E1].
  { destruct (bits 25 56 data =? 0); try discriminate. injection H as <-. cbn; first [reflexivity|symmetry; exact E1]. }
  destruct (Z.eqb_spec (bits 6 8 data) 2) as [E2|E2]; [|discriminate].
  destruct (acas_ra.ReadResolutionAdvisory (octets 2 7 data)); try discriminate. injection H as <-. cbn; first [reflexivity|symmetry; exact E2].
Qed.

Theorem target_subtype : forall v a c data m, bytes data -> len data = 7 -> KindOf data KTarget ->
  ReadADSBMessage v a c data = Ok (ATarget m) ->
  bds62.ITargetStateAndStatus_GetSubtype (adsb_target_state_and_status.TargetStateAndStatus_TargetStateAndStatus m) = bits 6 7 data.
Proof.
  intros v a c data m Hb Hl Hk H. rewrite read_target in H by assumption.
  inversion_clear Hk as [ | | | | | | | T | ].
  assert (R : 0 <= bits 6 7 data < 4) by (bits_bound 6 7 data; lia).
  assert (C : bits 6 7 data = 0 \/ bits 6 7 data = 1 \/ 2 <= bits 6 7 data) by lia.
  destruct C as [C|[C|C]].
  - rewrite (read_bds62_0 data Hb Hl T C) in H. cbv zeta in H.
    destruct (bits 47 48 data =? 0); [destruct (bits 49 51 data =? 0)|]; cbn [rmap] in H; try discriminate.
    injection H as <-. cbn; first [reflexivity|symmetry; exact C].
  - rewrite (read_bds62_1 data Hb Hl T C) in H. cbn [rmap] in H. injection H as <-.
    cbn; first [reflexivity|symmetry; exact C].
  - rewrite (read_bds62_other data Hb Hl T C) in H. discriminate.
Qed.

(* ---- the category set follows the type code *)
Theorem category_set : forall v a c data m, bytes data -> len data = 7 -> KindOf data KIdentification ->
  ReadADSBMessage v a c data = Ok (AIdentification m) ->
  bds08_fields.IAircraftCategory_GetCategorySetName
    (bds08.AircraftIdentificationAndCategory_Category
      (adsb_aircraft_identification_and_category.AircraftIdentificationAndCategory_AircraftIdentificationAndCategory m)) =
  category_set_name (bits 1 5 data).
Proof.
  intros v a c data m Hb Hl Hk H. rewrite identification_ok in H by assumption. injection H as <-.
  inversion_clear Hk. cbn [adsb_aircraft_identification_and_category.AircraftIdentificationAndCategory_AircraftIdentificationAndCategory].
  unfold identification, category. cbn [bds08.AircraftIdentificationAndCategory_Category].
  unfold category_set_name.
  assert (C : bits 1 5 data = 1 \/ bits 1 5 data = 2 \/ bits 1 5 data = 3 \/ bits 1 5 data = 4) by lia.
  destruct C as [C|[C|[C|C]]]; rewrite C; reflexivity.
Qed.

(* ---- turbulence *)
Theorem turbulence_status : forall data m, bytes data -> len data = 7 ->
  bds45.ReadMeteorologicalHazardReport data = Ok m ->
  bds45.IMeteorologicalHazardReport_GetTurbulenceStatus m = bit 38 data.
Proof.
  intros data m Hb Hl H. destruct (hazard_report data m Hb Hl H) as (X & _). destruct X. reflexivity.
Qed.

Theorem turbulence_status_v0 : forall data m, bytes data -> len data = 7 ->
  bds45.ReadMeteorologicalHazardReportV0 data = Ok m ->
  bds45.MeteorologicalHazardReportV0_GetTurbulenceStatus m = bit 1 data.
Proof.
  intros data m Hb Hl H. destruct (hazard_report_v0 data m Hb Hl H) as (_ & t & _ & ->). reflexivity.
Qed.

(* ---- the name of a Mode S message tells its kind *)
Theorem message_names : forall m m', ModeSMessage_GetName m = ModeSMessage_GetName m' <-> GetDownLinkFormat m = GetDownLinkFormat m'.
Proof.
  intros m m'. destruct m, m'; cbn; split; intro H; try reflexivity; discriminate.
Qed.
