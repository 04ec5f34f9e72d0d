(* The texts of the messages show every field, under its title, in order. *)
From Verif.Proofs Require Import Tac Octets Labels Texts ReportTools.
From Verif.Gen Require bds00 bds05 bds05_fields bds06 bds06_fields bds07 bds07_fields bds08 bds08_fields bds09 bds09_fields bds10 bds10_fields bds17 bds20 bds30
  bds40 bds40_fields bds44 bds44_fields bds45 bds45_fields bds50 bds60 bds61 bds61_fields bds62 bds62_fields bds65 bds65_fields
  modes_fields modes_messages acas_ra acas_ra_fields
  adsb_airborne_position adsb_airborne_position_fields adsb_surface_position adsb_surface_position_fields
  adsb_no_position_information adsb_airborne_velocity adsb_aircraft_status adsb_target_state_and_status
  adsb_aircraft_operational_status adsb_aircraft_identification_and_category bds_register.
From Verif.Model Require Import Crc ModesReader.
From Verif.Model Require AdsbReader CommbReader.
From Verif.Spec Require Import Text Report Reports.
Require Import String Ascii List.
Import ListNotations.
Local Open Scope Z_scope.
Local Open Scope string_scope.

Lemma version_shown : forall v, version_value v (bds65_fields.VersionNumber_ToString v).
Proof.
  intro v. unfold version_value, bds65_fields.VersionNumber_ToString.
  change bds65_fields.ADSBVersion0 with 0%Z. change bds65_fields.ADSBVersion1 with 1%Z. change bds65_fields.ADSBVersion2 with 2%Z.
  destruct (v =? 0)%Z; [reflexivity|]. destruct (v =? 1)%Z; [reflexivity|]. destruct (v =? 2)%Z; [reflexivity|].
  reflexivity.
Qed.
Global Hint Resolve version_shown : value_db.

Lemma multiple_threats_shows : forall (m : acas_ra_fields.ActiveRAMultipleThreatsDifferentSeparation), 
  shows (acas_ra_fields.ActiveRAMultipleThreatsDifferentSeparation_ToString m) (multiple_threats_rows m).
Proof.
  intros. unfold acas_ra_fields.ActiveRAMultipleThreatsDifferentSeparation_ToString, multiple_threats_rows. flat.
  report.
Qed.
Global Hint Resolve multiple_threats_shows : shows_db.

Lemma complement_shows : forall (m : acas_ra_fields.RAComplement), 
  shows (acas_ra_fields.RAComplement_ToString m) (complement_rows m).
Proof.
  intros. unfold acas_ra_fields.RAComplement_ToString, complement_rows. flat.
  report.
Qed.
Global Hint Resolve complement_shows : shows_db.

Lemma one_threat_shows : forall (m : acas_ra_fields.ActiveRAOneThreatOrSameSeparation),
  acas_ra_fields.ActiveRAOneThreatOrSameSeparation_Sense m = 0 ->
  shows (acas_ra_fields.ActiveRAOneThreatOrSameSeparation_ToString m) (one_threat_rows m).
Proof.
  intros m U.
  assert (S : said ["Upward"; "Downward"] (acas_ra_fields.ActiveRAOneThreatOrSameSeparation_Sense m)
    (acas_ra_fields.ActiveRASense_ToString (acas_ra_fields.ActiveRAOneThreatOrSameSeparation_Sense m)))
    by (rewrite U; reflexivity).
  unfold acas_ra_fields.ActiveRAOneThreatOrSameSeparation_ToString, one_threat_rows. flat.
  report.
Qed.
Global Hint Resolve one_threat_shows : shows_db.

Lemma airborne_base_shows : forall (m : bds05.AirbornePosition), 
  shows (bds05.AirbornePosition_ToString m) (airborne_base_rows m).
Proof.
  intros. unfold bds05.AirbornePosition_ToString, airborne_base_rows. flat.
  report.
Qed.
Global Hint Resolve airborne_base_shows : shows_db.

Lemma surface_base_shows : forall ffmt (m : bds06.SurfacePosition), (forall f, one_line (ffmt f)) -> 
  shows (bds06.SurfacePosition_ToString ffmt m) (surface_base_rows ffmt m).
Proof.
  intros. unfold bds06.SurfacePosition_ToString, surface_base_rows. flat.
  report.
Qed.
Global Hint Resolve surface_base_shows : shows_db.

Lemma surface_capability_class_v1_shows : forall (m : bds65_fields.SurfaceCapabilityClassV1), 
  shows (bds65_fields.SurfaceCapabilityClassV1_ToString m) (surface_capability_class_v1_rows m).
Proof.
  intros. unfold bds65_fields.SurfaceCapabilityClassV1_ToString, surface_capability_class_v1_rows. flat.
  report.
Qed.
Global Hint Resolve surface_capability_class_v1_shows : shows_db.

Lemma airborne_capability_class_v1_shows : forall (m : bds65_fields.AirborneCapabilityClassV1), 
  shows (bds65_fields.AirborneCapabilityClassV1_ToString m) (airborne_capability_class_v1_rows m).
Proof.
  intros. unfold bds65_fields.AirborneCapabilityClassV1_ToString, airborne_capability_class_v1_rows. flat.
  report.
Qed.
Global Hint Resolve airborne_capability_class_v1_shows : shows_db.

Lemma airborne_capability_class_v2_shows : forall (m : bds65_fields.AirborneCapabilityClassV2), 
  shows (bds65_fields.AirborneCapabilityClassV2_ToString m) (airborne_capability_class_v2_rows m).
Proof.
  intros. unfold bds65_fields.AirborneCapabilityClassV2_ToString, airborne_capability_class_v2_rows. flat.
  report.
Qed.
Global Hint Resolve airborne_capability_class_v2_shows : shows_db.

Lemma airborne_operational_mode_shows : forall (m : bds65_fields.AirborneOperationalMode), 
  shows (bds65_fields.AirborneOperationalMode_ToString m) (airborne_operational_mode_rows m).
Proof.
  intros. unfold bds65_fields.AirborneOperationalMode_ToString, airborne_operational_mode_rows. flat.
  report.
Qed.
Global Hint Resolve airborne_operational_mode_shows : shows_db.

Lemma gps_antenna_shows : forall (m : bds65_fields.GPSAntenna), 
  shows (bds65_fields.GPSAntenna_ToString m) (gps_antenna_rows m).
Proof.
  intros. unfold bds65_fields.GPSAntenna_ToString, gps_antenna_rows. flat.
  report.
Qed.
Global Hint Resolve gps_antenna_shows : shows_db.

Lemma operational_mode_shows : forall (m : bds65_fields.OperationalMode), 
  shows (bds65_fields.OperationalMode_ToString m) (operational_mode_rows m).
Proof.
  intros. unfold bds65_fields.OperationalMode_ToString, operational_mode_rows. flat.
  report.
Qed.
Global Hint Resolve operational_mode_shows : shows_db.

Lemma surface_capability_class_v2_shows : forall (m : bds65_fields.SurfaceCapabilityClassV2), 
  shows (bds65_fields.SurfaceCapabilityClassV2_ToString m) (surface_capability_class_v2_rows m).
Proof.
  intros. unfold bds65_fields.SurfaceCapabilityClassV2_ToString, surface_capability_class_v2_rows. flat.
  report.
Qed.
Global Hint Resolve surface_capability_class_v2_shows : shows_db.

Lemma surface_operational_mode_shows : forall (m : bds65_fields.SurfaceOperationalMode),
  shows (bds65_fields.SurfaceOperationalMode_ToString m) (surface_operational_mode_rows m).
Proof.
  intros. unfold bds65_fields.SurfaceOperationalMode_ToString, surface_operational_mode_rows,
    bds65_fields.GPSAntenna_ToString.
  rewrite !app_assoc_s.
  rewrite <- (app_assoc_s "Lateral Axis GPS Antenna:      ").
  rewrite prefix_nl by one_label. rewrite prefix_one by one_label.
  change (blanks 4) with "    ".
  rewrite <- (app_assoc_s "    " (_ ++ _) (nl ++ _)). rewrite <- (app_assoc_s "    " "Longitudinal Axis GPS Antenna: ").
  do 4 shows_step.
  apply shows_cons; [vm_compute; reflexivity| |one_label|].
  - change "    " with (blanks 4). apply titled_ok; [vm_compute; reflexivity|value].
  - shows_step.
Qed.
Global Hint Resolve surface_operational_mode_shows : shows_db.

Lemma airborne_position_type0_shows : forall (m : adsb_airborne_position.AirbornePositionType0), 
  shows (adsb_airborne_position.AirbornePositionType0_ToString m) (airborne_position_type0_rows m).
Proof.
  intros. unfold adsb_airborne_position.AirbornePositionType0_ToString, airborne_position_type0_rows. flat.
  report.
Qed.
Global Hint Resolve airborne_position_type0_shows : shows_db.

Lemma airborne_position_v0_shows : forall (m : adsb_airborne_position.AirbornePositionV0), 
  shows (adsb_airborne_position.AirbornePositionV0_ToString m) (airborne_position_v0_rows m).
Proof.
  intros. unfold adsb_airborne_position.AirbornePositionV0_ToString, airborne_position_v0_rows. flat.
  report.
Qed.
Global Hint Resolve airborne_position_v0_shows : shows_db.

Lemma airborne_position_v1_shows : forall (m : adsb_airborne_position.AirbornePositionV1), 
  shows (adsb_airborne_position.AirbornePositionV1_ToString m) (airborne_position_v1_rows m).
Proof.
  intros. unfold adsb_airborne_position.AirbornePositionV1_ToString, airborne_position_v1_rows. flat.
  report.
Qed.
Global Hint Resolve airborne_position_v1_shows : shows_db.

Lemma airborne_position_v2_shows : forall (m : adsb_airborne_position.AirbornePositionV2), 
  shows (adsb_airborne_position.AirbornePositionV2_ToString m) (airborne_position_v2_rows m).
Proof.
  intros. unfold adsb_airborne_position.AirbornePositionV2_ToString, airborne_position_v2_rows. flat.
  report.
Qed.
Global Hint Resolve airborne_position_v2_shows : shows_db.

Lemma no_position_information_shows : forall (m : adsb_no_position_information.NoPositionInformation), 
  shows (adsb_no_position_information.NoPositionInformation_ToString m) (no_position_information_rows m).
Proof.
  intros. unfold adsb_no_position_information.NoPositionInformation_ToString, no_position_information_rows. flat.
  report.
Qed.
Global Hint Resolve no_position_information_shows : shows_db.

Lemma surface_position_v0_shows : forall ffmt (m : adsb_surface_position.SurfacePositionV0), (forall f, one_line (ffmt f)) -> 
  shows (adsb_surface_position.SurfacePositionV0_ToString ffmt m) (surface_position_v0_rows ffmt m).
Proof.
  intros. unfold adsb_surface_position.SurfacePositionV0_ToString, surface_position_v0_rows. flat.
  report.
Qed.
Global Hint Resolve surface_position_v0_shows : shows_db.

Lemma surface_position_v1_shows : forall ffmt (m : adsb_surface_position.SurfacePositionV1), (forall f, one_line (ffmt f)) -> 
  shows (adsb_surface_position.SurfacePositionV1_ToString ffmt m) (surface_position_v1_rows ffmt m).
Proof.
  intros. unfold adsb_surface_position.SurfacePositionV1_ToString, surface_position_v1_rows. flat.
  report.
Qed.
Global Hint Resolve surface_position_v1_shows : shows_db.

Lemma surface_position_v2_shows : forall ffmt (m : adsb_surface_position.SurfacePositionV2), (forall f, one_line (ffmt f)) -> 
  shows (adsb_surface_position.SurfacePositionV2_ToString ffmt m) (surface_position_v2_rows ffmt m).
Proof.
  intros. unfold adsb_surface_position.SurfacePositionV2_ToString, surface_position_v2_rows. flat.
  report.
Qed.
Global Hint Resolve surface_position_v2_shows : shows_db.

Lemma squitter_status_shows : forall (m : bds07.Status), 
  shows (bds07.Status_ToString m) (squitter_status_rows m).
Proof.
  intros. unfold bds07.Status_ToString, squitter_status_rows. flat.
  report.
Qed.
Global Hint Resolve squitter_status_shows : shows_db.

Lemma aircraft_identification_and_category_shows : forall (m : bds08.AircraftIdentificationAndCategory),
  one_line (bds08.AircraftIdentificationAndCategory_Identification m) ->
  shows (bds08.AircraftIdentificationAndCategory_ToString m) (aircraft_identification_and_category_rows m).
Proof.
  intros. unfold bds08.AircraftIdentificationAndCategory_ToString, aircraft_identification_and_category_rows. flat.
  report.
Qed.
Global Hint Resolve aircraft_identification_and_category_shows : shows_db.

Lemma airborne_velocity_air_speed_normal_shows : forall ffmt (m : bds09.AirborneVelocityAirSpeedNormal), (forall f, one_line (ffmt f)) -> 
  shows (bds09.AirborneVelocityAirSpeedNormal_ToString ffmt m) (airborne_velocity_air_speed_normal_rows ffmt m).
Proof.
  intros. unfold bds09.AirborneVelocityAirSpeedNormal_ToString, airborne_velocity_air_speed_normal_rows. flat.
  report.
Qed.
Global Hint Resolve airborne_velocity_air_speed_normal_shows : shows_db.

Lemma airborne_velocity_air_speed_supersonic_shows : forall ffmt (m : bds09.AirborneVelocityAirSpeedSupersonic), (forall f, one_line (ffmt f)) -> 
  shows (bds09.AirborneVelocityAirSpeedSupersonic_ToString ffmt m) (airborne_velocity_air_speed_supersonic_rows ffmt m).
Proof.
  intros. unfold bds09.AirborneVelocityAirSpeedSupersonic_ToString, airborne_velocity_air_speed_supersonic_rows. flat.
  report.
Qed.
Global Hint Resolve airborne_velocity_air_speed_supersonic_shows : shows_db.

Lemma dte_value : forall z, sixteen_bits z (bds10_fields.DTESubAddressStatuses_ToString z).
Proof.
  intro z. unfold sixteen_bits, exactly, bds10_fields.DTESubAddressStatuses_ToString.
  assert (K : forall n, 0 <= n -> dec (Z.land (Z.shiftr z n) 1) = if Z.testbit z n then "1" else "0").
  { intros n N. change 1 with (Z.ones 1). rewrite Z.land_ones by lia. rewrite Z.shiftr_div_pow2 by lia.
    change (2 ^ 1) with 2. rewrite <- Z.testbit_spec' by lia. destruct (Z.testbit z n); reflexivity. }
  cbv zeta. unfold u64. cbn [seq map Z.of_nat].
  rewrite !K by (vm_compute; discriminate). reflexivity.
Qed.
Lemma concat_line : forall sep l, one_line sep -> Forall one_line l -> one_line (String.concat sep l).
Proof.
  intros sep l S F. induction F as [|x l H F IH]; [exact I|]. destruct l as [|y l]; [exact H|].
  cbn [String.concat] in *. apply one_line_app; [exact H|]. apply one_line_app; [exact S|exact IH].
Qed.
Lemma dte_line : forall z, one_line (bds10_fields.DTESubAddressStatuses_ToString z).
Proof.
  intro z. rewrite dte_value. apply concat_line; [apply lineb_ok; reflexivity|].
  rewrite Forall_map. apply Forall_forall. intros i _. destruct (Z.testbit _ _); apply lineb_ok; reflexivity.
Qed.

Global Hint Resolve dte_line : line_db.
Global Hint Resolve dte_value : value_db.

Lemma data_link_capability_report_shows : forall (m : bds10.DataLinkCapabilityReport),
  bds10.DataLinkCapabilityReport_ContinuationFlag m = bds10.DataLinkCapabilityReport_OverlayCommandCapability m ->
  shows (bds10.DataLinkCapabilityReport_ToString m) (data_link_capability_report_rows m).
Proof.
  intros. unfold bds10.DataLinkCapabilityReport_ToString, data_link_capability_report_rows. flat.
  rewrite H.
  report.
Qed.
Global Hint Resolve data_link_capability_report_shows : shows_db.

Lemma gicb_capability_report_shows : forall (m : bds17.CommonUsageGICBCapabilityReport), 
  shows (bds17.CommonUsageGICBCapabilityReport_ToString m) (gicb_capability_report_rows m).
Proof.
  intros. unfold bds17.CommonUsageGICBCapabilityReport_ToString, gicb_capability_report_rows. flat.
  report.
Qed.
Global Hint Resolve gicb_capability_report_shows : shows_db.

Lemma aircraft_identification_shows : forall (m : bds20.AircraftIdentification),
  one_line (bds20.AircraftIdentification_Identification m) ->
  shows (bds20.AircraftIdentification_ToString m) (aircraft_identification_rows m).
Proof.
  intros. unfold bds20.AircraftIdentification_ToString, aircraft_identification_rows. flat.
  report.
Qed.
Global Hint Resolve aircraft_identification_shows : shows_db.

Lemma selected_vertical_intention_shows : forall ffmt (m : bds40.SelectedVerticalIntention), (forall f, one_line (ffmt f)) -> 
  shows (bds40.SelectedVerticalIntention_ToString ffmt m) (selected_vertical_intention_rows ffmt m).
Proof.
  intros. unfold bds40.SelectedVerticalIntention_ToString, selected_vertical_intention_rows. flat.
  report.
Qed.
Global Hint Resolve selected_vertical_intention_shows : shows_db.

Lemma meteorological_routine_air_report_v0_shows : forall ffmt (m : bds44.MeteorologicalRoutineAirReportV0), (forall f, one_line (ffmt f)) -> 
  shows (bds44.MeteorologicalRoutineAirReportV0_ToString ffmt m) (meteorological_routine_air_report_v0_rows ffmt m).
Proof.
  intros. unfold bds44.MeteorologicalRoutineAirReportV0_ToString, meteorological_routine_air_report_v0_rows. flat.
  report.
Qed.
Global Hint Resolve meteorological_routine_air_report_v0_shows : shows_db.

Lemma meteorological_routine_air_report_v1_shows : forall ffmt (m : bds44.MeteorologicalRoutineAirReportV1), (forall f, one_line (ffmt f)) -> 
  shows (bds44.MeteorologicalRoutineAirReportV1_ToString ffmt m) (meteorological_routine_air_report_v1_rows ffmt m).
Proof.
  intros. unfold bds44.MeteorologicalRoutineAirReportV1_ToString, meteorological_routine_air_report_v1_rows. flat.
  report.
Qed.
Global Hint Resolve meteorological_routine_air_report_v1_shows : shows_db.

Lemma meteorological_routine_air_report_v2_shows : forall ffmt (m : bds44.MeteorologicalRoutineAirReportV2), (forall f, one_line (ffmt f)) -> 
  shows (bds44.MeteorologicalRoutineAirReportV2_ToString ffmt m) (meteorological_routine_air_report_v2_rows ffmt m).
Proof.
  intros. unfold bds44.MeteorologicalRoutineAirReportV2_ToString, meteorological_routine_air_report_v2_rows. flat.
  report.
Qed.
Global Hint Resolve meteorological_routine_air_report_v2_shows : shows_db.

Lemma meteorological_hazard_report_v0_shows : forall ffmt (m : bds45.MeteorologicalHazardReportV0), (forall f, one_line (ffmt f)) -> 
  shows (bds45.MeteorologicalHazardReportV0_ToString ffmt m) (meteorological_hazard_report_v0_rows ffmt m).
Proof.
  intros. unfold bds45.MeteorologicalHazardReportV0_ToString, meteorological_hazard_report_v0_rows. flat.
  report.
Qed.
Global Hint Resolve meteorological_hazard_report_v0_shows : shows_db.

Lemma meteorological_hazard_report_v1_shows : forall ffmt (m : bds45.MeteorologicalHazardReportV1), (forall f, one_line (ffmt f)) -> 
  shows (bds45.MeteorologicalHazardReportV1_ToString ffmt m) (meteorological_hazard_report_v1_rows ffmt m).
Proof.
  intros. unfold bds45.MeteorologicalHazardReportV1_ToString, meteorological_hazard_report_v1_rows. flat.
  report.
Qed.
Global Hint Resolve meteorological_hazard_report_v1_shows : shows_db.

Lemma track_and_turn_report_shows : forall ffmt (m : bds50.TrackAndTurnReport), (forall f, one_line (ffmt f)) -> 
  shows (bds50.TrackAndTurnReport_ToString ffmt m) (track_and_turn_report_rows ffmt m).
Proof.
  intros. unfold bds50.TrackAndTurnReport_ToString, track_and_turn_report_rows. flat.
  report.
Qed.
Global Hint Resolve track_and_turn_report_shows : shows_db.

Lemma heading_and_track_report_shows : forall ffmt (m : bds60.HeadingAndTrackReport), (forall f, one_line (ffmt f)) -> 
  shows (bds60.HeadingAndTrackReport_ToString ffmt m) (heading_and_track_report_rows ffmt m).
Proof.
  intros. unfold bds60.HeadingAndTrackReport_ToString, heading_and_track_report_rows. flat.
  report.
Qed.
Global Hint Resolve heading_and_track_report_shows : shows_db.

Lemma aircraft_status_emergency_shows : forall (m : bds61.AircraftStatusEmergency), 
  shows (bds61.AircraftStatusEmergency_ToString m) (aircraft_status_emergency_rows m).
Proof.
  intros. unfold bds61.AircraftStatusEmergency_ToString, aircraft_status_emergency_rows. flat.
  report.
Qed.
Global Hint Resolve aircraft_status_emergency_shows : shows_db.

Lemma aircraft_status_no_information_shows : forall (m : bds61.AircraftStatusNoInformation), 
  shows (bds61.AircraftStatusNoInformation_ToString m) (aircraft_status_no_information_rows m).
Proof.
  intros. unfold bds61.AircraftStatusNoInformation_ToString, aircraft_status_no_information_rows. flat.
  report.
Qed.
Global Hint Resolve aircraft_status_no_information_shows : shows_db.

Lemma shows_num_last : forall z t, one_line t -> shows (dec z ++ " - " ++ t) [("", coded z)].
Proof.
  intros z t O. apply shows_line.
  - exists "", 0%nat, (dec z ++ " - " ++ t). split; [right; reflexivity|]. split; [reflexivity|]. apply dec_numbered.
  - apply one_line_app; [apply line_dec|]. apply one_line_app; [apply lineb_ok; reflexivity|exact O].
Qed.

Lemma sil_shows : forall level, shows (bds65_fields.SurveillanceIntegrityLevel_ToString level) (sil_rows level).
Proof.
  intro z. unfold bds65_fields.SurveillanceIntegrityLevel_ToString, sil_rows, sil_probabilities,
    bds65_fields.silLabelHorizontal, bds65_fields.silLabelVertical,
    bds65_fields.SUILLevel0, bds65_fields.SUILLevel1, bds65_fields.SUILLevel2, bds65_fields.SUILLevel3.
  destruct (z =? 0)%Z eqn:E0; [apply Z.eqb_eq in E0; subst; cbn [Z.leb Z.eqb Z.compare Pos.compare Pos.compare_cont Pos.eqb andb fst snd]; report|].
  destruct (z =? 1)%Z eqn:E1; [apply Z.eqb_eq in E1; subst; cbn [Z.leb Z.eqb Z.compare Pos.compare Pos.compare_cont Pos.eqb andb fst snd]; report|].
  destruct (z =? 2)%Z eqn:E2; [apply Z.eqb_eq in E2; subst; cbn [Z.leb Z.eqb Z.compare Pos.compare Pos.compare_cont Pos.eqb andb fst snd]; report|].
  destruct (z =? 3)%Z eqn:E3; [apply Z.eqb_eq in E3; subst; cbn [Z.leb Z.eqb Z.compare Pos.compare Pos.compare_cont Pos.eqb andb fst snd]; report|].
  destruct (Z.leb 0 z && Z.leb z 3)%bool eqn:B; [exfalso; lia|].
  apply (shows_num_last z "Unknown code"). apply lineb_ok; reflexivity.
Qed.
Global Hint Resolve sil_shows : shows_db.

Lemma sil_inline_shows : forall title lit level rest rows, lit_ok title lit = true -> shows rest rows ->
  shows (lit ++ bds62_fields.SurveillanceIntegrityLevel_ToString level ++ nl ++ rest) (sil_inline_rows title level ++ rows).
Proof.
  intros t lit z rest rows L S. unfold bds62_fields.SurveillanceIntegrityLevel_ToString, sil_inline_rows, sil_probabilities,
    bds62_fields.silLabelHorizontal, bds62_fields.silLabelVertical,
    bds62_fields.SUILLevel0, bds62_fields.SUILLevel1, bds62_fields.SUILLevel2, bds62_fields.SUILLevel3.
  assert (K : forall h v, one_line h -> one_line v ->
    shows (lit ++ (bds62_fields.silLabelHorizontal ++ h ++ nl ++ bds62_fields.silLabelVertical ++ v) ++ nl ++ rest)
      ([(t, titled sil_horizontal (exactly h)); (sil_vertical, exactly v)] ++ rows)).
  { intros h v Oh Ov. rewrite !app_assoc_s. rewrite <- (app_assoc_s bds62_fields.silLabelHorizontal h).
    cbn [List.app]. apply shows_cons; [exact L| | |].
    - apply (titled_ok sil_horizontal _ bds62_fields.silLabelHorizontal h 0); [vm_compute; reflexivity|reflexivity].
    - apply one_line_app; [apply lineb_ok; reflexivity|exact Oh].
    - apply shows_cons; [vm_compute; reflexivity|reflexivity|exact Ov|exact S]. }
  destruct (z =? 0)%Z eqn:E0; [apply Z.eqb_eq in E0; subst; apply K; apply lineb_ok; reflexivity|].
  destruct (z =? 1)%Z eqn:E1; [apply Z.eqb_eq in E1; subst; apply K; apply lineb_ok; reflexivity|].
  destruct (z =? 2)%Z eqn:E2; [apply Z.eqb_eq in E2; subst; apply K; apply lineb_ok; reflexivity|].
  destruct (z =? 3)%Z eqn:E3; [apply Z.eqb_eq in E3; subst; apply K; apply lineb_ok; reflexivity|].
  destruct (Z.leb 0 z && Z.leb z 3)%bool eqn:B; [exfalso; lia|].
  cbn [List.app]. apply shows_cons; [exact L|apply (dec_numbered z "Unknown code")| |exact S].
  apply one_line_app; [apply line_dec|apply lineb_ok; reflexivity].
Qed.

Lemma target_state_and_status0_shows : forall (m : bds62.TargetStateAndStatus0), 
  shows (bds62.TargetStateAndStatus0_ToString m) (target_state_and_status0_rows m).
Proof.
  intros. unfold bds62.TargetStateAndStatus0_ToString, target_state_and_status0_rows. flat.
  cbn [List.app]. report. apply sil_inline_shows; [vm_compute; reflexivity|]. report.
Qed.
Global Hint Resolve target_state_and_status0_shows : shows_db.

Lemma target_state_and_status1_shows : forall ffmt (m : bds62.TargetStateAndStatus1), (forall f, one_line (ffmt f)) -> 
  shows (bds62.TargetStateAndStatus1_ToString ffmt m) (target_state_and_status1_rows ffmt m).
Proof.
  intros. unfold bds62.TargetStateAndStatus1_ToString, target_state_and_status1_rows. flat.
  report.
Qed.
Global Hint Resolve target_state_and_status1_shows : shows_db.

Lemma aircraft_operational_status_adsb0_shows : forall (m : bds65.AircraftOperationalStatusADSB0), 
  shows (bds65.AircraftOperationalStatusADSB0_ToString m) (aircraft_operational_status_adsb0_rows m).
Proof.
  intros. unfold bds65.AircraftOperationalStatusADSB0_ToString, aircraft_operational_status_adsb0_rows. flat.
  report.
Qed.
Global Hint Resolve aircraft_operational_status_adsb0_shows : shows_db.

Lemma aircraft_operational_status_airborne_adsb1_shows : forall (m : bds65.AircraftOperationalStatusAirborneADSB1), 
  shows (bds65.AircraftOperationalStatusAirborneADSB1_ToString m) (aircraft_operational_status_airborne_adsb1_rows m).
Proof.
  intros. unfold bds65.AircraftOperationalStatusAirborneADSB1_ToString, aircraft_operational_status_airborne_adsb1_rows. flat.
  report.
Qed.
Global Hint Resolve aircraft_operational_status_airborne_adsb1_shows : shows_db.

Lemma aircraft_operational_status_airborne_adsb2_shows : forall (m : bds65.AircraftOperationalStatusAirborneADSB2), 
  shows (bds65.AircraftOperationalStatusAirborneADSB2_ToString m) (aircraft_operational_status_airborne_adsb2_rows m).
Proof.
  intros. unfold bds65.AircraftOperationalStatusAirborneADSB2_ToString, aircraft_operational_status_airborne_adsb2_rows. flat.
  report.
Qed.
Global Hint Resolve aircraft_operational_status_airborne_adsb2_shows : shows_db.

Lemma aircraft_operational_status_surface_adsb1_shows : forall (m : bds65.AircraftOperationalStatusSurfaceADSB1), 
  shows (bds65.AircraftOperationalStatusSurfaceADSB1_ToString m) (aircraft_operational_status_surface_adsb1_rows m).
Proof.
  intros. unfold bds65.AircraftOperationalStatusSurfaceADSB1_ToString, aircraft_operational_status_surface_adsb1_rows. flat.
  report.
Qed.
Global Hint Resolve aircraft_operational_status_surface_adsb1_shows : shows_db.

Lemma aircraft_operational_status_surface_adsb2_shows : forall (m : bds65.AircraftOperationalStatusSurfaceADSB2), 
  shows (bds65.AircraftOperationalStatusSurfaceADSB2_ToString m) (aircraft_operational_status_surface_adsb2_rows m).
Proof.
  intros. unfold bds65.AircraftOperationalStatusSurfaceADSB2_ToString, aircraft_operational_status_surface_adsb2_rows. flat.
  report.
Qed.
Global Hint Resolve aircraft_operational_status_surface_adsb2_shows : shows_db.
