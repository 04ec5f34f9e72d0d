(* The texts of the messages show every field: velocities, advisories, and the
   messages returned by the readers. *)
From Verif.Proofs Require Import Tac Octets Labels Texts ReportTools Reports Reports2 AcasReader AdsbApi Status61 CommB1 CommBApi.
From Verif.Gen Require bds00 bds05 bds05_fields bds06 bds06_fields bds07 bds07_fields bds08 bds08_fields bds09 bds09_fields bds10 bds10_fields bds17 bds20 bds30
  bds40 bds40_fields bds44 bds44_fields bds45 bds45_fields bds50 bds60 bds61 bds61_fields bds62 bds62_fields bds65 bds65_fields
  modes_fields modes_messages acas_ra acas_ra_fields
  adsb_airborne_position adsb_airborne_position_fields adsb_surface_position adsb_surface_position_fields
  adsb_no_position_information adsb_airborne_velocity adsb_aircraft_status adsb_target_state_and_status
  adsb_aircraft_operational_status adsb_aircraft_identification_and_category bds_register.
From Verif.Model Require Import Crc ModesReader.
From Verif.Model Require AdsbReader CommbReader.
From Verif.Spec Require Import Text Report Reports Adsb Identification AdsbMessages CommBMessages.
Require Import String Ascii List.
Import ListNotations.
Local Open Scope Z_scope.
Local Open Scope string_scope.

Lemma shown_line : forall c, Identification.shown c <> newline.
Proof.
  intro c. unfold Identification.shown, ia5.
  destruct (Z.leb_spec 1 c); cbn [andb].
  - destruct (Z.leb_spec c 26); cbn [andb].
    + assert (C : List.In c (List.map Z.of_nat (seq 1 26))).
      { apply in_map_iff. exists (Z.to_nat c). split; [lia|]. apply in_seq. lia. }
      cbn in C. repeat (destruct C as [C|C]; [subst c; discriminate|]). destruct C.
    + destruct (Z.eqb c 32); [discriminate|].
      destruct (Z.leb_spec 48 c); cbn [andb]; [|discriminate].
      destruct (Z.leb_spec c 57); cbn [andb]; [|discriminate].
      assert (C : List.In c (List.map Z.of_nat (seq 48 10))).
      { apply in_map_iff. exists (Z.to_nat c). split; [lia|]. apply in_seq. lia. }
      cbn in C. repeat (destruct C as [C|C]; [subst c; discriminate|]). destruct C.
  - destruct (Z.eqb_spec c 32); [discriminate|].
    destruct (Z.leb_spec 48 c); cbn [andb]; [lia|discriminate].
Qed.
Lemma shown_text_line : forall l, one_line (Identification.text (List.map Identification.shown l)).
Proof. induction l; cbn [List.map Identification.text one_line]; [exact I|]. split; [apply shown_line|assumption]. Qed.

Lemma acas_report_shows : forall ffmt m text,
  acas_ra.ResolutionAdvisory_ToString ffmt (bds30.ACASResolutionAdvisory_ResolutionAdvisory m) = Ok text ->
  shows text (resolution_advisory_rows ffmt (bds30.ACASResolutionAdvisory_ResolutionAdvisory m)) ->
  exists t, bds30.ACASResolutionAdvisory_ToString ffmt m = Ok t /\ shows t (acas_report_rows ffmt m).
Proof.
  intros ffmt m text E S. unfold bds30.ACASResolutionAdvisory_ToString, acas_report_rows. rewrite E. cbn [bind].
  eexists. split; [reflexivity|]. report. exact S.
Qed.
Lemma aircraft_status_acas_shows : forall ffmt m text,
  acas_ra.ResolutionAdvisory_ToString ffmt (bds61.AircraftStatusACAS_ResolutionAdvisory m) = Ok text ->
  shows text (resolution_advisory_rows ffmt (bds61.AircraftStatusACAS_ResolutionAdvisory m)) ->
  exists t, bds61.AircraftStatusACAS_ToString ffmt m = Ok t /\ shows t (aircraft_status_acas_rows ffmt m).
Proof.
  intros ffmt m text E S. unfold bds61.AircraftStatusACAS_ToString, aircraft_status_acas_rows. rewrite E. cbn [bind].
  eexists. split; [reflexivity|]. report. exact S.
Qed.

(* ---- advisories ---- *)
Theorem ra_report_partial : forall ffmt data m, (forall f, one_line (ffmt f)) -> bytes data ->
  acas_ra.ReadResolutionAdvisory data = Ok m -> printable_advisory m ->
  exists text, acas_ra.ResolutionAdvisory_ToString ffmt m = Ok text /\ shows text (resolution_advisory_rows ffmt m).
Proof. intros. apply ra_shows; try assumption. eapply ra_consistent; eassumption. Qed.

(* ---- ADS-B ---- *)
Lemma velocity_shows : forall ffmt matan2 m, (forall f, one_line (ffmt f)) ->
  exists text, bds09.IAirborneVelocity_ToString ffmt matan2 m = Ok text /\ shows text (velocity_rows ffmt matan2 m).
Proof.
  intros ffmt matan2 [m|m|m|m] F; cbn [bds09.IAirborneVelocity_ToString velocity_rows].
  - apply airborne_velocity_ground_speed_normal_shows; assumption.
  - apply airborne_velocity_ground_speed_supersonic_shows; assumption.
  - eexists. split; [reflexivity|]. apply airborne_velocity_air_speed_normal_shows; assumption.
  - eexists. split; [reflexivity|]. apply airborne_velocity_air_speed_supersonic_shows; assumption.
Qed.

Theorem adsb_report_partial : forall ffmt matan2 v a c data m, (forall f, one_line (ffmt f)) -> bytes data ->
  AdsbReader.ReadADSBMessage v a c data = Ok m ->
  (forall ra, adsb_advisory m = Some ra -> printable_advisory ra) ->
  exists text, AdsbReader.Message_ToString ffmt matan2 m = Ok text /\ shows text (adsb_rows ffmt matan2 m).
Proof.
  intros ffmt matan2 v a c data m F Hb H P. destruct (adsb_kind v a c data m Hb H) as [Hl K].
  destruct m as [m|m|m|m|m|m|m|m|m]; cbn [kind] in K; cbn [AdsbReader.Message_ToString adsb_rows].
  - eexists. split; [reflexivity|]. apply no_position_information_shows.
  - eexists. split; [reflexivity|]. apply airborne_position_type0_shows.
  - eexists. split; [reflexivity|]. apply aircraft_identification_and_category_shows.
    rewrite (identification_ok v a c data Hb Hl K) in H. injection H as <-.
    cbn [adsb_aircraft_identification_and_category.AircraftIdentificationAndCategory_AircraftIdentificationAndCategory identification
         bds08.AircraftIdentificationAndCategory_Identification]. apply shown_text_line.
  - destruct m as [m|m|m]; (eexists; split; [reflexivity|]).
    + apply surface_position_v0_shows; assumption.
    + apply surface_position_v1_shows; assumption.
    + apply surface_position_v2_shows; assumption.
  - destruct m as [m|m|m|m]; (eexists; split; [reflexivity|]).
    + apply airborne_position_type0_shows.
    + apply airborne_position_v0_shows.
    + apply airborne_position_v1_shows.
    + apply airborne_position_v2_shows.
  - unfold adsb_airborne_velocity.AirborneVelocity_ToString.
    destruct (velocity_shows ffmt matan2 (adsb_airborne_velocity.AirborneVelocity_AirborneVelocity m) F) as (t & E & S).
    exists t. split; [|exact S]. rewrite E. reflexivity.
  - unfold adsb_aircraft_status.AircraftStatus_ToString. destruct m as [x w].
    cbn [adsb_aircraft_status.AircraftStatus_AircraftStatus].
    rewrite read_status in H by assumption.
    destruct x as [y|y|y]; cbn [bds61.IAircraftStatus_ToString bind].
    + eexists. split; [reflexivity|]. apply aircraft_status_no_information_shows.
    + eexists. split; [reflexivity|]. apply aircraft_status_emergency_shows.
    + inversion_clear K as [ | | | | | | TC | | ]. rewrite (read_bds61_code data Hb Hl TC) in H.
      destruct (Z.eqb (bits 6 8 data) 0); [destruct (Z.eqb (bits 12 16 data) 0); discriminate|].
      destruct (Z.eqb (bits 6 8 data) 1); [destruct (Z.eqb (bits 25 56 data) 0); discriminate|].
      destruct (Z.eqb (bits 6 8 data) 2); [|discriminate].
      destruct (acas_ra.ReadResolutionAdvisory (octets 2 7 data)) as [ra|e|] eqn:R; cbn [rmap] in H; try discriminate.
      injection H as H _. 
      destruct (ra_report_partial ffmt (octets 2 7 data) ra F) as (t & E & S).
      { apply octets_bytes; assumption. } { exact R. }
      { apply P. cbn. rewrite <- H. reflexivity. }
      assert (Y : bds61.AircraftStatusACAS_ResolutionAdvisory y = ra) by (rewrite <- H; reflexivity).
      clear H. rewrite <- Y in E, S.
      destruct (aircraft_status_acas_shows ffmt y t E S) as (t' & E' & S').
      exists t'. rewrite E'. split; [reflexivity|exact S'].
  - destruct m as [x w]. cbn [adsb_target_state_and_status.TargetStateAndStatus_TargetStateAndStatus].
    destruct x as [y|y]; (eexists; split; [reflexivity|]).
    + apply target_state_and_status0_shows.
    + apply target_state_and_status1_shows. assumption.
  - destruct m as [x w]. cbn [adsb_aircraft_operational_status.AircraftOperationalStatus_AircraftOperationalStatus].
    destruct x as [y|y|y|y|y]; (eexists; split; [reflexivity|]).
    + apply aircraft_operational_status_adsb0_shows.
    + apply aircraft_operational_status_airborne_adsb1_shows.
    + apply aircraft_operational_status_airborne_adsb2_shows.
    + apply aircraft_operational_status_surface_adsb1_shows.
    + apply aircraft_operational_status_surface_adsb2_shows.
Qed.

(* ---- Comm-B ---- *)
Theorem commb_report_partial : forall ffmt data l m, (forall f, one_line (ffmt f)) -> bytes data ->
  CommbReader.ReadCommBMessage data = Ok l -> List.In m l ->
  (forall ra, commb_advisory m = Some ra -> printable_advisory ra) ->
  (forall x, m = CommbReader.B10 x -> bds10.DataLinkCapabilityReport_ContinuationFlag x = bds10.DataLinkCapabilityReport_OverlayCommandCapability x) ->
  exists text, CommbReader.Message_ToString ffmt m = Ok text /\ shows text (commb_rows ffmt m).
Proof.
  intros ffmt data l m F Hb H I P Q. destruct (commb_sound data l m Hb H I) as [D _].
  assert (Hl : len data = 7).
  { destruct (Z.eq_dec (len data) 7) as [E|E]; [exact E|]. destruct (proj2 (proj2 (commb_total data Hb)) E). congruence. }
  destruct m as [m|m|m|m|m|m|m|m|m|m|m]; cbn [decodes] in D; cbn [CommbReader.Message_ToString commb_rows].
  - eexists. split; [reflexivity|]. apply no_message_available_shows.
  - eexists. split; [reflexivity|]. apply squitter_status_shows.
  - eexists. split; [reflexivity|]. apply data_link_capability_report_shows. apply Q. reflexivity.
  - eexists. split; [reflexivity|]. apply gicb_capability_report_shows.
  - eexists. split; [reflexivity|]. apply aircraft_identification_shows.
    apply read_bds20_iff in D; [|assumption..]. destruct D as [_ ->]. apply shown_text_line.
  - apply read_bds30 in D; [|assumption..]. destruct D as [_ D].
    destruct (ra_report_partial ffmt (octets 2 7 data) _ F ltac:(apply octets_bytes; assumption) D (P _ eq_refl)) as (t & E & S).
    eapply acas_report_shows; eassumption.
  - eexists. split; [reflexivity|]. apply selected_vertical_intention_shows. assumption.
  - destruct m as [m|m|m]; (eexists; split; [reflexivity|]).
    + apply meteorological_routine_air_report_v0_shows. assumption.
    + apply meteorological_routine_air_report_v1_shows. assumption.
    + apply meteorological_routine_air_report_v2_shows. assumption.
  - destruct m as [m|m]; (eexists; split; [reflexivity|]).
    + apply meteorological_hazard_report_v0_shows. assumption.
    + apply meteorological_hazard_report_v1_shows. assumption.
  - eexists. split; [reflexivity|]. apply track_and_turn_report_shows. assumption.
  - eexists. split; [reflexivity|]. apply heading_and_track_report_shows. assumption.
Qed.

(* ---- where the texts are wrong ---- *)
Lemma lines_split : forall text ls, has_lines text ls -> split_lines text = ls.
Proof.
  intros text ls (N & F & ->). revert N. induction F as [|l ls O F IH]; intro N; [congruence|].
  destruct ls as [|l' ls].
  - cbn. apply split_one. exact O.
  - change (text_of_lines (l :: l' :: ls)) with (l ++ String newline (text_of_lines (l' :: ls))).
    rewrite split_cons by exact O. rewrite IH by discriminate. reflexivity.
Qed.

Lemma shows_nth : forall text rows k, shows text rows -> (k < List.length rows)%nat ->
  line_for (nth k rows ("", heading)) (nth k (split_lines text) "").
Proof.
  intros text rows k (ls & H & F) K. rewrite (lines_split _ _ H). clear H. revert k K.
  induction F; intros k K; [cbn in K; lia|]. destruct k; [assumption|]. apply IHF. cbn in K. lia.
Qed.

(* blanks before one of two different words: the two texts differ *)
Ltac no_row E := repeat match type of E with
  | _ => discriminate E
  | context [blanks ?n] => is_var n; destruct n as [|n]; cbn in E
  | _ => progress (injection E as E)
  end.

(* the bearing of a threat between 354 and 360 degrees *)
Definition far_threat : list Z := [0x80; 0x00; 0x08; 0x00; 0x00; 0x3C].
Theorem ra_report_refuted : exists data m text, bytes data /\ acas_ra.ReadResolutionAdvisory data = Ok m /\
  forall ffmt, acas_ra.ResolutionAdvisory_ToString ffmt m = Ok text /\ ~ shows text (resolution_advisory_rows ffmt m).
Proof.
  exists far_threat. do 2 eexists. split; [repeat constructor; unfold byte; lia|]. split; [vm_compute; reflexivity|].
  intro ffmt. split; [vm_compute; reflexivity|]. intro S.
  pose proof (shows_nth _ _ 18 S ltac:(vm_compute; lia)) as L. clear S.
  destruct L as (colon & n & v & C & E & V). vm_compute in V. subst v. vm_compute nth in E.
  destruct C as [-> | ->]; cbn in E; no_row E.
Qed.

(* an advisory to descend is printed as upward *)
Definition downward_advisory : list Z := [0xA0; 0x00; 0x00; 0x00; 0x00; 0x00].
Theorem ra_sense_refuted : exists data m text, bytes data /\ acas_ra.ReadResolutionAdvisory data = Ok m /\
  forall ffmt, acas_ra.ResolutionAdvisory_ToString ffmt m = Ok text /\ ~ shows text (resolution_advisory_rows ffmt m).
Proof.
  exists downward_advisory. do 2 eexists. split; [repeat constructor; unfold byte; lia|]. split; [vm_compute; reflexivity|].
  intro ffmt. split; [vm_compute; reflexivity|]. intro S.
  pose proof (shows_nth _ _ 3 S ltac:(vm_compute; lia)) as L. clear S.
  destruct L as (colon & n & v & C & E & V). vm_compute in V. subst v. vm_compute nth in E.
  destruct C as [-> | ->]; cbn in E; no_row E.
Qed.

Definition far_threat_status : list Z := [0xE2; 0x80; 0x00; 0x08; 0x00; 0x00; 0x3C].
Theorem adsb_report_refuted : exists data m text, bytes data /\ AdsbReader.ReadADSBMessage 2 false false data = Ok m /\
  forall ffmt matan2, AdsbReader.Message_ToString ffmt matan2 m = Ok text /\ ~ shows text (adsb_rows ffmt matan2 m).
Proof.
  exists far_threat_status. do 2 eexists. split; [repeat constructor; unfold byte; lia|]. split; [vm_compute; reflexivity|].
  intros ffmt matan2. split; [vm_compute; reflexivity|]. intro S.
  match type of S with shows ?t ?r => let n := eval vm_compute in (List.length (List.map fst r) - 1)%nat in
    pose proof (shows_nth _ _ n S ltac:(vm_compute; lia)) as L end. clear S.
  destruct L as (colon & n & v & C & E & V). vm_compute in V. subst v. vm_compute nth in E.
  destruct C as [-> | ->]; cbn in E; no_row E.
Qed.

(* a data link capability report followed by other reports *)
Definition continued_report : list Z := [0x10; 0x80; 0; 0; 0; 0; 0].
Theorem commb_report_refuted : exists data l m text, bytes data /\ CommbReader.ReadCommBMessage data = Ok l /\ List.In m l /\
  forall ffmt, CommbReader.Message_ToString ffmt m = Ok text /\ ~ shows text (commb_rows ffmt m).
Proof.
  exists continued_report. do 3 eexists. split; [repeat constructor; unfold byte; lia|]. split; [vm_compute; reflexivity|].
  split; [left; reflexivity|].
  intro ffmt. split; [vm_compute; reflexivity|]. intro S.
  pose proof (shows_nth _ _ 1 S ltac:(vm_compute; lia)) as L. clear S.
  destruct L as (colon & n & v & C & E & V). destruct V as [w ->]. vm_compute nth in E.
  destruct C as [-> | ->]; cbn in E; no_row E.
Qed.

(* ---- concrete cases meeting the hypotheses ---- *)
(* a threat at 4.0 NM, between 54 and 60 degrees *)
Definition near_threat : list Z := [0xC4; 0x00; 0x08; 0x00; 0x14; 0x8A].
Theorem ra_report_example : exists m, bytes near_threat /\ acas_ra.ReadResolutionAdvisory near_threat = Ok m /\
  acas_ra.ResolutionAdvisory_ThreatIdentityBearing m = Some 10%Z /\ printable_advisory m.
Proof.
  eexists. split; [repeat constructor; unfold byte; lia|]. split; [vm_compute; reflexivity|]. split; [reflexivity|].
  split; [intros b E; injection E as <-; lia|]. intros x E. injection E as <-. reflexivity.
Qed.

Definition near_threat_status : list Z := [0xE2; 0xC4; 0x00; 0x08; 0x00; 0x14; 0x8A].
Theorem adsb_report_example : exists m ra, bytes near_threat_status /\
  AdsbReader.ReadADSBMessage 2 false false near_threat_status = Ok m /\
  adsb_advisory m = Some ra /\ printable_advisory ra.
Proof.
  do 2 eexists. split; [repeat constructor; unfold byte; lia|]. split; [vm_compute; reflexivity|]. split; [reflexivity|].
  split; [intros b E; injection E as <-; lia|]. intros x E. injection E as <-. reflexivity.
Qed.

(* a report without continuation, read along with a capability report *)
Definition capability_report : list Z := [0x10; 0; 0; 0; 0; 0; 0].
Theorem commb_report_example : exists l x, bytes capability_report /\
  CommbReader.ReadCommBMessage capability_report = Ok l /\ List.In (CommbReader.B10 x) l /\ (2 <= List.length l)%nat /\
  bds10.DataLinkCapabilityReport_ContinuationFlag x = bds10.DataLinkCapabilityReport_OverlayCommandCapability x.
Proof.
  do 2 eexists. split; [repeat constructor; unfold byte; lia|]. split; [vm_compute; reflexivity|].
  split; [left; reflexivity|]. split; [vm_compute; lia|reflexivity].
Qed.
