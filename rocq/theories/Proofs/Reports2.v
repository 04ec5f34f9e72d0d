(* The texts of the messages show every field: velocities, advisories, and the
   messages returned by the readers. *)
From Verif.Proofs Require Import Tac Octets Labels Texts ReportTools Reports AcasReader.
From Verif.Gen Require bds00 bds05 bds05_fields bds06 bds06_fields bds07 bds07_fields bds08 bds08_fields bds09 bds09_fields bds10 bds10_fields bds17 bds20 bds30
  bds40 bds40_fields bds44 bds44_fields bds45 bds45_fields bds50 bds60 bds61 bds61_fields bds62 bds62_fields bds65 bds65_fields
  modes_fields modes_messages acas_ra acas_ra_fields
  adsb_airborne_position adsb_airborne_position_fields adsb_surface_position adsb_surface_position_fields
  adsb_no_position_information adsb_airborne_velocity adsb_aircraft_status adsb_target_state_and_status
  adsb_aircraft_operational_status adsb_aircraft_identification_and_category bds_register.
From Verif.Model Require Import Crc ModesReader.
From Verif.Model Require AdsbReader CommbReader.
From Verif.Spec Require Import Text Report Reports Acas.
Require Import String Ascii List.
Import ListNotations.
Local Open Scope Z_scope.
Local Open Scope string_scope.

Lemma no_advisory_shows : forall m,
  shows (acas_ra_fields.ActiveRANoVerticalRAGenerated_ToString m) no_advisory_rows.
Proof. intros []. unfold no_advisory_rows. apply shows_const_last. vm_compute. reflexivity. Qed.

Lemma active_advisory_shows : forall m, upward m ->
  shows (acas_ra_fields.IActiveResolutionAdvisory_ToString m) (active_advisory_rows m).
Proof.
  intros [m|m|m] U; try (specialize (U m eq_refl)); cbn [acas_ra_fields.IActiveResolutionAdvisory_ToString active_advisory_rows];
  auto using multiple_threats_shows, one_threat_shows, no_advisory_shows.
Qed.

Lemma no_message_available_shows : forall m,
  shows (bds00.NoMessageAvailable_ToString m) no_message_available_rows.
Proof. intros []. unfold no_message_available_rows. apply shows_const_last. vm_compute. reflexivity. Qed.

(* ---- speed and track ---- *)
Lemma gsn_speed : forall m, exists s, bds09.AirborneVelocityGroundSpeedNormal_toSpeedString m = Ok s /\
  speed_value (bds09.AirborneVelocityGroundSpeedNormal_GetSpeed m) s /\ one_line s.
Proof.
  intro m. unfold bds09.AirborneVelocityGroundSpeedNormal_toSpeedString, bds09.AirborneVelocityGroundSpeedNormal_GetSpeed.
  repeat (destruct (negb _); [eexists; split; [reflexivity|]; split; [eexists; reflexivity|apply lineb_ok; vm_compute; reflexivity]|]).
  eexists. split; [reflexivity|]. split; [reflexivity|].
  apply one_line_app; [apply line_dec|apply lineb_ok; vm_compute; reflexivity].
Qed.
Lemma gss_speed : forall m, exists s, bds09.AirborneVelocityGroundSpeedSupersonic_toSpeedString m = Ok s /\
  speed_value (bds09.AirborneVelocityGroundSpeedSupersonic_GetSpeed m) s /\ one_line s.
Proof.
  intro m. unfold bds09.AirborneVelocityGroundSpeedSupersonic_toSpeedString, bds09.AirborneVelocityGroundSpeedSupersonic_GetSpeed.
  repeat (destruct (negb _); [eexists; split; [reflexivity|]; split; [eexists; reflexivity|apply lineb_ok; vm_compute; reflexivity]|]).
  eexists. split; [reflexivity|]. split; [reflexivity|].
  apply one_line_app; [apply line_dec|apply lineb_ok; vm_compute; reflexivity].
Qed.
Lemma gsn_track : forall ffmt matan2 m, (forall f, one_line (ffmt f)) ->
  exists s, bds09.AirborneVelocityGroundSpeedNormal_toTrackString ffmt matan2 m = Ok s /\
  track_value ffmt (bds09.AirborneVelocityGroundSpeedNormal_GetTrack matan2 m) s /\ one_line s.
Proof.
  intros ffmt matan2 m F. unfold bds09.AirborneVelocityGroundSpeedNormal_toTrackString, bds09.AirborneVelocityGroundSpeedNormal_GetTrack.
  cbv zeta.
  repeat (destruct (negb _); [eexists; split; [reflexivity|]; split; [eexists; reflexivity|apply lineb_ok; vm_compute; reflexivity]|]).
  eexists. split; [reflexivity|]. split; [reflexivity|].
  apply one_line_app; [apply F|apply lineb_ok; vm_compute; reflexivity].
Qed.
Lemma gss_track : forall ffmt matan2 m, (forall f, one_line (ffmt f)) ->
  exists s, bds09.AirborneVelocityGroundSpeedSupersonic_toTrackString ffmt matan2 m = Ok s /\
  track_value ffmt (bds09.AirborneVelocityGroundSpeedSupersonic_GetTrack matan2 m) s /\ one_line s.
Proof.
  intros ffmt matan2 m F. unfold bds09.AirborneVelocityGroundSpeedSupersonic_toTrackString, bds09.AirborneVelocityGroundSpeedSupersonic_GetTrack.
  cbv zeta.
  repeat (destruct (negb _); [eexists; split; [reflexivity|]; split; [eexists; reflexivity|apply lineb_ok; vm_compute; reflexivity]|]).
  eexists. split; [reflexivity|]. split; [reflexivity|].
  apply one_line_app; [apply F|apply lineb_ok; vm_compute; reflexivity].
Qed.

Lemma airborne_velocity_ground_speed_normal_shows : forall ffmt matan2 m, (forall f, one_line (ffmt f)) ->
  exists text, bds09.AirborneVelocityGroundSpeedNormal_ToString ffmt matan2 m = Ok text /\
  shows text (airborne_velocity_ground_speed_normal_rows ffmt matan2 m).
Proof.
  intros ffmt matan2 m F. unfold bds09.AirborneVelocityGroundSpeedNormal_ToString.
  destruct (gsn_speed m) as (s & -> & Vs & Os). destruct (gsn_track ffmt matan2 m F) as (t & -> & Vt & Ot).
  cbn [bind]. eexists. split; [reflexivity|]. unfold airborne_velocity_ground_speed_normal_rows.
  report; try assumption.
Qed.
Lemma airborne_velocity_ground_speed_supersonic_shows : forall ffmt matan2 m, (forall f, one_line (ffmt f)) ->
  exists text, bds09.AirborneVelocityGroundSpeedSupersonic_ToString ffmt matan2 m = Ok text /\
  shows text (airborne_velocity_ground_speed_supersonic_rows ffmt matan2 m).
Proof.
  intros ffmt matan2 m F. unfold bds09.AirborneVelocityGroundSpeedSupersonic_ToString.
  destruct (gss_speed m) as (s & -> & Vs & Os). destruct (gss_track ffmt matan2 m F) as (t & -> & Vt & Ot).
  cbn [bind]. eexists. split; [reflexivity|]. unfold airborne_velocity_ground_speed_supersonic_rows.
  report; try assumption.
Qed.

(* ---- advisories ---- *)
Lemma hex_digit_line : forall z, (0 <= z < 16)%Z -> hex_digit z <> newline.
Proof.
  intros z H. assert (C : List.In z (List.map Z.of_nat (seq 0 16))).
  { apply in_map_iff. exists (Z.to_nat z). split; [lia|]. apply in_seq. lia. }
  cbn in C. repeat (destruct C as [C|C]; [subst z; discriminate|]). destruct C.
Qed.
Lemma line_hex2 : forall z, (0 <= z < 256)%Z -> one_line (hex2 z).
Proof.
  intros z H. unfold hex2. cbn [one_line]. repeat split; apply hex_digit_line; Z.div_mod_to_equations; lia.
Qed.
Lemma u8_range : forall z, (0 <= u8 z < 256)%Z.
Proof. intro z. unfold u8. apply Z.mod_pos_bound. lia. Qed.
Lemma threat_address_line : forall a, one_line (acas_ra_fields.ThreatIdentityAddress_ToString a).
Proof.
  intro a. unfold acas_ra_fields.ThreatIdentityAddress_ToString.
  repeat first [apply one_line_app | apply line_hex2, u8_range | apply lineb_ok; vm_compute; reflexivity].
Qed.

Lemma shows_blank_coded : forall n z w, coded z w -> exists k v, blanks n ++ w = blanks k ++ v /\ coded z v.
Proof. intros n z w H. exists n, w. auto. Qed.

Lemma bearing_line : forall b, one_line (acas_ra_fields.ThreatIdentityBearing_ToString b).
Proof. intro b. one_label. Qed.
Lemma range_line : forall ffmt r, (forall f, one_line (ffmt f)) -> one_line (acas_ra_fields.ThreatIdentityRange_ToString ffmt r).
Proof.
  intros ffmt r F. unfold acas_ra_fields.ThreatIdentityRange_ToString.
  destruct (Z.eqb r 0); [apply lineb_ok; reflexivity|].
  destruct (Z.eqb r 1); [apply lineb_ok; reflexivity|].
  destruct (_ && _)%bool.
  - apply one_line_app; [apply line_dec|]. apply one_line_app; [apply lineb_ok; reflexivity|].
    apply one_line_app; [apply F|apply lineb_ok; reflexivity].
  - destruct (Z.eqb r 127); [apply lineb_ok; reflexivity|].
    apply one_line_app; [apply line_dec|apply lineb_ok; reflexivity].
Qed.
Lemma altitude_line : forall a, one_line (acas_ra_fields.ThreatIdentityAltitude_ToString a).
Proof. intros a. one_label. Qed.

Lemma bearing_shown : forall b, (0 <= b <= 42 \/ 60 < b)%Z -> bearing_value b (acas_ra_fields.ThreatIdentityBearing_ToString b).
Proof.
  intros b H. unfold bearing_value, acas_ra_fields.ThreatIdentityBearing_ToString.
  destruct (Z.eqb_spec b 0) as [E|E].
  - subst. cbn [Z.leb Z.compare andb]. exists 1%nat, "0 - No bearing estimate available". split; [reflexivity|].
    exists "No bearing estimate available". reflexivity.
  - destruct (Z.leb_spec 1 b); [|lia]. destruct (Z.leb_spec b 60); cbn [andb].
    + unfold u8. rewrite (Z.mod_small (b - 1) 256) by lia. rewrite !Z.mod_small by lia.
      rewrite (Z.mul_comm 6), (Z.mul_comm 6). reflexivity.
    + destruct (Z.leb_spec 61 b); [|lia]. destruct (Z.leb_spec b 63); cbn [andb].
      * exists 0%nat. eexists. split; [reflexivity|]. apply dec_numbered.
      * exists 0%nat. eexists. split; [reflexivity|]. apply dec_numbered.
Qed.
Lemma range_shown : forall ffmt r, range_value ffmt r (acas_ra_fields.ThreatIdentityRange_ToString ffmt r).
Proof.
  intros ffmt r. unfold range_value, acas_ra_fields.ThreatIdentityRange_ToString.
  destruct (Z.eqb_spec r 0) as [E|E].
  { subst. cbn [Z.leb Z.compare andb Z.eqb]. exists 1%nat, "0 - No range estimate available". split; [reflexivity|].
    exists "No range estimate available". reflexivity. }
  destruct (Z.eqb_spec r 1) as [E1|E1].
  { subst. cbn [Z.leb Z.compare andb Z.eqb Pos.compare Pos.compare_cont]. exists 1%nat, "1 - Less than 0.05". split; [reflexivity|].
    exists "Less than 0.05". reflexivity. }
  destruct ((2 <=? r) && (r <=? 126))%Z eqn:B; [reflexivity|].
  destruct (Z.eqb_spec r 127) as [E2|E2]; [reflexivity|].
  exists 0%nat. eexists. split; [reflexivity|]. apply dec_numbered.
Qed.

(* the parts that identify the threat agree with the type of the threat *)
Definition consistent (m : acas_ra.ResolutionAdvisory) : Prop :=
  let t := acas_ra.ResolutionAdvisory_ThreatTypeIndicator m in
  match acas_ra.ResolutionAdvisory_ThreatIdentityAddress m, acas_ra.ResolutionAdvisory_ThreatIdentityAltitude m,
        acas_ra.ResolutionAdvisory_ThreatIdentityRange m, acas_ra.ResolutionAdvisory_ThreatIdentityBearing m with
  | None, None, None, None => (t = 0 \/ t = 3)%Z
  | Some a, None, None, None => (t = 1 /\ 0 <= a < 2 ^ 24)%Z
  | None, Some _, Some _, Some b => (t = 2 /\ 0 <= b)%Z
  | _, _, _, _ => False
  end.

Lemma ra_consistent : forall data m, bytes data -> acas_ra.ReadResolutionAdvisory data = Ok m -> consistent m.
Proof.
  intros data m Hb H.
  assert (Hl : len data = 6).
  { unfold acas_ra.ReadResolutionAdvisory in H. destruct (Z.eqb_spec (len data) 6); [assumption|discriminate]. }
  bits_bound 21 22 data. bits_bound 23 46 data. bits_bound 43 48 data.
  assert (bits 21 22 data = 0 \/ bits 21 22 data = 3 \/ bits 21 22 data = 1 \/ bits 21 22 data = 2)%Z as [E|[E|[E|E]]] by lia.
  - rewrite read_ra_no_identity in H by auto. injection H as <-. left. exact E.
  - rewrite read_ra_no_identity in H by auto. injection H as <-. right. exact E.
  - rewrite read_ra_mode_s in H by auto. injection H as <-. split; [exact E|]. change (2 ^ 24)%Z with 16777216%Z. lia.
  - rewrite read_ra_arb in H by auto. destruct (acas_ra_fields.ReadThreatIdentityAltitude data); try discriminate.
    injection H as <-. split; [exact E|]. lia.
Qed.

Lemma shows_more : forall title (p : string -> Prop) lit v rest rows, lit_ok title lit = true -> p v -> one_line v ->
  shows rest rows -> shows (rest ++ nl ++ lit ++ v) (rows ++ [(title, p)])%list.
Proof.
  intros. apply shows_app; [assumption|]. apply shows_last; assumption.
Qed.

Lemma rows_assoc : forall a b c d e f : list row, (a ++ b ++ c ++ d ++ e ++ f)%list = ((a ++ b ++ c ++ d ++ e) ++ f)%list.
Proof. intros. rewrite !app_assoc. reflexivity. Qed.

Lemma ra_shows : forall ffmt m, (forall f, one_line (ffmt f)) -> consistent m -> printable_advisory m ->
  exists text, acas_ra.ResolutionAdvisory_ToString ffmt m = Ok text /\ shows text (resolution_advisory_rows ffmt m).
Proof.
  intros ffmt [ara rac rat mte tti ad al ra be] F C [P U]. unfold consistent in C.
  unfold resolution_advisory_rows.
  cbn [acas_ra.ResolutionAdvisory_ActiveRA acas_ra.ResolutionAdvisory_RAComplement
       acas_ra.ResolutionAdvisory_RATerminatedIndicator acas_ra.ResolutionAdvisory_MultipleThreatEncounter
       acas_ra.ResolutionAdvisory_ThreatTypeIndicator acas_ra.ResolutionAdvisory_ThreatIdentityAddress
       acas_ra.ResolutionAdvisory_ThreatIdentityAltitude acas_ra.ResolutionAdvisory_ThreatIdentityRange
       acas_ra.ResolutionAdvisory_ThreatIdentityBearing] in *.
  (* the common part *)
  set (base := ((("Active Resolution Advisory:" ++ nl)%string ++ (PrefixMultiLine (acas_ra_fields.IActiveResolutionAdvisory_ToString ara) ("    "%string)) ++
      (nl ++ "Active Resolution Advisory Complement:" ++ nl)%string ++ (PrefixMultiLine (acas_ra_fields.RAComplement_ToString rac) ("    "%string)) ++
      (nl ++ "Active Resolution Advisory Terminated Indicator: ")%string ++ (acas_ra_fields.RATerminatedIndicator_ToString rat) ++
      (nl ++ "Multiple Threat Encounter:                       ")%string ++ (acas_ra_fields.MultipleThreatEncounter_ToString mte) ++
      (nl ++ "Threat Type Indicator:                           ")%string ++ (acas_ra_fields.ThreatTypeIndicator_ToString tti)))%string).
  assert (B : shows base ([("Active Resolution Advisory", heading)] ++
    indented 4 (active_advisory_rows ara) ++
    [("Active Resolution Advisory Complement", heading)] ++
    indented 4 (complement_rows rac) ++
    [("Active Resolution Advisory Terminated Indicator", said ["ACAS is currently generating the RA"; "the RA indicated has been terminated"] rat);
     ("Multiple Threat Encounter", said ["One or no threat is currently being processed by the ACAS"; "Two or more threats are currently being processed by the ACAS"] mte);
     ("Threat Type Indicator", coded tti)])%list).
  { unfold base. pose proof (active_advisory_shows ara U). report. }
  assert (T : forall ti, ((("Active Resolution Advisory:" ++ nl)%string ++ (PrefixMultiLine (acas_ra_fields.IActiveResolutionAdvisory_ToString ara) ("    "%string)) ++
      (nl ++ "Active Resolution Advisory Complement:" ++ nl)%string ++ (PrefixMultiLine (acas_ra_fields.RAComplement_ToString rac) ("    "%string)) ++
      (nl ++ "Active Resolution Advisory Terminated Indicator: ")%string ++ (acas_ra_fields.RATerminatedIndicator_ToString rat) ++
      (nl ++ "Multiple Threat Encounter:                       ")%string ++ (acas_ra_fields.MultipleThreatEncounter_ToString mte) ++
      (nl ++ "Threat Type Indicator:                           ")%string ++ (acas_ra_fields.ThreatTypeIndicator_ToString tti) ++ ti))%string = base ++ ti).
  { intro ti. unfold base. rewrite !app_assoc_s. reflexivity. }
  unfold acas_ra.ResolutionAdvisory_ToString. cbv zeta.
  cbn [acas_ra.ResolutionAdvisory_ActiveRA acas_ra.ResolutionAdvisory_RAComplement
       acas_ra.ResolutionAdvisory_RATerminatedIndicator acas_ra.ResolutionAdvisory_MultipleThreatEncounter
       acas_ra.ResolutionAdvisory_ThreatTypeIndicator acas_ra.ResolutionAdvisory_ThreatIdentityAddress
       acas_ra.ResolutionAdvisory_ThreatIdentityAltitude acas_ra.ResolutionAdvisory_ThreatIdentityRange
       acas_ra.ResolutionAdvisory_ThreatIdentityBearing].
  clearbody base.
  rewrite (rows_assoc [("Active Resolution Advisory", heading)]).
  match goal with |- context [@app row ?q (app (optional ad _ _) _)] => set (rows := q) end.
  change (shows base rows) in B. clearbody rows.
  destruct ad as [a|], al as [l|], ra as [r|], be as [b|]; try contradiction; cbn [optional].
  - destruct C as [E A]. subst tti. cbn [is_none negb deref bind].
    change (Z.eqb 1 acas_ra_fields.ThreatTypeNoIdentity) with false.
    change (Z.eqb 1 acas_ra_fields.ThreatTypeModeS) with true. cbn [bind].
    eexists. split; [reflexivity|]. rewrite T, app_assoc_s. cbn [List.app].
    apply shows_app; [exact B|].
    apply shows_last; [vm_compute; reflexivity|left; exact (threat_address_text a A)|apply threat_address_line].
  - destruct C as [E A]. subst tti. cbn [is_none negb deref bind].
    change (Z.eqb 2 acas_ra_fields.ThreatTypeNoIdentity) with false.
    change (Z.eqb 2 acas_ra_fields.ThreatTypeModeS) with false.
    change (Z.eqb 2 acas_ra_fields.ThreatTypeAltitudeRangeBearing) with true. cbn [bind].
    eexists. split; [reflexivity|]. rewrite T, !app_assoc_s. cbn [List.app].
    apply shows_app; [exact B|].
    apply shows_cons; [vm_compute; reflexivity|eexists; split; [reflexivity|saying]|apply altitude_line|].
    apply shows_cons; [vm_compute; reflexivity|apply range_shown|apply range_line; exact F|].
    apply shows_last; [vm_compute; reflexivity|apply bearing_shown|apply bearing_line].
    specialize (P b eq_refl). lia.
  - assert (E : (Z.eqb tti acas_ra_fields.ThreatTypeModeS = false /\ Z.eqb tti acas_ra_fields.ThreatTypeAltitudeRangeBearing = false)%Z).
    { split; apply Z.eqb_neq; unfold acas_ra_fields.ThreatTypeModeS, acas_ra_fields.ThreatTypeAltitudeRangeBearing; lia. }
    destruct E as [-> ->].
    exists base. split; [|cbn [List.app]; rewrite app_nil_r; exact B].
    destruct (Z.eqb tti acas_ra_fields.ThreatTypeNoIdentity); cbn [bind]; rewrite T, app_nil_s; reflexivity.
Qed.
