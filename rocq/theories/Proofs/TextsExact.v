(* The texts of the advisories are right exactly when they are printable: the conditions of the theorems of ReportsApi are necessary. *)
From Verif.Proofs Require Import Tac Octets Labels Texts ReportTools Reports Reports2 AcasReader AdsbApi Status61 CommB1 CommBApi ReportsApi.
From Verif.Spec Require Acas.
From Verif.Gen Require bds00 bds05 bds05_fields bds06 bds06_fields bds07 bds07_fields bds08 bds08_fields bds09 bds09_fields bds10 bds10_fields bds17 bds20 bds30
  bds40 bds40_fields bds44 bds44_fields bds45 bds45_fields bds50 bds60 bds61 bds61_fields bds62 bds62_fields bds65 bds65_fields
  modes_fields modes_messages acas_ra acas_ra_fields
  adsb_airborne_position adsb_airborne_position_fields adsb_surface_position adsb_surface_position_fields
  adsb_no_position_information adsb_airborne_velocity adsb_aircraft_status adsb_target_state_and_status
  adsb_aircraft_operational_status adsb_aircraft_identification_and_category bds_register.
From Verif.Model Require Import Crc ModesReader.
From Verif.Model Require AdsbReader CommbReader.
From Verif.Spec Require Import Text Report Reports Adsb Identification AdsbMessages CommBMessages.
Require Import String Ascii List.
Import ListNotations.
Local Open Scope Z_scope.
Local Open Scope string_scope.


(* what is printed, right or wrong: the sense as upward, the sector computed on 8 bits *)
Definition built_active (a : acas_ra_fields.ActiveResolutionAdvisory) : acas_ra_fields.ActiveResolutionAdvisory :=
  match a with
  | acas_ra_fields.IActiveResolutionAdvisory_ActiveRAOneThreatOrSameSeparation x =>
      acas_ra_fields.IActiveResolutionAdvisory_ActiveRAOneThreatOrSameSeparation
        {| acas_ra_fields.ActiveRAOneThreatOrSameSeparation_PreventiveCorrective := acas_ra_fields.ActiveRAOneThreatOrSameSeparation_PreventiveCorrective x;
           acas_ra_fields.ActiveRAOneThreatOrSameSeparation_Sense := 0;
           acas_ra_fields.ActiveRAOneThreatOrSameSeparation_IsIncreasedRate := acas_ra_fields.ActiveRAOneThreatOrSameSeparation_IsIncreasedRate x;
           acas_ra_fields.ActiveRAOneThreatOrSameSeparation_IsSenseReversal := acas_ra_fields.ActiveRAOneThreatOrSameSeparation_IsSenseReversal x;
           acas_ra_fields.ActiveRAOneThreatOrSameSeparation_IsAltitudeCrossing := acas_ra_fields.ActiveRAOneThreatOrSameSeparation_IsAltitudeCrossing x;
           acas_ra_fields.ActiveRAOneThreatOrSameSeparation_VerticalSpeedLimitOrPositive := acas_ra_fields.ActiveRAOneThreatOrSameSeparation_VerticalSpeedLimitOrPositive x |}
  | _ => a
  end.
Lemma built_active_shows : forall a, shows (acas_ra_fields.IActiveResolutionAdvisory_ToString a) (active_advisory_rows (built_active a)).
Proof.
  intro a. replace (acas_ra_fields.IActiveResolutionAdvisory_ToString a) with (acas_ra_fields.IActiveResolutionAdvisory_ToString (built_active a))
    by (destruct a as [[]|[]|[]]; reflexivity).
  apply active_advisory_shows. destruct a as [[]|[]|[]]; intros x E; try discriminate E; injection E as <-; reflexivity.
Qed.

Definition built_rows (ffmt : spec_float -> string) (m : acas_ra.ResolutionAdvisory) : list row :=
  [("Active Resolution Advisory", heading)] ++
  indented 4 (active_advisory_rows (built_active (acas_ra.ResolutionAdvisory_ActiveRA m))) ++
  [("Active Resolution Advisory Complement", heading)] ++
  indented 4 (complement_rows (acas_ra.ResolutionAdvisory_RAComplement m)) ++
  [("Active Resolution Advisory Terminated Indicator", said ["ACAS is currently generating the RA"; "the RA indicated has been terminated"] (acas_ra.ResolutionAdvisory_RATerminatedIndicator m));
   ("Multiple Threat Encounter", said ["One or no threat is currently being processed by the ACAS"; "Two or more threats are currently being processed by the ACAS"] (acas_ra.ResolutionAdvisory_MultipleThreatEncounter m));
   ("Threat Type Indicator", coded (acas_ra.ResolutionAdvisory_ThreatTypeIndicator m))] ++
  optional (acas_ra.ResolutionAdvisory_ThreatIdentityAddress m) "Threat Mode-S Identity" address_text ++
  optional (acas_ra.ResolutionAdvisory_ThreatIdentityAltitude m) "Threat Altitude"
    (fun a v => exists status, v = (numeral (acas_ra_fields.ThreatIdentityAltitude_AltitudeInFeet a) ++ " ft / Status: " ++ status)%string /\
       said ["Not Available or Invalid"; "Valid"] (acas_ra_fields.ThreatIdentityAltitude_AltitudeStatus a) status) ++
  optional (acas_ra.ResolutionAdvisory_ThreatIdentityRange m) "Threat Range"
    (range_value ffmt) ++
  optional (acas_ra.ResolutionAdvisory_ThreatIdentityBearing m) "Threat Bearing"
    (fun b => exactly (acas_ra_fields.ThreatIdentityBearing_ToString b)).

Lemma ra_built : forall ffmt m, (forall f, one_line (ffmt f)) -> consistent m ->
  exists text, acas_ra.ResolutionAdvisory_ToString ffmt m = Ok text /\ shows text (built_rows ffmt m).
Proof.
  intros ffmt [ara rac rat mte tti ad al ra be] F C. unfold consistent in C.
  unfold built_rows.
  cbn [acas_ra.ResolutionAdvisory_ActiveRA acas_ra.ResolutionAdvisory_RAComplement
       acas_ra.ResolutionAdvisory_RATerminatedIndicator acas_ra.ResolutionAdvisory_MultipleThreatEncounter
       acas_ra.ResolutionAdvisory_ThreatTypeIndicator acas_ra.ResolutionAdvisory_ThreatIdentityAddress
       acas_ra.ResolutionAdvisory_ThreatIdentityAltitude acas_ra.ResolutionAdvisory_ThreatIdentityRange
       acas_ra.ResolutionAdvisory_ThreatIdentityBearing] in *.
  (* the common part *)
  set (base := ((("Active Resolution Advisory:" ++ nl)%string ++ (PrefixMultiLine (acas_ra_fields.IActiveResolutionAdvisory_ToString ara) ("    "%string)) ++
      (nl ++ "Active Resolution Advisory Complement:" ++ nl)%string ++ (PrefixMultiLine (acas_ra_fields.RAComplement_ToString rac) ("    "%string)) ++
      (nl ++ "Active Resolution Advisory Terminated Indicator: ")%string ++ (acas_ra_fields.RATerminatedIndicator_ToString rat) ++
      (nl ++ "Multiple Threat Encounter:                       ")%string ++ (acas_ra_fields.MultipleThreatEncounter_ToString mte) ++
      (nl ++ "Threat Type Indicator:                           ")%string ++ (acas_ra_fields.ThreatTypeIndicator_ToString tti)))%string).
  assert (B : shows base ([("Active Resolution Advisory", heading)] ++
    indented 4 (active_advisory_rows (built_active ara)) ++
    [("Active Resolution Advisory Complement", heading)] ++
    indented 4 (complement_rows rac) ++
    [("Active Resolution Advisory Terminated Indicator", said ["ACAS is currently generating the RA"; "the RA indicated has been terminated"] rat);
     ("Multiple Threat Encounter", said ["One or no threat is currently being processed by the ACAS"; "Two or more threats are currently being processed by the ACAS"] mte);
     ("Threat Type Indicator", coded tti)])%list).
  { unfold base. pose proof (built_active_shows ara). report. }
  assert (T : forall ti, ((("Active Resolution Advisory:" ++ nl)%string ++ (PrefixMultiLine (acas_ra_fields.IActiveResolutionAdvisory_ToString ara) ("    "%string)) ++
      (nl ++ "Active Resolution Advisory Complement:" ++ nl)%string ++ (PrefixMultiLine (acas_ra_fields.RAComplement_ToString rac) ("    "%string)) ++
      (nl ++ "Active Resolution Advisory Terminated Indicator: ")%string ++ (acas_ra_fields.RATerminatedIndicator_ToString rat) ++
      (nl ++ "Multiple Threat Encounter:                       ")%string ++ (acas_ra_fields.MultipleThreatEncounter_ToString mte) ++
      (nl ++ "Threat Type Indicator:                           ")%string ++ (acas_ra_fields.ThreatTypeIndicator_ToString tti) ++ ti))%string = base ++ ti).
  { intro ti. unfold base. rewrite !app_assoc_s. reflexivity. }
  unfold acas_ra.ResolutionAdvisory_ToString. cbv zeta.
  cbn [acas_ra.ResolutionAdvisory_ActiveRA acas_ra.ResolutionAdvisory_RAComplement
       acas_ra.ResolutionAdvisory_RATerminatedIndicator acas_ra.ResolutionAdvisory_MultipleThreatEncounter
       acas_ra.ResolutionAdvisory_ThreatTypeIndicator acas_ra.ResolutionAdvisory_ThreatIdentityAddress
       acas_ra.ResolutionAdvisory_ThreatIdentityAltitude acas_ra.ResolutionAdvisory_ThreatIdentityRange
       acas_ra.ResolutionAdvisory_ThreatIdentityBearing].
  clearbody base.
  rewrite (rows_assoc [("Active Resolution Advisory", heading)]).
  match goal with |- context [@app row ?q (app (optional ad _ _) _)] => set (rows := q) end.
  change (shows base rows) in B. clearbody rows.
  destruct ad as [a|], al as [l|], ra as [r|], be as [b|]; try contradiction; cbn [optional].
  - destruct C as [E A]. subst tti. cbn [is_none negb deref bind].
    change (Z.eqb 1 acas_ra_fields.ThreatTypeNoIdentity) with false.
    change (Z.eqb 1 acas_ra_fields.ThreatTypeModeS) with true. cbn [bind].
    eexists. split; [reflexivity|]. rewrite T, app_assoc_s. cbn [List.app].
    apply shows_app; [exact B|].
    apply shows_last; [vm_compute; reflexivity|left; exact (threat_address_text a A)|apply threat_address_line].
  - destruct C as [E A]. subst tti. cbn [is_none negb deref bind].
    change (Z.eqb 2 acas_ra_fields.ThreatTypeNoIdentity) with false.
    change (Z.eqb 2 acas_ra_fields.ThreatTypeModeS) with false.
    change (Z.eqb 2 acas_ra_fields.ThreatTypeAltitudeRangeBearing) with true. cbn [bind].
    eexists. split; [reflexivity|]. rewrite T, !app_assoc_s. cbn [List.app].
    apply shows_app; [exact B|].
    apply shows_cons; [vm_compute; reflexivity|eexists; split; [reflexivity|saying]|apply altitude_line|].
    apply shows_cons; [vm_compute; reflexivity|apply range_shown|apply range_line; exact F|].
    apply shows_last; [vm_compute; reflexivity|reflexivity|apply bearing_line].
  - assert (E : (Z.eqb tti acas_ra_fields.ThreatTypeModeS = false /\ Z.eqb tti acas_ra_fields.ThreatTypeAltitudeRangeBearing = false)%Z).
    { split; apply Z.eqb_neq; unfold acas_ra_fields.ThreatTypeModeS, acas_ra_fields.ThreatTypeAltitudeRangeBearing; lia. }
    destruct E as [-> ->].
    exists base. split; [|cbn [List.app]; rewrite app_nil_r; exact B].
    destruct (Z.eqb tti acas_ra_fields.ThreatTypeNoIdentity); cbn [bind]; rewrite T, app_nil_s; reflexivity.
Qed.

(* ---- two rows for the same line ---- *)
Definition solid (s : string) : Prop := match s with String c _ => c <> " "%char /\ c <> ":"%char | EmptyString => False end.
Lemma app_inj : forall t a b : string, t ++ a = t ++ b -> a = b.
Proof. induction t; cbn; intros a0 b H; [exact H|]. injection H as H. auto. Qed.
Lemma blanks_inj : forall n k x y, solid x -> solid y -> blanks n ++ x = blanks k ++ y -> x = y.
Proof.
  induction n; intros k x y X Y H.
  - destruct k; [exact H|]. cbn in H. subst x. cbn in X. destruct X. congruence.
  - destruct k; cbn in H; [subst y; cbn in Y; destruct Y; congruence|]. injection H as H. eauto.
Qed.
Lemma no_colon : forall n k x y, solid y -> String ":" (blanks n ++ x) <> blanks k ++ y.
Proof. intros n [|k] x y Y H; cbn in H; [|discriminate H]. subst y. destruct Y. congruence. Qed.
Lemma same_value : forall t l x y, solid x -> solid y -> line_for (t, exactly x) l -> line_for (t, exactly y) l -> x = y.
Proof.
  intros t l x y X Y (c & n & v & C & -> & V) (c' & n' & v' & C' & E & V'). cbn [fst snd] in *. unfold exactly in V, V'. subst v v'.
  apply app_inj in E. destruct C as [-> | ->], C' as [-> | ->]; cbn [String.append] in E.
  - injection E as E. exact (blanks_inj _ _ _ _ X Y E).
  - destruct (no_colon _ _ _ _ Y E).
  - symmetry in E. destruct (no_colon _ _ _ _ X E).
  - exact (blanks_inj _ _ _ _ X Y E).
Qed.

Lemma shows_both : forall text r r', shows text r -> shows text r' ->
  Forall2 (fun a b => exists l, line_for a l /\ line_for b l) r r'.
Proof.
  intros text r r' (ls & L & F) (ls' & L' & F'). pose proof (lines_split _ _ L) as E. rewrite (lines_split _ _ L') in E. subst ls'.
  clear L L'. revert r' F'. induction F; intros r' F'; inversion F'; subst; constructor; eauto.
Qed.
Lemma forall2_drop : forall A B (P : A -> B -> Prop) l l' m m', List.length l = List.length l' -> Forall2 P (l ++ m) (l' ++ m') -> Forall2 P l l' /\ Forall2 P m m'.
Proof.
  intros A B P. induction l; intros [|b l'] m m' N F; try discriminate N; cbn in F; [auto|].
  inversion F; subst. injection N as N. destruct (IHl _ _ _ N H4). auto.
Qed.

(* the advisory read has a sense of 0 or 1 *)
Lemma sense_bit : forall data m x, bytes data -> acas_ra.ReadResolutionAdvisory data = Ok m ->
  acas_ra.ResolutionAdvisory_ActiveRA m = acas_ra_fields.IActiveResolutionAdvisory_ActiveRAOneThreatOrSameSeparation x ->
  (acas_ra_fields.ActiveRAOneThreatOrSameSeparation_Sense x = 0 \/ acas_ra_fields.ActiveRAOneThreatOrSameSeparation_Sense x = 1)%Z.
Proof.
  intros data m x Hb H K.
  assert (Hl : len data = 6).
  { unfold acas_ra.ReadResolutionAdvisory in H. destruct (Z.eqb_spec (len data) 6); [assumption|discriminate]. }
  assert (A : acas_ra.ResolutionAdvisory_ActiveRA m = Acas.active_ra data).
  { bits_bound 21 22 data.
    assert (bits 21 22 data = 0 \/ bits 21 22 data = 3 \/ bits 21 22 data = 1 \/ bits 21 22 data = 2)%Z as [E|[E|[E|E]]] by lia.
    - rewrite read_ra_no_identity in H by auto. injection H as <-. reflexivity.
    - rewrite read_ra_no_identity in H by auto. injection H as <-. reflexivity.
    - rewrite read_ra_mode_s in H by auto. injection H as <-. reflexivity.
    - rewrite read_ra_arb in H by auto. destruct (acas_ra_fields.ReadThreatIdentityAltitude data); try discriminate.
      injection H as <-. reflexivity. }
  rewrite A in K. unfold Acas.active_ra in K. destruct (bit 1 data); [|destruct (bit 20 data); discriminate K].
  injection K as <-. cbn. bits_bound 3 3 data. lia.
Qed.

Lemma sector_wrong : forall b, (42 < b <= 60)%Z -> exists x y, acas_ra_fields.ThreatIdentityBearing_ToString b = x /\ solid x /\
  bearing_value b = exactly y /\ solid y /\ x <> y.
Proof.
  intros b B.
  assert (b = 43 \/ b = 44 \/ b = 45 \/ b = 46 \/ b = 47 \/ b = 48 \/ b = 49 \/ b = 50 \/ b = 51 \/ b = 52 \/ b = 53 \/ b = 54 \/ b = 55 \/ b = 56 \/ b = 57 \/ b = 58 \/ b = 59 \/ b = 60)%Z as C by lia.
  repeat (destruct C as [C|C]; [subst b; do 2 eexists; split; [vm_compute; reflexivity|]; split; [split; discriminate|]; split; [vm_compute; reflexivity|]; split; [split; discriminate|discriminate]|]).
  subst b; do 2 eexists; split; [vm_compute; reflexivity|]; split; [split; discriminate|]; split; [vm_compute; reflexivity|]; split; [split; discriminate|discriminate].
Qed.

(* a text that shows both what is printed and what should be *)
Lemma right_printable : forall ffmt data m head text, bytes data -> acas_ra.ReadResolutionAdvisory data = Ok m ->
  shows text (head ++ built_rows ffmt m)%list -> shows text (head ++ resolution_advisory_rows ffmt m)%list -> printable_advisory m.
Proof.
  intros ffmt data m head text Hb H S S'. pose proof (shows_both _ _ _ S S') as F. clear S S'.
  apply forall2_drop in F; [|reflexivity]. destruct F as [_ F].
  pose proof (sense_bit data m) as SB. pose proof (ra_consistent data m Hb H) as C. specialize (fun x => SB x Hb H).
  destruct m as [ara rac rat mte tti ad al ra be]. unfold consistent in C. unfold built_rows, resolution_advisory_rows in F.
  cbn [acas_ra.ResolutionAdvisory_ActiveRA acas_ra.ResolutionAdvisory_RAComplement
       acas_ra.ResolutionAdvisory_RATerminatedIndicator acas_ra.ResolutionAdvisory_MultipleThreatEncounter
       acas_ra.ResolutionAdvisory_ThreatTypeIndicator acas_ra.ResolutionAdvisory_ThreatIdentityAddress
       acas_ra.ResolutionAdvisory_ThreatIdentityAltitude acas_ra.ResolutionAdvisory_ThreatIdentityRange
       acas_ra.ResolutionAdvisory_ThreatIdentityBearing] in *.
  apply forall2_drop in F; [|reflexivity]. destruct F as [_ F].
  apply forall2_drop in F; [|destruct ara as [[]|[]|[]]; reflexivity]. destruct F as [FA F].
  apply forall2_drop in F; [|reflexivity]. destruct F as [_ F].
  apply forall2_drop in F; [|reflexivity]. destruct F as [_ F].
  apply forall2_drop in F; [|reflexivity]. destruct F as [_ F].
  apply forall2_drop in F; [|reflexivity]. destruct F as [_ F].
  apply forall2_drop in F; [|reflexivity]. destruct F as [_ F].
  apply forall2_drop in F; [|reflexivity]. destruct F as [_ F].
  split; cbn [acas_ra.ResolutionAdvisory_ThreatIdentityBearing acas_ra.ResolutionAdvisory_ActiveRA].
  - intros b ->. cbn [optional] in F. inversion F as [|? ? ? ? (l & L & L') _]; subst.
    destruct (Z_le_gt_dec b 42) as [B|B]; [left; exact B|]. destruct (Z_le_gt_dec b 60) as [B'|B']; [|right; lia]. exfalso.
    destruct (sector_wrong b ltac:(lia)) as (x & y & X & SX & Y & SY & N). rewrite X in L. rewrite Y in L'.
    exact (N (same_value _ _ _ _ SX SY L L')).
  - intros x ->. destruct (SB x eq_refl) as [Z|Z]; [exact Z|]. exfalso.
    cbn [built_active active_advisory_rows] in FA. unfold one_threat_rows in FA. cbn [indented List.map fst snd] in FA.
    cbn [acas_ra_fields.ActiveRAOneThreatOrSameSeparation_Sense] in FA. rewrite Z in FA.
    inversion FA as [|? ? ? ? _ F1]; subst. inversion F1 as [|? ? ? ? _ F2]; subst. inversion F2 as [|? ? ? ? (l & L & L') _]; subst.
    change (said ["Upward"; "Downward"] 0) with (exactly "Upward") in L. change (said ["Upward"; "Downward"] 1) with (exactly "Downward") in L'.
    assert (N : "Upward" = "Downward") by (apply (same_value _ _ "Upward" "Downward" ltac:(split; discriminate) ltac:(split; discriminate) L L')).
    discriminate N.
Qed.

Theorem ra_report_exactly : forall ffmt data m, (forall f, one_line (ffmt f)) -> bytes data ->
  acas_ra.ReadResolutionAdvisory data = Ok m ->
  exists text, acas_ra.ResolutionAdvisory_ToString ffmt m = Ok text /\
    (shows text (resolution_advisory_rows ffmt m) <-> printable_advisory m).
Proof.
  intros ffmt data m F Hb H. destruct (ra_built ffmt m F (ra_consistent data m Hb H)) as (text & E & S).
  exists text. split; [exact E|]. split.
  - intro S'. exact (right_printable ffmt data m [] text Hb H S S').
  - intro P. destruct (ra_report_partial ffmt data m F Hb H P) as (t & E' & S'). rewrite E in E'. injection E' as <-. exact S'.
Qed.

(* ---- whole messages ---- *)
Lemma status_built : forall ffmt m text rows,
  acas_ra.ResolutionAdvisory_ToString ffmt (bds61.AircraftStatusACAS_ResolutionAdvisory m) = Ok text -> shows text rows ->
  exists t, bds61.AircraftStatusACAS_ToString ffmt m = Ok t /\
    shows t ([("Message", exactly "BDS 6,1 - Extended squitter emergency/priority status");
              ("Subtype", coded (bds61.AircraftStatusACAS_Subtype m)); ("ACAS Data", heading)] ++ rows)%list.
Proof.
  intros ffmt m text rows E S. unfold bds61.AircraftStatusACAS_ToString. rewrite E. cbn [bind].
  eexists. split; [reflexivity|]. report. exact S.
Qed.
Lemma register_built : forall ffmt m text rows,
  acas_ra.ResolutionAdvisory_ToString ffmt (bds30.ACASResolutionAdvisory_ResolutionAdvisory m) = Ok text -> shows text rows ->
  exists t, bds30.ACASResolutionAdvisory_ToString ffmt m = Ok t /\
    shows t ([("Message", exactly "BDS 3,0 - ACAS active resolution advisory"); ("ACAS Data", heading)] ++ rows)%list.
Proof.
  intros ffmt m text rows E S. unfold bds30.ACASResolutionAdvisory_ToString. rewrite E. cbn [bind].
  eexists. split; [reflexivity|]. report. exact S.
Qed.

Theorem adsb_report_exactly : forall ffmt matan2 v a c data m, (forall f, one_line (ffmt f)) -> bytes data ->
  AdsbReader.ReadADSBMessage v a c data = Ok m ->
  exists text, AdsbReader.Message_ToString ffmt matan2 m = Ok text /\
    (shows text (adsb_rows ffmt matan2 m) <-> forall ra, adsb_advisory m = Some ra -> printable_advisory ra).
Proof.
  intros ffmt matan2 v a c data m F Hb H. destruct (adsb_advisory m) as [ra|] eqn:A.
  - destruct m as [m|m|m|m|m|m|[x w]|m|m]; try discriminate A. cbn in A. destruct x as [y|y|y]; try discriminate A. injection A as A.
    destruct (adsb_kind v a c data _ Hb H) as [Hl K]. cbn [kind] in K. pose proof H as H0. rewrite read_status in H by assumption.
    inversion_clear K as [ | | | | | | TC | | ]. rewrite (read_bds61_code data Hb Hl TC) in H.
    destruct (Z.eqb (bits 6 8 data) 0); [destruct (Z.eqb (bits 12 16 data) 0); discriminate|].
    destruct (Z.eqb (bits 6 8 data) 1); [destruct (Z.eqb (bits 25 56 data) 0); discriminate|].
    destruct (Z.eqb (bits 6 8 data) 2); [|discriminate].
    destruct (acas_ra.ReadResolutionAdvisory (octets 2 7 data)) as [ra'|e|] eqn:R; cbn [rmap] in H; try discriminate.
    assert (Y : ra = ra') by (injection H as H _; rewrite <- A, <- H; reflexivity). subst ra'. clear H.
    assert (Hb' : bytes (octets 2 7 data)) by (apply octets_bytes; assumption).
    destruct (ra_built ffmt ra F (ra_consistent _ ra Hb' R)) as (text & E & S). rewrite <- A in E.
    destruct (status_built ffmt y text _ E S) as (t & E' & S').
    assert (T : AdsbReader.Message_ToString ffmt matan2 (AdsbReader.AStatus {| adsb_aircraft_status.AircraftStatus_AircraftStatus := bds61.IAircraftStatus_AircraftStatusACAS y; adsb_aircraft_status.AircraftStatus_adsbVersion := w |}) = Ok t).
    { cbn [AdsbReader.Message_ToString]. unfold adsb_aircraft_status.AircraftStatus_ToString.
      cbn [adsb_aircraft_status.AircraftStatus_AircraftStatus bds61.IAircraftStatus_ToString bind]. rewrite E'. reflexivity. }
    exists t. split; [exact T|]. split.
    + intros Q ra0 E0. injection E0 as <-. refine (right_printable ffmt _ ra _ t Hb' R S' _).
      cbn [adsb_rows adsb_aircraft_status.AircraftStatus_AircraftStatus] in Q. unfold aircraft_status_acas_rows in Q. rewrite A in Q. exact Q.
    + intro P. destruct (adsb_report_partial ffmt matan2 v a c data _ F Hb H0) as (t' & T' & S'').
      { intros ra0 E0. apply P. rewrite <- E0. cbn. rewrite A. reflexivity. }
      rewrite T in T'. injection T' as <-. exact S''.
  - destruct (adsb_report_partial ffmt matan2 v a c data m F Hb H) as (t & T & S); [intros ra E; congruence|].
    exists t. split; [exact T|]. split; [intros _ ra E; discriminate E|intros _; exact S].
Qed.

(* what is printed: the overlay capability in place of the continuation flag *)
Definition built_capability (m : bds10.DataLinkCapabilityReport) : bds10.DataLinkCapabilityReport :=
  {| bds10.DataLinkCapabilityReport_ContinuationFlag := bds10.DataLinkCapabilityReport_OverlayCommandCapability m;
     bds10.DataLinkCapabilityReport_OverlayCommandCapability := bds10.DataLinkCapabilityReport_OverlayCommandCapability m;
     bds10.DataLinkCapabilityReport_ACASStatus := bds10.DataLinkCapabilityReport_ACASStatus m;
     bds10.DataLinkCapabilityReport_ModeSSubnetworkVersion := bds10.DataLinkCapabilityReport_ModeSSubnetworkVersion m;
     bds10.DataLinkCapabilityReport_TransponderEnhancedProtocolIndicator := bds10.DataLinkCapabilityReport_TransponderEnhancedProtocolIndicator m;
     bds10.DataLinkCapabilityReport_ModeSSpecificServicesCapability := bds10.DataLinkCapabilityReport_ModeSSpecificServicesCapability m;
     bds10.DataLinkCapabilityReport_UplinkELMThroughputCapability := bds10.DataLinkCapabilityReport_UplinkELMThroughputCapability m;
     bds10.DataLinkCapabilityReport_DownlinkELMThroughputCapability := bds10.DataLinkCapabilityReport_DownlinkELMThroughputCapability m;
     bds10.DataLinkCapabilityReport_AircraftIdentificationCapability := bds10.DataLinkCapabilityReport_AircraftIdentificationCapability m;
     bds10.DataLinkCapabilityReport_SquitterCapabilitySubfield := bds10.DataLinkCapabilityReport_SquitterCapabilitySubfield m;
     bds10.DataLinkCapabilityReport_SurveillanceIdentifierCode := bds10.DataLinkCapabilityReport_SurveillanceIdentifierCode m;
     bds10.DataLinkCapabilityReport_CommonUsageGICBCapability := bds10.DataLinkCapabilityReport_CommonUsageGICBCapability m;
     bds10.DataLinkCapabilityReport_ACASHybridSurveillanceCapability := bds10.DataLinkCapabilityReport_ACASHybridSurveillanceCapability m;
     bds10.DataLinkCapabilityReport_ACASGenerationCapability := bds10.DataLinkCapabilityReport_ACASGenerationCapability m;
     bds10.DataLinkCapabilityReport_ACASApplicableDocument := bds10.DataLinkCapabilityReport_ACASApplicableDocument m;
     bds10.DataLinkCapabilityReport_DTESubAddressStatuses := bds10.DataLinkCapabilityReport_DTESubAddressStatuses m |}.
Lemma capability_built : forall m, shows (bds10.DataLinkCapabilityReport_ToString m) (data_link_capability_report_rows (built_capability m)).
Proof. intro m. apply (data_link_capability_report_shows (built_capability m)). reflexivity. Qed.

Lemma same_code : forall t l b b', (b = 0 \/ b = 1)%Z -> (b' = 0 \/ b' = 1)%Z ->
  line_for (t, coded b) l -> line_for (t, coded b') l -> b = b'.
Proof.
  intros t l b b' B B' (c & n & v & C & E & w & V) (c' & n' & v' & C' & E' & w' & V').
  assert (N : v = v').
  { apply (same_value t l v v').
    - subst v. destruct B; subst b; split; discriminate.
    - subst v'. destruct B'; subst b'; split; discriminate.
    - exists c, n, v. split; [exact C|]. split; [exact E|reflexivity].
    - exists c', n', v'. split; [exact C'|]. split; [exact E'|reflexivity]. }
  subst v v'. destruct B, B'; subst b b'; try reflexivity; discriminate N.
Qed.

Lemma capability_flags : forall data m, bytes data -> len data = 7 -> bds10.ReadDataLinkCapabilityReport data = Ok m ->
  bds10.DataLinkCapabilityReport_ContinuationFlag m = bits 9 9 data /\ bds10.DataLinkCapabilityReport_OverlayCommandCapability m = bits 15 15 data.
Proof. intros data m Hb Hl H. apply read_bds10 in H; [|assumption..]. destruct H as [_ ->]. split; reflexivity. Qed.

Theorem commb_report_exactly : forall ffmt data l m, (forall f, one_line (ffmt f)) -> bytes data ->
  CommbReader.ReadCommBMessage data = Ok l -> List.In m l ->
  exists text, CommbReader.Message_ToString ffmt m = Ok text /\
    (shows text (commb_rows ffmt m) <->
     (forall ra, commb_advisory m = Some ra -> printable_advisory ra) /\
     (forall x, m = CommbReader.B10 x -> bds10.DataLinkCapabilityReport_ContinuationFlag x = bds10.DataLinkCapabilityReport_OverlayCommandCapability x)).
Proof.
  intros ffmt data l m F Hb H I. destruct (commb_sound data l m Hb H I) as [D _].
  assert (Hl : len data = 7).
  { destruct (Z.eq_dec (len data) 7) as [E|E]; [exact E|]. destruct (proj2 (proj2 (commb_total data Hb)) E). congruence. }
  pose proof (commb_report_partial ffmt data l m F Hb H I) as R.
  assert (K : (exists x, m = CommbReader.B10 x) \/ (exists x, m = CommbReader.B30 x) \/
    (commb_advisory m = None /\ forall x, m <> CommbReader.B10 x)).
  { destruct m; try (left; eexists; reflexivity); try (right; left; eexists; reflexivity); right; right; split; try reflexivity; discriminate. }
  destruct K as [(x & ->)|[(x & ->)|(N & N')]].
  - cbn [decodes] in D. destruct (capability_flags data x Hb Hl D) as [C O].
    eexists. split; [reflexivity|]. split.
    + intro S. split; [discriminate|]. intros x' E. injection E as <-.
      pose proof (shows_both _ _ _ (capability_built x) S) as T. cbn [commb_rows] in T. unfold data_link_capability_report_rows in T.
      inversion T as [|? ? ? ? _ T1]; subst. inversion T1 as [|? ? ? ? (ln & L & L') _]; subst.
      cbn [built_capability bds10.DataLinkCapabilityReport_ContinuationFlag] in L.
      symmetry. refine (same_code _ _ _ _ _ _ L L'); [rewrite O; bits_bound 15 15 data|rewrite C; bits_bound 9 9 data]; lia.
    + intros [P Q]. destruct (R P Q) as (t & E & S). injection E as <-. exact S.
  - cbn [decodes] in D. apply read_bds30 in D; [|assumption..]. destruct D as [_ D].
    assert (Hb' : bytes (octets 2 7 data)) by (apply octets_bytes; assumption).
    destruct (ra_built ffmt _ F (ra_consistent _ _ Hb' D)) as (text & E & S).
    destruct (register_built ffmt x text _ E S) as (t & E' & S').
    exists t. split; [exact E'|]. split.
    + intro Q. split; [|discriminate]. intros ra E0. injection E0 as <-.
      exact (right_printable ffmt _ _ _ t Hb' D S' Q).
    + intros [P Q]. destruct (R P Q) as (t' & T' & S''). cbn [CommbReader.Message_ToString] in T'. rewrite E' in T'. injection T' as <-. exact S''.
  - destruct R as (t & T & S); [intros ra E; congruence|intros x E; destruct (N' x E)|].
    exists t. split; [exact T|]. split; [|intros _; exact S]. intros _. split; [intros ra E; congruence|intros x E; destruct (N' x E)].
Qed.
