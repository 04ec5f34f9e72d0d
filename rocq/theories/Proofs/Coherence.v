(* CheckCoherency of the ADS-B messages (C65), and of any BDS 4,0 message (C44). *)
From Verif.Proofs Require Import Tac AdsbApi Status61 CommB1 CommB2.
From Verif.Spec Require Import Floats Adsb Identification Status AdsbMessages.
From Verif.Gen Require bds61 bds61_fields bds40 bds62 bds65 bds09 adsb_airborne_velocity adsb_target_state_and_status
  adsb_aircraft_status adsb_aircraft_operational_status adsb_airborne_position adsb_surface_position.
From Verif.Model Require Import AdsbReader.
Local Open Scope Z_scope.

Theorem adsb_coherent : forall v a c data m, bytes data -> ReadADSBMessage v a c data = Ok m ->
  (Message_CheckCoherency m = Ok tt <-> coherent_body data) /\ Message_CheckCoherency m <> Panic.
Proof.
  intros v a c data m Hb H. destruct (adsb_kind v a c data m Hb H) as [Hl K].
  assert (T : KindOf data (kind m) -> kind m <> KIdentification -> kind m <> KStatus -> coherent_body data).
  { intros K0 N1 N2. split; intro K'; exfalso; [apply N1|apply N2]; eapply kind_unique; eassumption. }
  destruct m as [m|m|m|m|m|m|m|m|m]; cbn [kind] in *.
  all: try (match goal with |- (Message_CheckCoherency ?x = _ <-> _) /\ _ =>
       assert (E : Message_CheckCoherency x = Ok tt)
         by (cbn; first [reflexivity
                        |destruct m; reflexivity
                        |destruct m as [x' ?]; destruct x'; reflexivity]) end;
       rewrite E; split; [|discriminate]; split; [intros _; apply T; [assumption|discriminate|discriminate]|reflexivity]).
  - (* identification *)
    pose proof (identification_coherent v a c data _ Hb Hl K H) as I. split.
    + rewrite I. split.
      * intro L. split; [intros _; exact L|intro K'; exfalso; pose proof (kind_unique _ _ _ K K'); discriminate].
      * intros [L _]. exact (L K).
    + cbn. unfold adsb_aircraft_identification_and_category.AircraftIdentificationAndCategory_CheckCoherency,
        bds08.AircraftIdentificationAndCategory_CheckCoherency.
      destruct (contains_any _ _); [discriminate|].
      destruct (bds08_fields.IAircraftCategory_CheckCoherency _) as [[]|e|] eqn:E; try discriminate.
      exfalso. destruct (bds08.AircraftIdentificationAndCategory_Category _); cbn in E; try discriminate.
      unfold bds08_fields.AircraftCategorySetC_CheckCoherency in E.
      match type of E with context [if ?b then _ else _] => destruct b end; discriminate.
  - (* status *)
    rewrite read_status in H by assumption.
    assert (C : coherent_body data <-> (bits 6 8 data = 0 -> bits 9 11 data = 0) /\ (bits 6 8 data = 1 -> bits 9 11 data <= 5)).
    { split; [intros [_ S]; exact (S K)|]. intro S. split; [|intros _; exact S].
      intro K'. exfalso. pose proof (kind_unique _ _ _ K K'); discriminate. }
    inversion_clear K as [ | | | | | | TC | | ]. rewrite (read_bds61_code data Hb Hl TC) in H. rewrite C. clear C T.
    destruct (Z.eqb_spec (bits 6 8 data) 0) as [E|E].
    { destruct (bits 12 16 data =? 0); cbn [rmap] in H; try discriminate. injection H as <-.
      cbn. unfold bds61.AircraftStatusNoInformation_CheckCoherency, bds61_fields.EPSNoEmergency. cbn.
      destruct (Z.eqb_spec (bits 9 11 data) 0); cbn; (split; [|discriminate]); split; intro; (discriminate || lia || (split; lia) || reflexivity || idtac).
      all: exfalso; destruct H; specialize (H E); lia. }
    destruct (Z.eqb_spec (bits 6 8 data) 1) as [E1|E1].
    { destruct (bits 25 56 data =? 0); cbn [rmap] in H; try discriminate. injection H as <-.
      cbn. unfold bds61.AircraftStatusEmergency_CheckCoherency. cbn. rewrite Z.gtb_ltb.
      destruct (Z.ltb_spec 5 (bits 9 11 data)); (split; [|discriminate]); split; intro; (discriminate || reflexivity || (split; lia) || idtac).
      all: exfalso; match goal with K : _ /\ _ |- _ => destruct K as [_ X] end; specialize (X E1); lia. }
    destruct (Z.eqb_spec (bits 6 8 data) 2) as [E2|E2]; cbn [rmap] in H; [|discriminate].
    destruct (acas_ra.ReadResolutionAdvisory (octets 2 7 data)); cbn [rmap] in H; try discriminate. injection H as <-.
    cbn. split; [|discriminate]. split; intro; [split; lia|reflexivity].
Qed.

Lemma zero_iff : forall x, fl_eqb x (f32_lit 0 1) = true <-> is_value x 0.
Proof.
  intro x. change (f32_lit 0 1) with (S754_zero false). unfold fl_eqb, SFeqb.
  destruct x as [s|s| |s m e]; cbn; split; intro H; try reflexivity; try discriminate; try contradiction;
  try (destruct s; discriminate).
  exfalso. revert H. unfold dyadic. destruct (0 <=? e) eqn:E.
  - unfold Qeq, inject_Z. cbn -[Z.mul Z.pow]. pose proof (Z.pow_pos_nonneg 2 e ltac:(lia) ltac:(lia)) as P.
    destruct s; nia.
  - unfold Qeq. cbn. destruct s; lia.
Qed.

(* whatever the message: something is available, and what is not is zero *)
Theorem intention_coherent : forall m,
  bds40.SelectedVerticalIntention_CheckCoherency m = Ok tt <->
  (bds40.SelectedVerticalIntention_MCPFCUSelectedAltitudeAvailable m = true \/
   bds40.SelectedVerticalIntention_FMSSelectedAltitudeAvailable m = true \/
   bds40.SelectedVerticalIntention_BarometricPressureSettingAvailable m = true) /\
  (bds40.SelectedVerticalIntention_MCPFCUSelectedAltitudeAvailable m = false ->
   bds40.SelectedVerticalIntention_MCPFCUSelectedAltitude m = 0) /\
  (bds40.SelectedVerticalIntention_FMSSelectedAltitudeAvailable m = false ->
   bds40.SelectedVerticalIntention_FMSSelectedAltitude m = 0) /\
  (bds40.SelectedVerticalIntention_BarometricPressureSettingAvailable m = false ->
   is_value (bds40.SelectedVerticalIntention_BarometricPressureSetting m) 0).
Proof.
  intro m. unfold bds40.SelectedVerticalIntention_CheckCoherency. rewrite <- zero_iff.
  destruct (bds40.SelectedVerticalIntention_MCPFCUSelectedAltitudeAvailable m),
    (bds40.SelectedVerticalIntention_FMSSelectedAltitudeAvailable m),
    (bds40.SelectedVerticalIntention_BarometricPressureSettingAvailable m);
  cbn [negb andb];
  destruct (Z.eqb_spec (bds40.SelectedVerticalIntention_MCPFCUSelectedAltitude m) 0);
  destruct (Z.eqb_spec (bds40.SelectedVerticalIntention_FMSSelectedAltitude m) 0);
  destruct (fl_eqb (bds40.SelectedVerticalIntention_BarometricPressureSetting m) (f32_lit 0 1)); cbn [negb];
  split; intro H; try discriminate; try reflexivity; try (intuition congruence).
Qed.
