(* C91: what the command prints for what an aircraft sends. *)
From Verif.Proofs Require Import Tac.
From Verif.Gen Require modes_messages modes_fields modes_common bds05 bds06 bds08 bds09 bds20 bds61
  adsb_airborne_position adsb_surface_position adsb_airborne_velocity adsb_aircraft_status adsb_aircraft_identification_and_category.
From Verif.Model Require Import Crc ModesReader.
From Verif.Model Require AdsbReader CommbReader Cmd.
From Verif.Spec Require Import Floats Altitude ModeS Crc Identification Adsb AdsbMessages Velocity Squitter Reply.
From Verif.Proofs Require Import ModeSReader CrcReader Octets Adsb0506 AdsbApi Texts ReportTools ReportsModeS ReportsApi Reports2 Squitter Reply Registers.
From Verif.Proofs Require Command.
From Verif.Spec Require Import Text Report Reports Command.
Require Import String List.
Import ListNotations.
From Coq Require Import Reals.
From Verif.Spec Require Import Track Printout.
From Verif.Proofs Require Import GroundSpeed Track EndToEnd.
Local Open Scope string_scope.
Local Open Scope list_scope.
Local Open Scope Z_scope.

(* ---- rows ---- *)
Definition implies (r r' : row) : Prop := fst r = fst r' /\ forall v, snd r v -> snd r' v.

Lemma shows_weaken : forall t rows rows', Forall2 implies rows rows' -> shows t rows -> shows t rows'.
Proof.
  intros t rows rows' I (ls & H & F). exists ls. split; [exact H|]. clear H. revert ls F.
  induction I as [|r r' rows rows' [T S] I IH]; intros ls F; inversion F; subst; constructor; [|auto].
  destruct H1 as (colon & n & v & C & L & V). exists colon, n, v. rewrite <- T. auto.
Qed.

Lemma implies_refl : forall rows, Forall2 implies rows rows.
Proof. induction rows; constructor; [split; auto|assumption]. Qed.

Lemma hex_line : forall s l, hex_text s l -> one_line s.
Proof.
  induction 1 as [|a b x y s l Ha Hb _ IH]; [exact I|].
  split; [intros ->; vm_compute in Ha; discriminate|]. split; [intros ->; vm_compute in Hb; discriminate|exact IH].
Qed.

Lemma shows_empty : shows "" [("", heading)].
Proof. apply shows_line; [|exact I]. exists "", 0%nat, "". split; [right; reflexivity|]. split; reflexivity. Qed.

(* the address, as it is printed *)
Lemma address_shown : forall a, 0 <= a < 2 ^ 24 -> Report.address_text a (modes_common.ICAOAddress_ToString a).
Proof. intros a H. left. apply Texts.address_text. exact H. Qed.

Lemma address_line : forall a, one_line (modes_common.ICAOAddress_ToString a).
Proof.
  intros a. unfold modes_common.ICAOAddress_ToString.
  repeat first [apply one_line_app | apply line_hex2, u8_range | apply lineb_ok; vm_compute; reflexivity].
Qed.

(* ---- the lines of a frame that is read ---- *)
Lemma printed : forall ffmt matan2 level line frame m a rows out,
  hex_text line frame -> ReadMessage frame = Ok m -> CheckCRC m frame [] [] = Ok a -> 0 <= a < 2 ^ 24 ->
  (forall more, details ffmt matan2 level frame more -> shows more (rows ++ [("", heading)])) ->
  report ffmt matan2 level line out ->
  shows out (printout line (if bits 1 5 frame =? 11 then "In reply to interrogator" else "From") a (modes_rows m) rows).
Proof.
  intros ffmt matan2 level line frame m a rows out H R C Ha D P.
  destruct P as [e N _|f e H' R'|f m' e H' R' C'|f m' a' text more H' R' C' T' D'].
  - exfalso. exact (N frame H).
  - pose proof (Command.hex_text_unique _ _ _ H H'). congruence.
  - pose proof (Command.hex_text_unique _ _ _ H H'). subst f. congruence.
  - pose proof (Command.hex_text_unique _ _ _ H H'). subst f. replace m' with m in * by congruence. replace a' with a in * by congruence.
    pose proof (Command.hex_text_bytes _ _ H) as Hb.
    destruct (modes_report frame m Hb R) as (text' & T & S). replace text' with text in * by congruence.
    specialize (D more D'). unfold printout, endl. rewrite !app_assoc_s.
    change (String newline EmptyString) with nl. change nl with (nl ++ "")%string at 5. rewrite ?app_assoc_s.
    cbn [app].
    apply shows_cons; [reflexivity|reflexivity|exact (hex_line _ _ H)|].
    apply shows_head; [reflexivity|].
    assert (Q : shows (text ++ nl ++ more ++ nl ++ "")%string (modes_rows m ++ rows ++ [("", heading); ("", heading)])).
    { apply shows_app; [exact S|]. change [("", heading); ("", heading)] with ([("", heading)] ++ [("", heading)]). rewrite app_assoc.
      apply shows_app; [exact D|exact shows_empty]. }
    destruct (bits 1 5 frame =? 11).
    + apply shows_cons; [reflexivity|apply address_shown; exact Ha|apply address_line|exact Q].
    + apply shows_cons; [reflexivity|apply address_shown; exact Ha|apply address_line|exact Q].
Qed.

(* ---- extended squitters ---- *)
Lemma altitude_steps : forall tc ss sa feet alt t odd la lo,
  let fs := airborne_payload tc ss sa alt t odd la lo in
  altitude_fields feet alt -> fits fs -> bits 16 16 (message fs) = if steps_of_25 alt then 1 else 0.
Proof.
  intros tc ss sa feet alt t odd la lo fs A F.
  assert (W : width fs = 8 * 7). { unfold fs, airborne_payload. rewrite !width_app. destruct (altitude_fits _ _ A) as [_ ->]. reflexivity. }
  unfold fs in *. destruct A as [k Hk|feet d2 d4 a1 a2 a4 b1 b2 b4 c1 c2 c4 G].
  - look 4%nat 1%nat; reflexivity.
  - look 10%nat 1%nat; reflexivity.
Qed.

Lemma implies_cons : forall title (p q : string -> Prop) rows rows', (forall v, p v -> q v) -> Forall2 implies rows rows' ->
  Forall2 implies ((title, p) :: rows) ((title, q) :: rows').
Proof. intros. constructor; [split; [reflexivity|assumption]|assumption]. Qed.
Lemma implies_nil : Forall2 implies [] [].
Proof. constructor. Qed.

(* rows whose values are the same by computation, or for a known reason *)
Ltac rows_ok := repeat first [apply implies_nil | apply implies_cons; [let v := fresh "v" in let V := fresh "V" in intros v V; try exact V|]].

Lemma squitter_content : forall ffmt matan2 level payload rows, (forall f, one_line (ffmt f)) ->
  fits payload -> width payload = 56 -> squitter_tells ffmt matan2 level payload rows ->
  exists m, AdsbReader.ReadADSBMessage level false false (message payload) = Ok m /\
    forall text, AdsbReader.Message_ToString ffmt matan2 m = Ok text -> shows text rows.
Proof.
  intros ffmt matan2 level payload rows One F W T.
  assert (Hb : bytes (message payload)) by apply message_bytes.
  assert (Hl : len (message payload) = 7) by (apply message_len; assumption).
  assert (Fin : forall m, AdsbReader.ReadADSBMessage level false false (message payload) = Ok m ->
    (forall ra, adsb_advisory m = Some ra -> printable_advisory ra) -> Forall2 implies (adsb_rows ffmt matan2 m) rows ->
    exists m, AdsbReader.ReadADSBMessage level false false (message payload) = Ok m /\
      forall text, AdsbReader.Message_ToString ffmt matan2 m = Ok text -> shows text rows).
  { intros m R P I. exists m. split; [exact R|]. intros text E.
    destruct (adsb_report_partial ffmt matan2 level false false _ m One Hb R P) as (text' & E' & S).
    apply (shows_weaken _ _ _ I). congruence. }
  destruct T as [tc cat codes callsign Ht L Hc|tc ss sa feet alt t odd la lo Hv Ht A|tc mv ts tr t odd la lo Hv Ht N
                |intent ifr nuc e n source rate diff He Hn Hr Hd|state code].
  - destruct (identification_bits tc cat codes L F) as (_ & B1 & B2 & B3).
    generalize dependent (message (identification_payload tc cat codes)). intros me Hb Hl Fin B1 B2 B3.
    assert (K : KindOf me KIdentification) by (apply k_ident; rewrite B1; exact Ht).
    eapply Fin; [exact (identification_ok level false false me Hb Hl K)|discriminate|].
    cbn [adsb_rows adsb_aircraft_identification_and_category.AircraftIdentificationAndCategory_AircraftIdentificationAndCategory].
    unfold identification, aircraft_identification_and_category_rows, category, category_of.
    cbn [bds08.AircraftIdentificationAndCategory_FormatTypeCode bds08.AircraftIdentificationAndCategory_Category bds08.AircraftIdentificationAndCategory_Identification].
    rewrite B1, B2, B3, (shown_of _ _ Hc). apply implies_refl.
  - destruct (airborne_bits tc ss sa feet alt t odd la lo A F) as (_ & B1 & BA & B2 & B3 & B4 & B5 & B6 & B7).
    pose proof (altitude_steps tc ss sa feet alt t odd la lo A F) as B8.
    generalize dependent (message (airborne_payload tc ss sa alt t odd la lo)). intros me Hb Hl Fin B1 BA B2 B3 B4 B5 B6 B7 B8.
    assert (K : KindOf me KAirborne) by (apply k_airborne; rewrite B1; exact Ht).
    destruct (airborne_ok level false false me feet Hb Hl K Hv BA) as (m & Rm & M).
    apply (Fin _ Rm); [discriminate|]. clear Fin Rm F W One. subst tc ss sa t la lo. rewrite <- B5, <- B8.
    destruct M as [alt' hpl mu V BA' Q1 Q2|alt' hcr nic rc V BA' Q1 Q2|alt' hcr nic rc V BA' Q1 Q2]; subst level;
    pose proof (altitude12_unique me _ _ Hb Hl K BA BA'); subst alt'; cbn [adsb_rows].
    + unfold airborne_position_v0_rows, airborne_base_rows. cbn [app airborne_integrity_rows Z.eqb].
      rows_ok; [rewrite V; exact Q1|rewrite V; exact Q2].
    + unfold airborne_position_v1_rows, airborne_base_rows. cbn [app airborne_integrity_rows Z.eqb]. rewrite Q1. cbn [fst snd].
      rows_ok. rewrite V. exact Q2.
    + unfold airborne_position_v2_rows, airborne_base_rows. cbn [app airborne_integrity_rows Z.eqb].
      change (nic_airborne_v2 (bits 1 5 me) false (bits 8 8 me =? 1)) with (nic_airborne_v2 (bits 1 5 me) false (bit 8 me)). rewrite Q1. cbn [fst snd].
      rows_ok; [|rewrite V; exact Q2].
      clear -V. cbn [adsb_airborne_position.AirbornePositionV2_NavigationIntegrityCodeSupplementB] in V.
      pose proof (bits_range 8 8 me ltac:(lia)) as Rg. assert (G : bits 8 8 me = 0 \/ bits 8 8 me = 1) by (change (2 ^ (8 - 8 + 1)) with 2 in Rg; lia).
      destruct G as [G|G]; rewrite G in *; rewrite V; reflexivity.
  - destruct (surface_bits tc mv ts tr t odd la lo F) as (B1 & B2 & B3 & B4 & B5 & B6 & B7 & B8).
    generalize dependent (message (surface_payload tc mv ts tr t odd la lo)). intros me Hb Hl Fin B1 B2 B3 B4 B5 B6 B7 B8.
    assert (K : KindOf me KSurface) by (apply k_surface; rewrite B1; exact Ht).
    destruct (surface_ok_partial level false false me Hb Hl K Hv ltac:(rewrite B1; tauto)) as (m & Rm & M).
    apply (Fin _ Rm); [discriminate|]. clear Fin Rm F W One. subst tc mv t la lo tr. rewrite <- B6.
    assert (Base : forall p, surface_position me p -> Forall2 implies (surface_base_rows ffmt p)
       [("Message", exactly "BDS 0,6 - Extended squitter surface position"); ("Format Type Code", Report.number (bits 1 5 me));
        ("Movement Status", coded (bits 6 12 me)); ("Movement Speed (knots)", float_text ffmt (movement_knots (bits 6 12 me)));
        ("Ground Track Status", yesno ts); ("Ground Track (degrees)", float_text ffmt (inject_Z (bits 14 20 me) * (360 # 128)));
        ("Time", coded (bits 21 21 me)); ("Compact Position Reporting Format", coded (bits 22 22 me));
        ("Encoded Latitude", Report.number (bits 23 39 me)); ("Encoded Longitude", Report.number (bits 40 56 me))]).
    { intros p (M1 & M2 & M3 & M4 & M5 & M6 & M7 & M8 & M9). unfold bit in M4. rewrite B3, flag_test in M4.
      unfold surface_base_rows. rewrite M1, M2, M4, M6, M7, M8, M9. rows_ok; eexists; (split; [eassumption|exact V]). }
    destruct M as [p hpl mu V BA' Q1 Q2|p hcr nic rc V BA' Q1 Q2|p hcr nic rc V BA' Q1 Q2]; subst level; cbn [adsb_rows].
    + unfold surface_position_v0_rows. cbn [surface_integrity_rows Z.eqb]. apply Forall2_app; [apply Base; exact BA'|].
      rows_ok; [rewrite V; exact Q1|rewrite V; exact Q2].
    + unfold surface_position_v1_rows. cbn [surface_integrity_rows Z.eqb]. rewrite Q1. cbn [fst snd]. apply Forall2_app; [apply Base; exact BA'|].
      rows_ok. rewrite V. exact Q2.
    + unfold surface_position_v2_rows. cbn [surface_integrity_rows Z.eqb]. rewrite Q1. cbn [fst snd]. apply Forall2_app; [apply Base; exact BA'|].
      rows_ok. rewrite V. exact Q2.
  - unfold velocity_of in *.
    destruct (velocity_bits _ _ _ _ _ _ _ _ _ _ _ _ _ F) as (B1 & B2 & B3 & B4 & B5 & B6 & B7 & B8 & B9 & B10 & B11).
    assert (C1 : bits 9 9 (message (velocity_payload 1 intent ifr nuc (e <? 0) (Z.abs e + 1) (n <? 0) (Z.abs n + 1) source (rate <? 0) (Z.abs rate + 1) (diff <? 0) (Z.abs diff + 1))) = intent) by (look 2%nat 1%nat; reflexivity).
    assert (C2 : bits 10 10 (message (velocity_payload 1 intent ifr nuc (e <? 0) (Z.abs e + 1) (n <? 0) (Z.abs n + 1) source (rate <? 0) (Z.abs rate + 1) (diff <? 0) (Z.abs diff + 1))) = ifr) by (look 3%nat 1%nat; reflexivity).
    assert (C3 : bits 11 13 (message (velocity_payload 1 intent ifr nuc (e <? 0) (Z.abs e + 1) (n <? 0) (Z.abs n + 1) source (rate <? 0) (Z.abs rate + 1) (diff <? 0) (Z.abs diff + 1))) = nuc) by (look 4%nat 1%nat; reflexivity).
    generalize dependent (message (velocity_payload 1 intent ifr nuc (e <? 0) (Z.abs e + 1) (n <? 0) (Z.abs n + 1) source (rate <? 0) (Z.abs rate + 1) (diff <? 0) (Z.abs diff + 1))).
    intros me Hb Hl Fin B1 B2 B3 B4 B5 B6 B7 B8 B9 B10 B11 C1 C2 C3.
    assert (K : KindOf me KVelocity) by (apply k_velocity; exact B1).
    destruct (velocity_ok level false false me Hb Hl K ltac:(lia)) as (x & V & Rm).
    destruct V as [| Q | ? Q | ? Q]; [|exfalso; lia|exfalso; lia|exfalso; lia].
    apply (Fin _ Rm); [discriminate|]. clear Fin Rm F W One.
    pose proof (regular_abs e He) as Ge. pose proof (regular_abs n Hn) as Gn. rewrite <- B4 in Ge. rewrite <- B6 in Gn.
    pose proof (normal_speed me) as (Sp & _). specialize (Sp Ge Gn).
    cbn [adsb_rows velocity_rows adsb_airborne_velocity.AirborneVelocity_AirborneVelocity]. unfold airborne_velocity_ground_speed_normal_rows.
    rewrite Sp.
    assert (Tr : accurate_atan2 matan2 -> exists t r, bds09.AirborneVelocityGroundSpeedNormal_GetTrack matan2 (ground_speed_normal me) = Ok t /\ fl32 t r /\
       (e <> 0 \/ n <> 0 -> (0 <= r < 360)%R /\ exists theta, bearing (IZR e) (IZR n) theta /\ (Rabs (r - theta) <= 1 / 50000)%R)).
    { intros A. pose proof (normal_track matan2 me A) as (T & _). specialize (T Ge Gn). destruct T as (t & r & T & Fl & Br & Q').
      exists t, r. split; [exact T|]. split; [exact Fl|].
      unfold bit in Q'. rewrite B3, B5, !flag_test in Q'. rewrite (component_sign e 1 _ B4), (component_sign n 1 _ B6) in Q'. rewrite !Z.mul_1_l in Q'.
      intros Nz. destruct Q' as [Q1 Q2]. { destruct (nonzero_IZR 1 e n eq_refl Nz) as [N'|N']; rewrite Z.mul_1_l in N'; auto. }
      split; [split; [apply Br|exact Q1]|exact Q2]. }
    generalize dependent (bds09.AirborneVelocityGroundSpeedNormal_GetTrack matan2 (ground_speed_normal me)). intros track Tr.
    assert (St : forall top z, 0 <= z -> z + 1 < top -> status top (z + 1) = 1).
    { intros top z H1 H2. unfold status. rewrite (proj2 (Z.eqb_neq _ _)) by lia. rewrite (proj2 (Z.eqb_neq _ _)) by lia. reflexivity. }
    assert (Kn : forall z, 0 <= z -> z + 1 < 1023 -> knots (z + 1) = z).
    { intros z H1 H2. unfold knots. rewrite (proj2 (Z.eqb_neq _ _)) by lia. rewrite (proj2 (Z.eqb_neq _ _)) by lia. lia. }
    assert (E1 : bds09.AirborneVelocityGroundSpeedNormal_VelocityEWStatus (ground_speed_normal me) = 1).
    { change (status 1023 (bits 15 24 me) = 1). rewrite B4. apply St; lia. }
    assert (E2 : bds09.AirborneVelocityGroundSpeedNormal_VelocityEW (ground_speed_normal me) = Z.abs e).
    { change (knots (bits 15 24 me) = Z.abs e). rewrite B4. apply Kn; lia. }
    assert (E3 : bds09.AirborneVelocityGroundSpeedNormal_VelocityNSStatus (ground_speed_normal me) = 1).
    { change (status 1023 (bits 26 35 me) = 1). rewrite B6. apply St; lia. }
    assert (E4 : bds09.AirborneVelocityGroundSpeedNormal_VelocityNS (ground_speed_normal me) = Z.abs n).
    { change (knots (bits 26 35 me) = Z.abs n). rewrite B6. apply Kn; lia. }
    assert (E5 : bds09.AirborneVelocityGroundSpeedNormal_VerticalRateStatus (ground_speed_normal me) = 1).
    { change (status 511 (bits 38 46 me) = 1). rewrite B9. apply St; lia. }
    assert (E6 : bds09.AirborneVelocityGroundSpeedNormal_VerticalRate (ground_speed_normal me) = 64 * rate).
    { change (with_sign (bit 37 me) (64 * (bits 38 46 me - 1)) (bits 38 46 me) = 64 * rate). unfold bit. rewrite B8, flag_test.
      apply signed_magnitude; lia || assumption. }
    assert (E7 : bds09.AirborneVelocityGroundSpeedNormal_DifferenceAltitudeGNSSBaroStatus (ground_speed_normal me) = 1).
    { change (status 127 (bits 50 56 me) = 1). rewrite B11. apply St; lia. }
    assert (E8 : bds09.AirborneVelocityGroundSpeedNormal_DifferenceAltitudeGNSSBaro (ground_speed_normal me) = 25 * diff).
    { change (with_sign (bit 49 me) (25 * (bits 50 56 me - 1)) (bits 50 56 me) = 25 * diff). unfold bit. rewrite B10, flag_test.
      apply signed_magnitude; lia || assumption. }
    rewrite E1, E2, E3, E4, E5, E6, E7, E8. subst intent ifr nuc source. rewrite <- B3, <- B5.
    rows_ok.
    + cbn [speed_value] in V. rewrite B4, B6 in V. rewrite V. unfold exactly. do 3 f_equal.
      destruct (Z.abs_spec e) as [[_ ->]|[_ ->]]; destruct (Z.abs_spec n) as [[_ ->]|[_ ->]]; ring.
    + intros A. destruct (Tr A) as (t & r & -> & Ht). exists t, r. split; [exact V|exact Ht].
  - assert (W' : width (emergency_payload state code) = 8 * 7) by reflexivity.
    assert (B1 : bits 1 5 (message (emergency_payload state code)) = 28) by (look 0%nat 1%nat; reflexivity).
    assert (B2 : bits 6 8 (message (emergency_payload state code)) = 1) by (look 1%nat 1%nat; reflexivity).
    assert (B3 : bits 9 11 (message (emergency_payload state code)) = state) by (look 2%nat 1%nat; reflexivity).
    assert (B4 : bits 12 24 (message (emergency_payload state code)) = code) by (look 3%nat 1%nat; reflexivity).
    assert (B5 : bits 25 56 (message (emergency_payload state code)) = 0) by (look 4%nat 1%nat; reflexivity).
    generalize dependent (message (emergency_payload state code)). intros me Hb Hl Fin B1 B2 B3 B4 B5.
    assert (K : KindOf me KStatus) by (apply k_status; exact B1).
    pose proof (Status.status_emergency me B2 B5) as M. rewrite B1, B2, B3, B4 in M.
    apply (status_message_partial level false false me Hb Hl K) in M; [|lia|lia].
    apply (Fin _ M); [discriminate|]. apply implies_refl.
Qed.

Lemma squitter_reply : forall ca icao payload frame, Squitter ca icao payload frame ->
  width payload = 56 /\ Reply ([(5, 17); (3, ca); (24, icao)] ++ payload) 0 frame.
Proof.
  intros ca icao payload frame (F & F' & W & p & P & E). split; [exact W|]. split; [apply fits_app; split; assumption|].
  split; [right; rewrite width_app, W; reflexivity|]. split; [lia|].
  exists p. split; [exact P|]. rewrite Z.lxor_0_r, E. rewrite <- app_assoc. reflexivity.
Qed.

Lemma squitter_frame : forall df c icao payload frame, df = 17 \/ df = 18 -> width payload = 56 ->
  Reply ([(5, df); (3, c); (24, icao)] ++ payload) 0 frame ->
  bytes frame /\ len frame = 14 /\ bits 1 5 frame = df /\ bits 6 8 frame = c /\ bits 9 32 frame = icao /\
  octets 5 11 frame = message payload /\ fits payload /\ 0 <= icao < 2 ^ 24 /\ Parity (octets 1 11 frame) (bits 89 112 frame).
Proof.
  intros df c icao payload frame Hdf W R. pose proof R as (F & _). apply fits_app in F as [Fh Fp].
  destruct (reply_parts [(5, df); (3, c); (24, icao)] payload 0 frame eq_refl R) as (Hb & _ & _ & _ & H14 & B & _ & p & P & E).
  destruct (H14 W) as [L O].
  split; [exact Hb|]. split; [exact L|].
  split; [lookr 0%nat 1%nat|]. split; [lookr 1%nat 1%nat|]. split; [lookr 2%nat 1%nat|]. split; [exact O|]. split; [exact Fp|].
  split. { inversion Fh as [|? ? _ Fh1]. inversion Fh1 as [|? ? _ Fh2]. inversion Fh2 as [|? ? Hx Hy]. cbn [fst snd] in Hx. lia. }
  rewrite Z.lxor_0_r in E. unfold body, parity_field in *. rewrite L in *. change (14 - 3) with 11 in P. change (8 * 14 - 23) with 89 in E. change (8 * 14) with 112 in E.
  rewrite E. exact P.
Qed.

(* what follows the Mode S message of an extended squitter *)
Lemma adsb_details : forall ffmt matan2 level frame payload rows more, (forall f, one_line (ffmt f)) ->
  bits 1 5 frame = 17 \/ bits 1 5 frame = 18 /\ (bits 6 8 frame = 0 \/ bits 6 8 frame = 1) ->
  octets 5 11 frame = message payload -> fits payload -> width payload = 56 ->
  squitter_tells ffmt matan2 level payload rows -> details ffmt matan2 level frame more ->
  shows more (((" -- ADSB Information --", heading) :: rows) ++ [("", heading)]).
Proof.
  intros ffmt matan2 level frame payload rows more One Df O F W T D.
  destruct (squitter_content ffmt matan2 level payload rows One F W T) as (m & R & S).
  destruct D; try (exfalso; lia).
  rewrite O, R in *. inversion H0 as [|x u E]; subst. unfold endl. change (String newline EmptyString) with nl.
  rewrite app_assoc_s. cbn [app]. apply shows_head; [reflexivity|]. change nl with (nl ++ "")%string.
  apply shows_app; [apply S; exact E|exact shows_empty].
Qed.

Lemma df17_18 : forall frame m a, bytes frame -> ReadMessage frame = Ok m -> bits 1 5 frame = 17 \/ bits 1 5 frame = 18 ->
  Parity (octets 1 11 frame) (bits 89 112 frame) -> a = bits 9 32 frame -> CheckCRC m frame [] [] = Ok a.
Proof.
  intros frame m a Hb R Df P A.
  assert (G : GetDownLinkFormat m = 17 \/ GetDownLinkFormat m = 18).
  { destruct (message_kind frame m Hb R) as [-> _]. destruct Df as [-> | ->]; [left|right]; reflexivity. }
  apply (proj1 (extended_squitter_check frame m [] [] Hb R G)). auto.
Qed.

Lemma tisb_details : forall ffmt matan2 level frame more, bits 1 5 frame = 18 -> 2 <= bits 6 8 frame <= 5 ->
  details ffmt matan2 level frame more ->
  shows more ([(" -- TISB Information --", heading); ("Not implemented", heading)] ++ [("", heading)]).
Proof.
  intros ffmt matan2 level frame more Df Cf D. destruct D; try (exfalso; lia).
  unfold endl. change (String newline EmptyString) with (nl ++ "")%string. rewrite ?app_assoc_s.
  apply shows_head; [reflexivity|]. apply shows_head; [reflexivity|]. exact shows_empty.
Qed.

Lemma no_details : forall ffmt matan2 level frame more, bits 1 5 frame < 16 ->
  details ffmt matan2 level frame more -> shows more ([("", heading)] ++ [("", heading)]).
Proof.
  intros ffmt matan2 level frame more Df D. destruct D; try (exfalso; lia).
  unfold endl. change (String newline EmptyString) with (nl ++ "")%string.
  change ("" ++ nl ++ "")%string with ("" ++ nl ++ "")%string. apply shows_app; exact shows_empty.
Qed.

Lemma callsign_details : forall ffmt matan2 level frame codes callsign more, (forall f, one_line (ffmt f)) -> bytes frame ->
  bits 1 5 frame = 20 \/ bits 1 5 frame = 21 -> octets 5 11 frame = message (identification_register codes) ->
  len codes = 8 -> List.map ia5 codes = List.map Some callsign ->
  details ffmt matan2 level frame more ->
  shows more ([(" -- Comm-B Information --", heading); ("Message", exactly "BDS 2,0 - Aircraft identification");
          ("Identification", exactly (text callsign)); ("", heading)] ++ [("", heading)]).
Proof.
  intros ffmt matan2 level frame codes callsign more One Hb Df O L C D.
  pose proof (identification_register_told codes callsign L C) as R. rewrite <- O in R.
  destruct D as [| | | | |l t Df' R' Li|Df' R'|]; try (exfalso; lia); rewrite R in R'; [|discriminate].
  injection R' as <-. inversion Li as [m t' E|]; subst.
  destruct (commb_report_partial ffmt _ _ _ One (Octets.octets_bytes 5 11 frame Hb) R (or_introl eq_refl)) as (t'' & E' & S);
    [discriminate|discriminate|].
  replace t'' with t' in * by congruence.
  unfold endl. change (String newline EmptyString) with (nl ++ "")%string. rewrite ?app_assoc_s. 
  apply shows_head; [reflexivity|]. cbn [app].
  match goal with |- shows _ ?rows => change rows with (commb_rows ffmt (CommbReader.B20 {| bds20.AircraftIdentification_Identification := text callsign |}) ++ [("", heading)]) end.
  apply shows_app; [exact S|exact shows_empty].
Qed.

Lemma register_width : forall codes, len codes = 8 -> width (identification_register codes) = 56.
Proof.
  intros codes L. assert (G : width (List.map (fun c => (6, c)) codes) = 6 * len codes).
  { clear L. induction codes as [|c codes IH]; [reflexivity|]. cbn [List.map]. unfold width in *. cbn [fold_right fst].
    unfold len in *. cbn [List.length]. lia. }
  unfold identification_register. change (8 + width (List.map (fun c => (6, c)) codes) = 56). lia.
Qed.

Lemma answer_checked : forall frame icao m, answered frame icao m -> ReadMessage frame = Ok m /\ CheckCRC m frame [] [] = Ok icao.
Proof. intros frame icao m [R C]. split; [exact R|]. apply C. split; [reflexivity|left; reflexivity]. Qed.

Lemma reply_address : forall fields overlay frame, Reply fields overlay frame -> 0 <= overlay < 2 ^ 24.
Proof. intros fields overlay frame (_ & _ & H & _). exact H. Qed.

Theorem printed_for : forall ffmt matan2 level line rows out, (forall f, one_line (ffmt f)) ->
  tells ffmt matan2 level line rows -> report ffmt matan2 level line out -> shows out rows.
Proof.
  intros ffmt matan2 level line rows out One T P.
  destruct T as [ca icao payload frame rows Sq Hx Q|cf icao payload frame rows Rp Hx W Cf Q|cf icao payload frame Rp Hx W Cf
    |status request interrogator designator coding feet altitude icao frame A Rp Hx
    |status request interrogator designator a b c d icao frame Oa Ob Oc Od Rp Hx
    |capability icao interrogator frame Rp Hx
    |vertical crosslink sensitivity information coding feet altitude icao frame A Rp Hx
    |status request interrogator designator coding feet altitude codes callsign icao frame A L C Rp Hx
    |status request interrogator designator a b c d codes callsign icao frame Oa Ob Oc Od L C Rp Hx];
  pose proof (Command.hex_text_bytes _ _ Hx) as Hb.
  - destruct (squitter_reply _ _ _ _ Sq) as [W Rp].
    destruct (squitter_frame 17 ca icao payload frame (or_introl eq_refl) W Rp) as (_ & Hl & D & B1 & B2 & O & F & Ri & Pa).
    pose proof (df17_layout frame Hb Hl D) as R.
    eapply shows_weaken; [|eapply (printed ffmt matan2 level line _ _ _ _ _ Hx R (df17_18 _ _ _ Hb R (or_introl D) Pa (eq_sym B2)) Ri)].
    + rewrite D. unfold printout. cbn [modes_rows]. rewrite B1, B2, O. apply implies_refl.
    + intros more. apply (adsb_details _ _ _ frame payload); auto.
    + exact P.
  - destruct (squitter_frame 18 cf icao payload frame (or_intror eq_refl) W Rp) as (_ & Hl & D & B1 & B2 & O & F & Ri & Pa).
    pose proof (df18_layout frame Hb Hl D) as R.
    eapply shows_weaken; [|eapply (printed ffmt matan2 level line _ _ _ _ _ Hx R (df17_18 _ _ _ Hb R (or_intror D) Pa (eq_sym B2)) Ri)].
    + rewrite D. unfold printout. cbn [modes_rows]. rewrite B1, B2, O. apply implies_refl.
    + intros more. apply (adsb_details _ _ _ frame payload); auto. right. split; [exact D|rewrite B1; exact Cf].
    + exact P.
  - destruct (squitter_frame 18 cf icao payload frame (or_intror eq_refl) W Rp) as (_ & Hl & D & B1 & B2 & O & F & Ri & Pa).
    pose proof (df18_layout frame Hb Hl D) as R.
    eapply shows_weaken; [|eapply (printed ffmt matan2 level line _ _ _ _ _ Hx R (df17_18 _ _ _ Hb R (or_intror D) Pa (eq_sym B2)) Ri)].
    + rewrite D. unfold printout. cbn [modes_rows]. rewrite B1, B2, O. apply implies_refl.
    + intros more. apply tisb_details; [exact D|rewrite B1; exact Cf].
    + exact P.
  - destruct (altitude_reply_told _ _ _ _ _ _ _ _ _ A Rp) as (m & An & M1 & M2 & M3 & M4 & M5).
    destruct (answer_checked _ _ _ An) as [R K]. destruct (message_kind frame _ Hb R) as [_ D]. cbv beta iota in D.
    eapply shows_weaken; [|eapply (printed ffmt matan2 level line _ _ _ _ _ Hx R K (reply_address _ _ _ Rp))].
    + rewrite D. unfold printout. cbn [modes_rows]. rewrite M1, M2, M3, M4, M5. apply implies_refl.
    + intros more. apply no_details. lia.
    + exact P.
  - destruct (identity_reply_told _ _ _ _ _ _ _ _ _ _ Oa Ob Oc Od Rp) as (m & An & M1 & M2 & M3 & M4).
    destruct (answer_checked _ _ _ An) as [R K]. destruct (message_kind frame _ Hb R) as [_ D]. cbv beta iota in D.
    eapply shows_weaken; [|eapply (printed ffmt matan2 level line _ _ _ _ _ Hx R K (reply_address _ _ _ Rp))].
    + rewrite D. unfold printout. cbn [modes_rows]. rewrite M1, M2, M3, M4. apply implies_refl.
    + intros more. apply no_details. lia.
    + exact P.
  - destruct (all_call_told _ _ _ _ Rp) as (m & R & M1 & M2 & K). destruct (message_kind frame _ Hb R) as [_ D]. cbv beta iota in D.
    eapply shows_weaken; [|eapply (printed ffmt matan2 level line _ _ interrogator _ _ Hx R)].
    + rewrite D. unfold printout. cbn [modes_rows]. rewrite M1, M2. apply implies_refl.
    + apply K. split; [reflexivity|left; reflexivity].
    + exact (reply_address _ _ _ Rp).
    + intros more. apply no_details. lia.
    + exact P.
  - destruct (air_air_told _ _ _ _ _ _ _ _ _ A Rp) as (m & An & M1 & M2 & M3 & M4 & M5 & M6).
    destruct (answer_checked _ _ _ An) as [R K]. destruct (message_kind frame _ Hb R) as [_ D]. cbv beta iota in D.
    eapply shows_weaken; [|eapply (printed ffmt matan2 level line _ _ _ _ _ Hx R K (reply_address _ _ _ Rp))].
    + rewrite D. unfold printout. cbn [modes_rows]. rewrite M1, M2, M3, M4, M5, M6. apply implies_refl.
    + intros more. apply no_details. lia.
    + exact P.
  - assert (W : width (identification_register codes) = 56) by (apply register_width; exact L).
    destruct (altitude_commb_told _ _ _ _ _ _ _ _ _ _ A W Rp) as (m & An & M1 & M2 & M3 & M4 & M5 & M6).
    destruct (answer_checked _ _ _ An) as [R K]. destruct (message_kind frame _ Hb R) as [_ D]. cbv beta iota in D.
    eapply shows_weaken; [|eapply (printed ffmt matan2 level line _ _ _ _ _ Hx R K (reply_address _ _ _ Rp))].
    + rewrite D. unfold printout. cbn [modes_rows]. rewrite M1, M2, M3, M4, M5, M6. apply implies_refl.
    + intros more. apply (callsign_details _ _ _ _ codes); auto.
      rewrite <- M6. symmetry. exact (Texts.body_df20 frame m Hb R).
    + exact P.
  - assert (W : width (identification_register codes) = 56) by (apply register_width; exact L).
    destruct (identity_commb_told _ _ _ _ _ _ _ _ _ _ _ Oa Ob Oc Od W Rp) as (m & An & M1 & M2 & M3 & M4 & M5).
    destruct (answer_checked _ _ _ An) as [R K]. destruct (message_kind frame _ Hb R) as [_ D]. cbv beta iota in D.
    eapply shows_weaken; [|eapply (printed ffmt matan2 level line _ _ _ _ _ Hx R K (reply_address _ _ _ Rp))].
    + rewrite D. unfold printout. cbn [modes_rows]. rewrite M1, M2, M3, M4, M5. apply implies_refl.
    + intros more. apply (callsign_details _ _ _ _ codes); auto.
      rewrite <- M5. symmetry. exact (Texts.body_df21 frame m Hb R).
    + exact P.
Qed.
