(* The texts of the messages show every field: velocities, advisories, and the
   messages returned by the readers. *)
From Verif.Proofs Require Import Tac Octets Labels Texts ReportTools Reports Reports2 ModeSReader.
From Verif.Gen Require bds00 bds05 bds05_fields bds06 bds06_fields bds07 bds07_fields bds08 bds08_fields bds09 bds09_fields bds10 bds10_fields bds17 bds20 bds30
  bds40 bds40_fields bds44 bds44_fields bds45 bds45_fields bds50 bds60 bds61 bds61_fields bds62 bds62_fields bds65 bds65_fields
  modes_fields modes_messages acas_ra acas_ra_fields
  adsb_airborne_position adsb_airborne_position_fields adsb_surface_position adsb_surface_position_fields
  adsb_no_position_information adsb_airborne_velocity adsb_aircraft_status adsb_target_state_and_status
  adsb_aircraft_operational_status adsb_aircraft_identification_and_category bds_register.
From Verif.Model Require Import Crc ModesReader.
From Verif.Model Require AdsbReader CommbReader.
From Verif.Spec Require Import Text Report Reports Altitude ModeS.
Require Import String Ascii List.
Import ListNotations.
Local Open Scope Z_scope.
Local Open Scope string_scope.

Lemma shows_format : forall lit df name rest rows, lit_ok "Downlink format" lit = true -> one_line name -> shows rest rows ->
  shows (lit ++ dec df ++ " - " ++ name ++ nl ++ rest) (format_row df name :: rows).
Proof.
  intros lit df name rest rows L O S. unfold format_row.
  replace (dec df ++ " - " ++ name ++ nl ++ rest) with ((dec df ++ " - " ++ name) ++ nl ++ rest) by (rewrite !app_assoc_s; reflexivity).
  apply shows_cons; [exact L|reflexivity| |exact S].
  apply one_line_app; [apply line_dec|]. apply one_line_app; [apply lineb_ok; reflexivity|exact O].
Qed.

Lemma utility_ok : forall u, utility_value u (modes_fields.UtilityMessage_ToString u) /\ one_line (modes_fields.UtilityMessage_ToString u).
Proof.
  intro u. split.
  - unfold utility_value, modes_fields.UtilityMessage_ToString.
    exists (modes_fields.UtilityMessageIdentifierDesignator_ToString (modes_fields.UtilityMessage_IdentifierDesignator u)).
    split; [|reflexivity]. change (coded (modes_fields.UtilityMessage_IdentifierDesignator u)
      (modes_fields.UtilityMessageIdentifierDesignator_ToString (modes_fields.UtilityMessage_IdentifierDesignator u))). value.
  - one_label.
Qed.

Lemma identity_ok : forall i, one_line (modes_fields.Identity_Identity i) ->
  identity_value (modes_fields.Identity_Identity i) (modes_fields.Identity_ToString i) /\ one_line (modes_fields.Identity_ToString i).
Proof.
  intros [s] O. cbn [modes_fields.Identity_Identity] in *. unfold identity_value, modes_fields.Identity_ToString, exactly,
    modes_fields.Identity_IsSpecialEmergency, modes_fields.Identity_IsSpecialInstructionNotReceived,
    modes_fields.Identity_IsSpecialRadiocommunicationFailure, modes_fields.Identity_IsSpecialUnlawfulInterference.
  cbn [modes_fields.Identity_Identity]. cbv zeta.
  destruct (String.eqb_spec s "7700"); [subst; split; [reflexivity|apply lineb_ok; reflexivity]|].
  destruct (String.eqb_spec s "2000"); [subst; split; [reflexivity|apply lineb_ok; reflexivity]|].
  destruct (String.eqb_spec s "7600"); [subst; split; [reflexivity|apply lineb_ok; reflexivity]|].
  destruct (String.eqb_spec s "7500"); [subst; split; [reflexivity|apply lineb_ok; reflexivity]|].
  split; [reflexivity|]. rewrite app_nil_s. exact O.
Qed.

Lemma address_ok : forall i, (0 <= modes_fields.AddressAnnounced_Address i < 2 ^ 24)%Z ->
  Report.address_text (modes_fields.AddressAnnounced_Address i) (modes_fields.AddressAnnounced_ToString i) /\
  one_line (modes_fields.AddressAnnounced_ToString i).
Proof.
  intros [a] R. cbn [modes_fields.AddressAnnounced_Address] in *. split.
  - right. apply (announced_address_text a R).
  - unfold modes_fields.AddressAnnounced_ToString.
    repeat first [apply one_line_app | apply line_hex2, u8_range | apply lineb_ok; vm_compute; reflexivity].
Qed.

Lemma octet_ok : forall b, (0 <= b < 256)%Z -> hex_octet b (hex2 b).
Proof.
  intros b R. unfold hex2. exists (b / 16)%Z, (b mod 16)%Z. do 2 eexists. split; [reflexivity|].
  rewrite !hex_value_digit by (Z.div_mod_to_equations; lia). repeat split. Z.div_mod_to_equations; lia.
Qed.
Lemma squitter_ok : forall l, bytes l -> len l = 7%Z ->
  exists s, modes_fields.MessageExtendedSquitter_ToString l = Ok s /\ hex_octets l s /\ one_line s.
Proof.
  intros l Hb Hl. split_list l Hl. eexists. split; [reflexivity|].
  unfold bytes in Hb. repeat match goal with H : Forall byte (_ :: _) |- _ => inversion H; clear H; subst end.
  split.
  - repeat (apply hex_octets_more; [apply octet_ok; assumption|]). apply hex_octets_one. apply octet_ok; assumption.
  - repeat first [apply line_hex2; assumption | apply one_line_app | apply lineb_ok; vm_compute; reflexivity].
Qed.
Lemma commb_ok : forall l, bytes l -> len l = 7%Z ->
  exists s, modes_fields.MessageCommB_ToString l = Ok s /\ hex_octets l s /\ one_line s.
Proof. exact squitter_ok. Qed.
Lemma commd_ok : forall l, bytes l -> len l = 10%Z ->
  exists s, modes_fields.MessageCommD_ToString l = Ok s /\ hex_octets l s /\ one_line s.
Proof.
  intros l Hb Hl. split_list l Hl. eexists. split; [reflexivity|].
  unfold bytes in Hb. repeat match goal with H : Forall byte (_ :: _) |- _ => inversion H; clear H; subst end.
  split.
  - repeat (apply hex_octets_more; [apply octet_ok; assumption|]). apply hex_octets_one. apply octet_ok; assumption.
  - repeat first [apply line_hex2; assumption | apply one_line_app | apply lineb_ok; vm_compute; reflexivity].
Qed.
Lemma octets_line : forall l, one_line (bytes_str l).
Proof.
  intro l. unfold bytes_str. apply one_line_app; [apply lineb_ok; reflexivity|].
  apply one_line_app; [|apply lineb_ok; reflexivity].
  apply concat_line; [apply lineb_ok; reflexivity|]. apply Forall_map. apply Forall_forall. intros. apply line_dec.
Qed.
Lemma identity13_line : forall frame, one_line (identity13 frame).
Proof.
  intro frame. unfold identity13, squawk.
  assert (D : forall a b c, digit_char (number [a; b; c]) <> newline).
  { intros [] [] []; vm_compute; discriminate. }
  cbn [one_line]. repeat split; apply D.
Qed.

Ltac fmt := apply shows_format; [vm_compute; reflexivity|apply lineb_ok; vm_compute; reflexivity|].
Ltac field_row L := apply shows_cons; [vm_compute; reflexivity|exact (proj1 L)|exact (proj2 L)|].

Lemma df0_shows : forall m, shows (modes_messages.MessageDF0_ToString m) (modes_rows (MDF0 m)).
Proof. intro m. unfold modes_messages.MessageDF0_ToString. cbn [modes_rows]. flat. fmt. report. Qed.
Lemma df4_shows : forall m, shows (modes_messages.MessageDF4_ToString m) (modes_rows (MDF4 m)).
Proof.
  intro m. unfold modes_messages.MessageDF4_ToString. cbn [modes_rows]. flat. fmt.
  pose proof (utility_ok (modes_messages.MessageDF4_UtilityMessage m)) as U.
  do 2 shows_step. field_row U. report.
Qed.
Lemma df5_shows : forall m, one_line (modes_fields.Identity_Identity (modes_messages.MessageDF5_Identity m)) ->
  shows (modes_messages.MessageDF5_ToString m) (modes_rows (MDF5 m)).
Proof.
  intros m O. unfold modes_messages.MessageDF5_ToString. cbn [modes_rows]. flat. fmt.
  pose proof (utility_ok (modes_messages.MessageDF5_UtilityMessage m)) as U. pose proof (identity_ok _ O) as V.
  do 2 shows_step. field_row U. apply shows_last; [vm_compute; reflexivity|exact (proj1 V)|exact (proj2 V)].
Qed.
Lemma df11_shows : forall m, (0 <= modes_fields.AddressAnnounced_Address (modes_messages.MessageDF11_AddressAnnounced m) < 2 ^ 24)%Z ->
  shows (modes_messages.MessageDF11_ToString m) (modes_rows (MDF11 m)).
Proof.
  intros m O. unfold modes_messages.MessageDF11_ToString. cbn [modes_rows]. flat. fmt.
  pose proof (address_ok _ O) as V.
  shows_step. apply shows_last; [vm_compute; reflexivity|exact (proj1 V)|exact (proj2 V)].
Qed.
Lemma df16_shows : forall m, shows (modes_messages.MessageDF16_ToString m) (modes_rows (MDF16 m)).
Proof.
  intro m. unfold modes_messages.MessageDF16_ToString. cbn [modes_rows]. flat. fmt.
  do 5 shows_step. apply shows_last; [vm_compute; reflexivity|reflexivity|apply octets_line].
Qed.
Lemma df17_shows : forall m, (0 <= modes_fields.AddressAnnounced_Address (modes_messages.MessageDF17_AddressAnnounced m) < 2 ^ 24)%Z ->
  bytes (modes_messages.MessageDF17_MessageExtendedSquitter m) -> len (modes_messages.MessageDF17_MessageExtendedSquitter m) = 7%Z ->
  exists text, modes_messages.MessageDF17_ToString m = Ok text /\ shows text (modes_rows (MDF17 m)).
Proof.
  intros m O B L. unfold modes_messages.MessageDF17_ToString. destruct (squitter_ok _ B L) as (s & E & V & O2). rewrite E. cbn [bind modes_rows].
  eexists. split; [reflexivity|]. flat. fmt. pose proof (address_ok _ O) as A.
  shows_step. field_row A. apply shows_last; [vm_compute; reflexivity|exact V|exact O2].
Qed.
Lemma df18_shows : forall m, (0 <= modes_fields.AddressAnnounced_Address (modes_messages.MessageDF18_AddressAnnounced m) < 2 ^ 24)%Z ->
  bytes (modes_messages.MessageDF18_MessageExtendedSquitter m) -> len (modes_messages.MessageDF18_MessageExtendedSquitter m) = 7%Z ->
  exists text, modes_messages.MessageDF18_ToString m = Ok text /\ shows text (modes_rows (MDF18 m)).
Proof.
  intros m O B L. unfold modes_messages.MessageDF18_ToString. destruct (squitter_ok _ B L) as (s & E & V & O2). rewrite E. cbn [bind modes_rows].
  eexists. split; [reflexivity|]. flat. fmt. pose proof (address_ok _ O) as A.
  shows_step. field_row A. apply shows_last; [vm_compute; reflexivity|exact V|exact O2].
Qed.
Lemma df19_shows : forall m, shows (modes_messages.MessageDF19_ToString m) (modes_rows (MDF19 m)).
Proof. intro m. unfold modes_messages.MessageDF19_ToString. cbn [modes_rows]. flat. fmt. report. Qed.
Lemma df20_shows : forall m,
  bytes (modes_messages.MessageDF20_MessageCommB m) -> len (modes_messages.MessageDF20_MessageCommB m) = 7%Z ->
  exists text, modes_messages.MessageDF20_ToString m = Ok text /\ shows text (modes_rows (MDF20 m)).
Proof.
  intros m B L. unfold modes_messages.MessageDF20_ToString. destruct (commb_ok _ B L) as (s & E & V & O2). rewrite E. cbn [bind modes_rows].
  eexists. split; [reflexivity|]. flat. fmt. pose proof (utility_ok (modes_messages.MessageDF20_UtilityMessage m)) as U.
  do 2 shows_step. field_row U. do 2 shows_step. apply shows_last; [vm_compute; reflexivity|exact V|exact O2].
Qed.
Lemma df21_shows : forall m, one_line (modes_fields.Identity_Identity (modes_messages.MessageDF21_Identity m)) ->
  bytes (modes_messages.MessageDF21_MessageCommB m) -> len (modes_messages.MessageDF21_MessageCommB m) = 7%Z ->
  exists text, modes_messages.MessageDF21_ToString m = Ok text /\ shows text (modes_rows (MDF21 m)).
Proof.
  intros m O B L. unfold modes_messages.MessageDF21_ToString. destruct (commb_ok _ B L) as (s & E & V & O2). rewrite E. cbn [bind modes_rows].
  eexists. split; [reflexivity|]. flat. fmt. pose proof (utility_ok (modes_messages.MessageDF21_UtilityMessage m)) as U.
  pose proof (identity_ok _ O) as I.
  do 2 shows_step. field_row U. field_row I. apply shows_last; [vm_compute; reflexivity|exact V|exact O2].
Qed.
Lemma df24_shows : forall m,
  bytes (modes_messages.MessageDF24_MessageCommD m) -> len (modes_messages.MessageDF24_MessageCommD m) = 10%Z ->
  exists text, modes_messages.MessageDF24_ToString m = Ok text /\ shows text (modes_rows (MDF24 m)).
Proof.
  intros m B L. unfold modes_messages.MessageDF24_ToString. destruct (commd_ok _ B L) as (s & E & V & O2). rewrite E. cbn [bind modes_rows].
  eexists. split; [reflexivity|]. flat. fmt. 
  do 2 shows_step. apply shows_last; [vm_compute; reflexivity|exact V|exact O2].
Qed.

Theorem modes_report : forall frame m, bytes frame -> ReadMessage frame = Ok m ->
  exists text, ModeSMessage_ToString m = Ok text /\ shows text (modes_rows m).
Proof.
  intros frame m Hb H. destruct (message_kind frame m Hb H) as [G K].
  destruct (proj1 (read_message_accepts frame Hb) (ex_intro _ m H)) as [F _].
  assert (B7 : bytes (octets 5 11 frame)) by (apply octets_bytes; assumption).
  assert (B10 : bytes (octets 2 11 frame)) by (apply octets_bytes; assumption).
  assert (L7 : len frame = 14%Z -> len (octets 5 11 frame) = 7%Z) by (intro Hl; split_list frame Hl; reflexivity).
  assert (L10 : len frame = 14%Z -> len (octets 2 11 frame) = 10%Z) by (intro Hl; split_list frame Hl; reflexivity).
  assert (A : (0 <= bits 9 32 frame < 2 ^ 24)%Z) by (apply (bits_range 9 32); lia).
  pose proof (identity13_line frame) as I.
  unfold short_format, long_format in F.
  destruct m as [m|m|m|m|m|m|m|m|m|m|m]; cbn [ModeSMessage_ToString].
  - eexists. split; [reflexivity|apply df0_shows].
  - eexists. split; [reflexivity|apply df4_shows].
  - rewrite df5_layout in H by (assumption || lia). injection H as H. eexists. split; [reflexivity|]. apply df5_shows. rewrite <- H. exact I.
  - rewrite df11_layout in H by (assumption || lia). injection H as H. eexists. split; [reflexivity|]. apply df11_shows. rewrite <- H. exact A.
  - eexists. split; [reflexivity|apply df16_shows].
  - assert (Hl : len frame = 14%Z) by lia.
    rewrite df17_layout in H by (assumption || lia). injection H as H. apply df17_shows; rewrite <- H; auto.
  - assert (Hl : len frame = 14%Z) by lia.
    rewrite df18_layout in H by (assumption || lia). injection H as H. apply df18_shows; rewrite <- H; auto.
  - eexists. split; [reflexivity|apply df19_shows].
  - assert (Hl : len frame = 14%Z) by lia. apply df20_shows; rewrite (body_df20 frame m Hb H); auto.
  - assert (Hl : len frame = 14%Z) by lia.
    rewrite df21_layout in H by (assumption || lia). injection H as H. apply df21_shows; rewrite <- H; auto.
  - assert (Hl : len frame = 14%Z).
    { change (24%Z = if (24 <=? bits 1 5 frame)%Z then 24%Z else bits 1 5 frame) in G.
      destruct (24 <=? bits 1 5 frame)%Z eqn:Q; lia. }
    apply df24_shows; rewrite (body_df24 frame m Hb H); auto.
Qed.

(* a concrete case: the report of an all-call reply *)
Definition all_call_frame : list Z := [0x5D; 0x48; 0x40; 0xD6; 0xF8; 0x74; 0x0F].
Theorem modes_report_example : exists m text, bytes all_call_frame /\ ReadMessage all_call_frame = Ok m /\
  ModeSMessage_ToString m = Ok text /\
  split_lines text =
    ["Downlink format:  11 - All-call reply"%string;
     "Capability:       5 - Level 2 Airborne"%string;
     "AddressAnnounced: 48 40 D6"%string]%list.
Proof.
  do 2 eexists. split; [repeat constructor; unfold byte; lia|]. split; [vm_compute; reflexivity|].
  split; vm_compute; reflexivity.
Qed.
