(* Printing: PrefixMultiLine, addresses, and the texts of the messages. *)
From Verif.Proofs Require Import Tac Octets AcasReader ModeSReader.
From Verif.Spec Require Import Text ModeS.
From Verif.Gen Require modes_common modes_fields modes_messages acas_ra acas_ra_fields bds05 bds06 bds08 bds09 bds30 bds61 bds62 bds65 bds_register
  adsb_airborne_velocity adsb_aircraft_status.
From Verif.Model Require Import Crc ModesReader.
From Verif.Model Require AdsbReader CommbReader.
Require Import String Ascii.
Local Open Scope Z_scope.

(* ---- lines ---- *)

Lemma newline_eqb : forall c, Ascii.eqb c (Ascii.ascii_of_nat 10) = true <-> c = newline.
Proof. intro c. apply Ascii.eqb_eq. Qed.

Lemma split_spec : forall s, has_lines s (split_lines s).
Proof.
  induction s as [|c s IH].
  - split; [discriminate|]. split; [repeat constructor|reflexivity].
  - cbn [split_lines]. destruct IH as (N & F & E). destruct (Ascii.eqb c _) eqn:Q.
    + apply newline_eqb in Q. subst c. split; [discriminate|]. split; [constructor; [exact I|exact F]|].
      destruct (split_lines s) as [|l ls]; [congruence|]. rewrite E at 1. reflexivity.
    + assert (c <> newline) by (intro K; apply newline_eqb in K; congruence).
      destruct (split_lines s) as [|l ls]; [congruence|].
      split; [discriminate|]. split.
      * inversion F; subst. constructor; [split; assumption|assumption].
      * rewrite E at 1. unfold text_of_lines. cbn. destruct ls; reflexivity.
Qed.

Lemma split_one : forall l, one_line l -> split_lines l = [l].
Proof.
  induction l as [|c l IH]; intro H; [reflexivity|]. destruct H as [H1 H2]. cbn [split_lines].
  destruct (Ascii.eqb c _) eqn:Q; [apply newline_eqb in Q; congruence|]. rewrite IH by assumption. reflexivity.
Qed.

Lemma split_cons : forall l r, one_line l ->
  split_lines (l ++ String newline r) = l :: split_lines r.
Proof.
  induction l as [|c l IH]; intros r H; [reflexivity|]. destruct H as [H1 H2]. cbn [split_lines append].
  destruct (Ascii.eqb c _) eqn:Q; [apply newline_eqb in Q; congruence|]. rewrite IH by assumption. reflexivity.
Qed.

Lemma split_unique : forall s ls, has_lines s ls -> split_lines s = ls.
Proof.
  intros s ls (N & F & E). subst s. induction ls as [|l ls IH]; [congruence|].
  inversion F as [|? ? A B]; subst. destruct ls as [|k ls].
  - unfold text_of_lines. cbn. apply split_one. assumption.
  - assert (X : text_of_lines (l :: k :: ls) = (l ++ String newline (text_of_lines (k :: ls)))%string) by reflexivity.
    rewrite X, split_cons by assumption. f_equal. apply IH; [discriminate|assumption].
Qed.

(* every text has one list of lines *)
Theorem lines_exist : forall s, exists ls, has_lines s ls /\ forall ls', has_lines s ls' -> ls' = ls.
Proof.
  intro s. exists (split_lines s). split; [apply split_spec|].
  intros ls' H. symmetry. apply split_unique. exact H.
Qed.

(* the result is the text of the lines, each with the prefix in front *)
Theorem prefix_text : forall s prefix ls, has_lines s ls ->
  PrefixMultiLine s prefix = text_of_lines (List.map (fun l => (prefix ++ l)%string) ls).
Proof.
  intros s p ls H. unfold PrefixMultiLine. rewrite (split_unique s ls H). reflexivity.
Qed.

Lemma one_line_app : forall a b, one_line a -> one_line b -> one_line (a ++ b).
Proof. induction a as [|c a IH]; intros b A B; [exact B|]. destruct A. split; auto. Qed.

(* so with a prefix without newline, the lines of the result are the prefixed lines *)
Theorem prefix_lines : forall s prefix ls, has_lines s ls -> one_line prefix ->
  has_lines (PrefixMultiLine s prefix) (List.map (fun l => (prefix ++ l)%string) ls).
Proof.
  intros s p ls H P. rewrite (prefix_text s p ls H). destruct H as (N & F & _).
  split; [destruct ls; [congruence|discriminate]|]. split; [|reflexivity].
  rewrite Forall_map. eapply Forall_impl; [|exact F]. intros l L. apply one_line_app; assumption.
Qed.

Example prefix_example : PrefixMultiLine ("a" ++ nl ++ "" ++ nl ++ "bc") "--" = ("--a" ++ nl ++ "--" ++ nl ++ "--bc")%string.
Proof. reflexivity. Qed.

(* ---- addresses ---- *)

Lemma hex_value_digit : forall z, 0 <= z < 16 -> hex_value (hex_digit z) = Some z.
Proof.
  intros z H. assert (C : List.In z (List.map Z.of_nat (seq 0 16))).
  { apply in_map_iff. exists (Z.to_nat z). split; [lia|]. apply in_seq. lia. }
  cbn in C. repeat (destruct C as [C|C]; [subst z; reflexivity|]). destruct C.
Qed.

Lemma address_text_gen : forall a, 0 <= a < 2 ^ 24 ->
  address_of_text (hex2 (u8 (Z.shiftr (Z.land a 0xff0000) 16)) ++ " " ++ hex2 (u8 (Z.shiftr (Z.land a 0xff00) 8))
    ++ " " ++ hex2 (u8 (Z.land a 0xff)) ++ " ")%string = Some a.
Proof.
  intros a H.
  assert (E1 : u8 (Z.shiftr (Z.land a 0xff0000) 16) = a / 65536).
  { unfold u8. rewrite Z.shiftr_land. change (Z.shiftr 0xff0000 16) with (Z.ones 8).
    rewrite Z.land_ones by lia. rewrite Z.shiftr_div_pow2 by lia.
    rewrite Z.mod_mod by lia. apply Z.mod_small. split; [apply Z.div_pos; lia|].
    apply Z.div_lt_upper_bound; lia. }
  assert (E2 : u8 (Z.shiftr (Z.land a 0xff00) 8) = (a / 256) mod 256).
  { unfold u8. rewrite Z.shiftr_land. change (Z.shiftr 0xff00 8) with (Z.ones 8).
    rewrite Z.land_ones by lia. rewrite Z.shiftr_div_pow2 by lia. rewrite Z.mod_mod by lia. reflexivity. }
  assert (E3 : u8 (Z.land a 0xff) = a mod 256).
  { unfold u8. change 0xff with (Z.ones 8). rewrite Z.land_ones by lia. rewrite Z.mod_mod by lia. reflexivity. }
  rewrite E1, E2, E3. unfold hex2. cbn [append address_of_text].
  rewrite !hex_value_digit.
  - f_equal. Z.div_mod_to_equations. lia.
  - Z.div_mod_to_equations; lia.
  - Z.div_mod_to_equations; lia.
  - Z.div_mod_to_equations; lia.
  - Z.div_mod_to_equations; lia.
  - Z.div_mod_to_equations; lia.
  - Z.div_mod_to_equations; lia.
Qed.

(* the text of an address is its six hexadecimal digits *)
Theorem address_text : forall a, 0 <= a < 2 ^ 24 -> address_of_text (modes_common.ICAOAddress_ToString a) = Some a.
Proof. exact address_text_gen. Qed.

Theorem threat_address_text : forall a, 0 <= a < 2 ^ 24 ->
  address_of_text (acas_ra_fields.ThreatIdentityAddress_ToString a) = Some a.
Proof. exact address_text_gen. Qed.

Theorem address_text_injective : forall a b, 0 <= a < 2 ^ 24 -> 0 <= b < 2 ^ 24 ->
  modes_common.ICAOAddress_ToString a = modes_common.ICAOAddress_ToString b -> a = b.
Proof.
  intros a b Ha Hb E. pose proof (address_text a Ha) as A. rewrite E, (address_text b Hb) in A. congruence.
Qed.

Example address_example : modes_common.ICAOAddress_ToString 0x4840D6 = "48 40 D6 "%string.
Proof. reflexivity. Qed.

(* the announced address is printed the same way, without the last space *)
Theorem announced_address_text : forall a, 0 <= a < 2 ^ 24 ->
  address_of_text (modes_fields.AddressAnnounced_ToString {| modes_fields.AddressAnnounced_Address := a |} ++ " ") = Some a.
Proof.
  intros a H. pose proof (address_text_gen a H) as G.
  unfold modes_fields.AddressAnnounced_ToString. cbn [modes_fields.AddressAnnounced_Address].
  exact G.
Qed.

(* ---- no text panics ---- *)

Lemma bind_total : forall A B (r : res A) (f : A -> res B),
  (exists x, r = Ok x) -> (forall x, exists y, f x = Ok y) -> exists y, bind r f = Ok y.
Proof. intros A B r f [x ->] H. cbn. apply H. Qed.

Lemma ra_text_total : forall ffmt ra, exists s, acas_ra.ResolutionAdvisory_ToString ffmt ra = Ok s.
Proof.
  intros ffmt [ara rac rat mte tti ad al ra be].
  unfold acas_ra.ResolutionAdvisory_ToString. cbv zeta.
  cbn [acas_ra.ResolutionAdvisory_ThreatTypeIndicator acas_ra.ResolutionAdvisory_ThreatIdentityAddress
       acas_ra.ResolutionAdvisory_ThreatIdentityAltitude acas_ra.ResolutionAdvisory_ThreatIdentityRange
       acas_ra.ResolutionAdvisory_ThreatIdentityBearing].
  destruct ad, al, ra, be; cbn [is_none negb deref bind];
  repeat match goal with |- context [if ?b then _ else _] => destruct b; cbn [bind] end;
  eexists; reflexivity.
Qed.

Lemma velocity_text_total : forall ffmt matan2 v, exists s, bds09.IAirborneVelocity_ToString ffmt matan2 v = Ok s.
Proof.
  intros ffmt matan2 v.
  assert (A : forall m, exists s, bds09.AirborneVelocityGroundSpeedNormal_toSpeedString m = Ok s).
  { intro m. unfold bds09.AirborneVelocityGroundSpeedNormal_toSpeedString, bds09.AirborneVelocityGroundSpeedNormal_GetSpeed.
    repeat (destruct (negb _); [eexists; reflexivity|]). eexists; reflexivity. }
  assert (B : forall m, exists s, bds09.AirborneVelocityGroundSpeedNormal_toTrackString ffmt matan2 m = Ok s).
  { intro m. unfold bds09.AirborneVelocityGroundSpeedNormal_toTrackString, bds09.AirborneVelocityGroundSpeedNormal_GetTrack.
    repeat (destruct (negb _); [eexists; reflexivity|]). eexists; reflexivity. }
  assert (C : forall m, exists s, bds09.AirborneVelocityGroundSpeedSupersonic_toSpeedString m = Ok s).
  { intro m. unfold bds09.AirborneVelocityGroundSpeedSupersonic_toSpeedString, bds09.AirborneVelocityGroundSpeedSupersonic_GetSpeed.
    repeat (destruct (negb _); [eexists; reflexivity|]). eexists; reflexivity. }
  assert (D : forall m, exists s, bds09.AirborneVelocityGroundSpeedSupersonic_toTrackString ffmt matan2 m = Ok s).
  { intro m. unfold bds09.AirborneVelocityGroundSpeedSupersonic_toTrackString, bds09.AirborneVelocityGroundSpeedSupersonic_GetTrack.
    repeat (destruct (negb _); [eexists; reflexivity|]). eexists; reflexivity. }
  destruct v as [m|m|m|m]; cbn [bds09.IAirborneVelocity_ToString]; try (eexists; reflexivity).
  - unfold bds09.AirborneVelocityGroundSpeedNormal_ToString. destruct (A m) as [a ->], (B m) as [b ->].
    eexists; reflexivity.
  - unfold bds09.AirborneVelocityGroundSpeedSupersonic_ToString. destruct (C m) as [a ->], (D m) as [b ->].
    eexists; reflexivity.
Qed.

(* the text of any ADS-B message, and of any Comm-B message *)
Theorem adsb_text_total : forall ffmt matan2 m, exists s, AdsbReader.Message_ToString ffmt matan2 m = Ok s.
Proof.
  intros ffmt matan2 m. destruct m as [m|m|m|m|m|m|m|m|m]; cbn [AdsbReader.Message_ToString]; try (eexists; reflexivity).
  - unfold adsb_airborne_velocity.AirborneVelocity_ToString.
    destruct (velocity_text_total ffmt matan2 (adsb_airborne_velocity.AirborneVelocity_AirborneVelocity m)) as [s ->].
    eexists; reflexivity.
  - unfold adsb_aircraft_status.AircraftStatus_ToString.
    destruct (adsb_aircraft_status.AircraftStatus_AircraftStatus m) as [x|x|x]; cbn; try (eexists; reflexivity).
    unfold bds61.AircraftStatusACAS_ToString.
    destruct (ra_text_total ffmt (bds61.AircraftStatusACAS_ResolutionAdvisory x)) as [s ->]. eexists; reflexivity.
Qed.

Theorem commb_text_total : forall ffmt m, exists s, CommbReader.Message_ToString ffmt m = Ok s.
Proof.
  intros ffmt m. destruct m as [m|m|m|m|m|m|m|m|m|m|m]; cbn [CommbReader.Message_ToString]; try (eexists; reflexivity).
  unfold bds30.ACASResolutionAdvisory_ToString.
  destruct (ra_text_total ffmt (bds30.ACASResolutionAdvisory_ResolutionAdvisory m)) as [s ->]. eexists; reflexivity.
Qed.

Theorem ra_text_total_any : forall ffmt ra, exists s, acas_ra.ResolutionAdvisory_ToString ffmt ra = Ok s.
Proof. exact ra_text_total. Qed.

(* the bodies of the long replies *)
Lemma accepted_length : forall frame m, bytes frame -> ReadMessage frame = Ok m ->
  16 <= bits 1 5 frame -> len frame = 14.
Proof.
  intros frame m Hb H L. destruct (proj1 (read_message_accepts frame Hb) (ex_intro _ m H)) as [[[A B]|[A B]] _]; auto.
  unfold short_format in B. lia.
Qed.

Theorem body_df16 : forall frame m, bytes frame -> ReadMessage frame = Ok (MDF16 m) ->
  modes_messages.MessageDF16_MessageACAS m = octets 5 11 frame.
Proof.
  intros frame m Hb H. destruct (message_kind frame _ Hb H) as [_ K].
  pose proof (accepted_length frame _ Hb H ltac:(lia)) as Hl.
  destruct (proj1 (read_message_accepts frame Hb) (ex_intro _ _ H)) as [_ A].
  destruct (A ltac:(unfold has_altitude; lia)) as (c & a & Al).
  rewrite (df16_layout frame c a Hb Hl K Al) in H. injection H as <-. reflexivity.
Qed.

Theorem body_df17 : forall frame m, bytes frame -> ReadMessage frame = Ok (MDF17 m) ->
  modes_messages.MessageDF17_MessageExtendedSquitter m = octets 5 11 frame.
Proof.
  intros frame m Hb H. destruct (message_kind frame _ Hb H) as [_ K].
  pose proof (accepted_length frame _ Hb H ltac:(lia)) as Hl.
  rewrite (df17_layout frame Hb Hl K) in H. injection H as <-. reflexivity.
Qed.

Theorem body_df18 : forall frame m, bytes frame -> ReadMessage frame = Ok (MDF18 m) ->
  modes_messages.MessageDF18_MessageExtendedSquitter m = octets 5 11 frame /\
  modes_messages.MessageDF18_ControlField m = bits 6 8 frame.
Proof.
  intros frame m Hb H. destruct (message_kind frame _ Hb H) as [_ K].
  pose proof (accepted_length frame _ Hb H ltac:(lia)) as Hl.
  rewrite (df18_layout frame Hb Hl K) in H. injection H as <-. split; reflexivity.
Qed.

Theorem body_df20 : forall frame m, bytes frame -> ReadMessage frame = Ok (MDF20 m) ->
  modes_messages.MessageDF20_MessageCommB m = octets 5 11 frame.
Proof.
  intros frame m Hb H. destruct (message_kind frame _ Hb H) as [_ K].
  pose proof (accepted_length frame _ Hb H ltac:(lia)) as Hl.
  destruct (proj1 (read_message_accepts frame Hb) (ex_intro _ _ H)) as [_ A].
  destruct (A ltac:(unfold has_altitude; lia)) as (c & a & Al).
  rewrite (df20_layout frame c a Hb Hl K Al) in H. injection H as <-. reflexivity.
Qed.

Theorem body_df21 : forall frame m, bytes frame -> ReadMessage frame = Ok (MDF21 m) ->
  modes_messages.MessageDF21_MessageCommB m = octets 5 11 frame.
Proof.
  intros frame m Hb H. destruct (message_kind frame _ Hb H) as [_ K].
  pose proof (accepted_length frame _ Hb H ltac:(lia)) as Hl.
  rewrite (df21_layout frame Hb Hl K) in H. injection H as <-. reflexivity.
Qed.

Theorem body_df24 : forall frame m, bytes frame -> ReadMessage frame = Ok (MDF24 m) ->
  modes_messages.MessageDF24_MessageCommD m = octets 2 11 frame.
Proof.
  intros frame m Hb H. destruct (message_kind frame _ Hb H) as [G K].
  destruct (proj1 (read_message_accepts frame Hb) (ex_intro _ _ H)) as [[[A B]|[A B]] _].
  - exfalso. change (24 = if 24 <=? bits 1 5 frame then 24 else bits 1 5 frame) in G.
    unfold short_format in B. destruct (24 <=? bits 1 5 frame) eqn:Q; lia.
  - rewrite (df24_layout frame Hb A K) in H. injection H as <-. reflexivity.
Qed.

Lemma seven_text : forall l, len l = 7 -> (exists s, modes_fields.MessageCommB_ToString l = Ok s) /\
  (exists s, modes_fields.MessageExtendedSquitter_ToString l = Ok s).
Proof. intros l H. split_list l H. split; eexists; reflexivity. Qed.

Lemma ten_text : forall l, len l = 10 -> exists s, modes_fields.MessageCommD_ToString l = Ok s.
Proof. intros l H. split_list l H. eexists; reflexivity. Qed.

(* the text of every message ReadMessage returns *)
Theorem modes_text_total : forall frame m, bytes frame -> ReadMessage frame = Ok m ->
  exists s, ModeSMessage_ToString m = Ok s.
Proof.
  intros frame m Hb H. destruct (message_kind frame m Hb H) as [_ K].
  assert (L7 : 16 <= bits 1 5 frame -> len (octets 5 11 frame) = 7).
  { intro L. pose proof (accepted_length frame m Hb H L) as Hl. split_list frame Hl. reflexivity. }
  assert (L10 : 16 <= bits 1 5 frame -> len (octets 2 11 frame) = 10).
  { intro L. pose proof (accepted_length frame m Hb H L) as Hl. split_list frame Hl. reflexivity. }
  destruct m as [m|m|m|m|m|m|m|m|m|m|m]; cbn [ModeSMessage_ToString]; try (eexists; reflexivity).
  - unfold modes_messages.MessageDF17_ToString. rewrite (body_df17 frame m Hb H).
    destruct (proj2 (seven_text _ (L7 ltac:(lia)))) as [s ->]. eexists; reflexivity.
  - unfold modes_messages.MessageDF18_ToString. rewrite (proj1 (body_df18 frame m Hb H)).
    destruct (proj2 (seven_text _ (L7 ltac:(lia)))) as [s ->]. eexists; reflexivity.
  - unfold modes_messages.MessageDF20_ToString. rewrite (body_df20 frame m Hb H).
    destruct (proj1 (seven_text _ (L7 ltac:(lia)))) as [s ->]. eexists; reflexivity.
  - unfold modes_messages.MessageDF21_ToString. rewrite (body_df21 frame m Hb H).
    destruct (proj1 (seven_text _ (L7 ltac:(lia)))) as [s ->]. eexists; reflexivity.
  - unfold modes_messages.MessageDF24_ToString. rewrite (body_df24 frame m Hb H).
    destruct (message_kind frame _ Hb H) as [G _].
    change (24 = if 24 <=? bits 1 5 frame then 24 else bits 1 5 frame) in G.
    destruct (24 <=? bits 1 5 frame) eqn:Q; [|lia].
    destruct (ten_text _ (L10 ltac:(lia))) as [s ->]. eexists; reflexivity.
Qed.

(* the sense of an advisory is not visible in its text: an upward and a
   downward advisory print the same *)
Theorem sense_text_refuted : exists up down mu md,
  acas_ra.ReadResolutionAdvisory up = Ok mu /\ acas_ra.ReadResolutionAdvisory down = Ok md /\
  up <> down /\ mu <> md /\
  forall ffmt, acas_ra.ResolutionAdvisory_ToString ffmt mu = acas_ra.ResolutionAdvisory_ToString ffmt md.
Proof.
  exists [0x80; 0; 0; 0; 0; 0], [0xA0; 0; 0; 0; 0; 0]. do 2 eexists.
  split; [reflexivity|]. split; [reflexivity|]. split; [discriminate|]. split; [discriminate|].
  intro ffmt. reflexivity.
Qed.

(* the register of each ADS-B message, and the 18 identifiers *)
Theorem adsb_registers :
  (forall m, bds_register.Register_GetId (bds05.AirbornePosition_GetRegister m) = "BDS 0,5"%string) /\
  (forall m, bds_register.Register_GetId (bds06.SurfacePosition_GetRegister m) = "BDS 0,6"%string) /\
  (forall m, bds_register.Register_GetId (bds08.AircraftIdentificationAndCategory_GetRegister m) = "BDS 0,8"%string) /\
  (forall m, bds_register.Register_GetId (bds09.IAirborneVelocity_GetRegister m) = "BDS 0,9"%string) /\
  (forall m, bds_register.Register_GetId (bds61.IAircraftStatus_GetRegister m) = "BDS 6,1"%string) /\
  (forall m, bds_register.Register_GetId (bds62.ITargetStateAndStatus_GetRegister m) = "BDS 6,2"%string) /\
  (forall m, bds_register.Register_GetId (bds65.IAircraftOperationalStatus_GetRegister m) = "BDS 6,5"%string).
Proof. repeat split; intro m; try reflexivity; destruct m; reflexivity. Qed.

Theorem register_ids_distinct : List.NoDup (List.map bds_register.Register_GetId
  [bds_register.BDS00; bds_register.BDS05; bds_register.BDS06; bds_register.BDS07; bds_register.BDS08; bds_register.BDS09;
   bds_register.BDS10; bds_register.BDS17; bds_register.BDS20; bds_register.BDS30; bds_register.BDS40; bds_register.BDS44;
   bds_register.BDS45; bds_register.BDS50; bds_register.BDS60; bds_register.BDS61; bds_register.BDS62; bds_register.BDS65]).
Proof.
  cbn. repeat (constructor; [cbn; intuition discriminate|]). constructor.
Qed.
