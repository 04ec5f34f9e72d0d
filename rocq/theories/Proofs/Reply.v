(* C82-C84: what an aircraft answers is what the library tells. *)
From Verif.Proofs Require Import Tac.
From Verif.Spec Require Import Altitude ModeS Crc Squitter Reply.
From Verif.Gen Require modes_messages modes_fields modes_common.
From Verif.Model Require Import Crc ModesReader.
From Verif.Proofs Require Import ModeSReader CrcReader Octets Squitter.
Local Open Scope Z_scope.

Lemma reply_parts : forall s mb ov frame, width s = 32 -> Reply (s ++ mb) ov frame ->
  bytes frame /\ fits s /\ (width mb = 0 \/ width mb = 56) /\
  (width mb = 0 -> len frame = 7) /\ (width mb = 56 -> len frame = 14 /\ octets 5 11 frame = message mb) /\
  (forall i j, 1 <= i -> i <= j -> j <= 32 -> bits i j frame = bits i j (message s)) /\
  0 <= ov < 2 ^ 24 /\ exists p, Parity (body frame) p /\ parity_field frame = Z.lxor p ov.
Proof.
  intros s mb ov frame Ws (F & W & Ov & p & P & E). rewrite width_app, Ws in W.
  apply fits_app in F as [Fs Fm].
  assert (exists k, width mb = 8 * k /\ (k = 0 \/ k = 7)) as (k & Wk & Hk) by (destruct W; [exists 0|exists 7]; lia).
  assert (Fp : fits [(24, Z.lxor p ov)]).
  { constructor; [|constructor]. cbn [fst snd]. split; [lia|]. destruct P as [P _]. apply CrcCode.lxor_range; lia. }
  assert (Ls : len (message s) = 4) by (apply message_len; assumption).
  assert (Lm : len (message mb) = k) by (apply message_len; assumption).
  assert (Em : message (s ++ mb) = message s ++ message mb) by (apply (message_app _ _ 4 k); auto).
  assert (EA : frame = message s ++ (message mb ++ message [(24, Z.lxor p ov)])).
  { rewrite E, app_assoc. rewrite <- Em. apply (message_app _ _ (4 + k) 3); auto; [rewrite fits_app; auto|]. rewrite width_app. lia. }
  assert (Lf : len frame = k + 7).
  { rewrite E. apply message_len; [rewrite !fits_app; auto|]. rewrite !width_app, Wk, Ws. change (width [(24, Z.lxor p ov)]) with 24. lia. }
  assert (Hb : bytes frame) by (rewrite E; apply message_bytes).
  assert (O1 : octets 1 (len frame - 3) frame = message (s ++ mb)).
  { rewrite Lf, EA, app_assoc, <- Em. unfold octets. replace (k + 7 - 3 - 1 + 1) with (4 + k) by lia. change (Z.to_nat (1 - 1)) with O. cbn [skipn].
    apply firstn_len. f_equal. apply message_len; [rewrite fits_app; auto|]. rewrite width_app. lia. }
  split; [exact Hb|]. split; [exact Fs|]. split; [lia|]. split; [lia|]. split.
  { intros H. split; [lia|]. rewrite EA. unfold octets. rewrite (skipn_len _ (message s)) by (rewrite Ls; reflexivity).
    apply firstn_len. rewrite Lm. replace k with 7 by lia. reflexivity. }
  split. { intros i j H1 H2 H3. rewrite EA. apply bits_app_l; try lia. apply Forall_app. split; apply message_bytes. }
  split; [exact Ov|]. exists p. split; [unfold body; rewrite O1; exact P|].
  unfold parity_field. rewrite Lf, E.
  replace (8 * (k + 7) - 23) with (width (s ++ mb) + 1) by (rewrite width_app; lia).
  replace (8 * (k + 7)) with (width (s ++ mb) + width [(24, Z.lxor p ov)]) by (rewrite width_app; change (width [(24, Z.lxor p ov)]) with 24; lia).
  assert (B : bits (width (s ++ mb) + 1) (width (s ++ mb) + width [(24, Z.lxor p ov)]) (message ((s ++ mb) ++ [(24, Z.lxor p ov)] ++ [])) = packed [(24, Z.lxor p ov)]).
  { apply (bits_message _ _ _ (k + 7)); [rewrite fits_app; auto|auto|constructor|].
    rewrite width_app. change (width []) with 0. change (width [(24, Z.lxor p ov)]) with 24. lia. }
  exact B.
Qed.

(* the address comes out of the parity *)
Lemma overlay_ok : forall s mb ov frame m addresses interrogators x, width s = 32 -> Reply (s ++ mb) ov frame -> ReadMessage frame = Ok m ->
  GetDownLinkFormat m <> 17 -> GetDownLinkFormat m <> 18 ->
  CheckCRC m frame addresses interrogators = Ok x <->
  x = ov /\ admits (if GetDownLinkFormat m =? 11 then interrogators else addresses) ov.
Proof.
  intros s mb ov frame m addresses interrogators x Ws R Rm N17 N18.
  destruct (reply_parts s mb ov frame Ws R) as (Hb & _ & _ & _ & _ & _ & Ov & p & P & E).
  destruct (overlay_check frame m addresses interrogators Hb Rm N17 N18) as (X & _ & _).
  destruct (overlay_check frame m [] [] Hb Rm N17 N18) as (Y & _ & _).
  pose proof (overlay_roundtrip frame m p ov Hb Rm N17 N18 Ov P E) as Z0.
  assert (Ad : admits (if GetDownLinkFormat m =? 11 then [] else []) ov) by (left; destruct (_ =? _); reflexivity).
  assert (U : CheckCRC m frame [] [] = Ok x <-> x = ov) by (rewrite Z0; split; congruence).
  assert (Ad' : admits (if GetDownLinkFormat m =? 11 then [] else []) x) by (left; destruct (_ =? _); reflexivity).
  rewrite X. rewrite Y in U. split.
  - intros [C A]. assert (x = ov) by tauto. subst x. tauto.
  - intros [-> A]. tauto.
Qed.

Lemma answered_ok : forall s mb ov frame m, width s = 32 -> Reply (s ++ mb) ov frame -> ReadMessage frame = Ok m ->
  GetDownLinkFormat m <> 17 -> GetDownLinkFormat m <> 18 -> GetDownLinkFormat m <> 11 -> answered frame ov m.
Proof.
  intros s mb ov frame m Ws R Rm N17 N18 N11. split; [exact Rm|]. intros addresses interrogators x.
  rewrite (overlay_ok s mb ov frame m addresses interrogators x Ws R Rm N17 N18). rewrite (proj2 (Z.eqb_neq _ _) N11). reflexivity.
Qed.

Ltac lookr n c :=
  lazymatch goal with B : forall i j, _ -> _ -> _ -> bits i j ?f = _ |- bits _ _ ?f = _ => rewrite B by lia end; match goal with |- bits ?i ?j (message ?fs) = ?x =>
  apply (bits_field fs n c i j 4 x); [assumption|first [assumption | reflexivity]|reflexivity|reflexivity|reflexivity] end.

(* ---- altitudes ---- *)
Lemma altitude13_width : forall c feet alt, altitude13_fields c feet alt -> width alt = 13.
Proof. intros c feet alt H. destruct H; reflexivity. Qed.

(* the fields before the altitude are on 19 bits, in number n *)
Lemma altitude13_ok : forall pre c feet alt, width pre = 19 -> fits (pre ++ alt) -> altitude13_fields c feet alt ->
  Altitude13 (message (pre ++ alt)) c feet.
Proof.
  intros pre c feet alt Wp F A. pose proof F as F'. apply fits_app in F' as [Fp Fa].
  assert (B : forall n k i j x, 20 + width (firstn n alt) = i -> 19 + width (firstn n alt) + width (firstn k (skipn n alt)) = j ->
    packed (firstn k (skipn n alt)) = x -> bits i j (message (pre ++ alt)) = x).
  { intros n k i j x <- <- <-. apply (bits_field (pre ++ alt) (Datatypes.length pre + n) k _ _ 4); [exact F| | | |].
    - rewrite width_app, Wp, (altitude13_width _ _ _ A). reflexivity.
    - rewrite firstn_app_2, width_app, Wp. lia.
    - rewrite firstn_app_2, width_app, Wp. rewrite skipn_app. rewrite skipn_all2 by lia.
      replace (Datatypes.length pre + n - Datatypes.length pre)%nat with n by lia. cbn [app]. lia.
    - rewrite skipn_app, skipn_all2 by lia. replace (Datatypes.length pre + n - Datatypes.length pre)%nat with n by lia. reflexivity. }
  destruct A as [|k Hk|feet d2 d4 a1 a2 a4 b1 b2 b4 c1 c2 c4 G].
  - apply alt_none. apply (B 0%nat 1%nat); reflexivity.
  - set (me := message _) in *.
    assert (Q1 : bits 20 25 me = k / 32) by (apply (B 0%nat 1%nat); reflexivity).
    assert (Q2 : bits 26 26 me = 0) by (apply (B 1%nat 1%nat); reflexivity).
    assert (Q3 : bits 27 27 me = k / 16 mod 2) by (apply (B 2%nat 1%nat); reflexivity).
    assert (Q4 : bits 28 28 me = 1) by (apply (B 3%nat 1%nat); reflexivity).
    assert (Q5 : bits 29 32 me = k mod 16) by (apply (B 4%nat 1%nat); reflexivity).
    replace (25 * k - 1000) with (25 * (32 * bits 20 25 me + 16 * bits 27 27 me + bits 29 32 me) - 1000).
    + apply alt_25; unfold bit; [rewrite Q2|rewrite Q4]; reflexivity.
    + rewrite Q1, Q3, Q5. Z.to_euclidean_division_equations. lia.
  - set (me := message _) in *.
    assert (Q20 : bits 20 20 me = flag c1) by (apply (B 0%nat 1%nat); reflexivity).
    assert (Q21 : bits 21 21 me = flag a1) by (apply (B 1%nat 1%nat); reflexivity).
    assert (Q22 : bits 22 22 me = flag c2) by (apply (B 2%nat 1%nat); reflexivity).
    assert (Q23 : bits 23 23 me = flag a2) by (apply (B 3%nat 1%nat); reflexivity).
    assert (Q24 : bits 24 24 me = flag c4) by (apply (B 4%nat 1%nat); reflexivity).
    assert (Q25 : bits 25 25 me = flag a4) by (apply (B 5%nat 1%nat); reflexivity).
    assert (Q26 : bits 26 26 me = 0) by (apply (B 6%nat 1%nat); reflexivity).
    assert (Q27 : bits 27 27 me = flag b1) by (apply (B 7%nat 1%nat); reflexivity).
    assert (Q28 : bits 28 28 me = 0) by (apply (B 8%nat 1%nat); reflexivity).
    assert (Q29 : bits 29 29 me = flag b2) by (apply (B 9%nat 1%nat); reflexivity).
    assert (Q30 : bits 30 30 me = flag d2) by (apply (B 10%nat 1%nat); reflexivity).
    assert (Q31 : bits 31 31 me = flag b4) by (apply (B 11%nat 1%nat); reflexivity).
    assert (Q32 : bits 32 32 me = flag d4) by (apply (B 12%nat 1%nat); reflexivity).
    assert (QA : bits 20 32 me = packed [(1, flag c1); (1, flag a1); (1, flag c2); (1, flag a2); (1, flag c4); (1, flag a4); (1, 0);
       (1, flag b1); (1, 0); (1, flag b2); (1, flag d2); (1, flag b4); (1, flag d4)]) by (apply (B 0%nat 13%nat); reflexivity).
    apply alt_100.
    + rewrite QA. destruct G as (k & _ & _ & E). pose proof (f_equal snd E) as E2. unfold gillham_pulses in E2. cbv zeta in E2. unfold snd in E2.
      assert (N : number [c1; c2; c4] <> 0).
      { rewrite E2. unfold c_pulses. set (r := if Z.even (k / 5) then k mod 5 else 4 - k mod 5).
        assert (R : 0 <= r < 5) by (unfold r; pose proof (Z.mod_pos_bound k 5 ltac:(lia)); destruct (Z.even (k / 5)); lia).
        assert (R' : r = 0 \/ r = 1 \/ r = 2 \/ r = 3 \/ r = 4) by lia.
        clearbody r. destruct R' as [->|[->|[->|[->| ->]]]]; intros Z0; vm_compute in Z0; discriminate. }
      intros Z0. apply N. clear -Z0. destruct c1, c2, c4, a1, a2, a4, b1, b2, b4, d2, d4; vm_compute in Z0 |- *; (reflexivity || discriminate).
    + unfold bit. rewrite Q26. reflexivity.
    + unfold bit. rewrite Q28. reflexivity.
    + unfold bit. rewrite Q20, Q21, Q22, Q23, Q24, Q25, Q27, Q29, Q30, Q31, Q32, !flag_test. exact G.
Qed.

Lemma altitude13_bits : forall f g c feet, (forall i j, 1 <= i -> i <= j -> j <= 32 -> bits i j f = bits i j g) ->
  Altitude13 g c feet -> Altitude13 f c feet.
Proof.
  intros f g c feet B A.
  assert (B1 : forall i, 1 <= i <= 32 -> bit i f = bit i g) by (intros i H; unfold bit; rewrite B by lia; reflexivity).
  destruct A as [H|H|H1 H2|feet H1 H2 H3 H4].
  - apply alt_none. rewrite B by lia. exact H.
  - apply alt_metric. rewrite B1 by lia. exact H.
  - rewrite <- !B by lia. apply alt_25; rewrite B1 by lia; assumption.
  - apply alt_100; rewrite ?B, ?B1 by lia; assumption.
Qed.

(* ---- replies with an altitude ---- *)
Theorem altitude_reply_told : forall status request interrogator designator coding feet altitude icao frame,
  altitude13_fields coding feet altitude ->
  Reply (surveillance 4 status request interrogator designator altitude) icao frame ->
  exists d, answered frame icao (MDF4 d) /\
    modes_messages.MessageDF4_FlightStatus d = status /\
    modes_messages.MessageDF4_DownlinkRequest d = request /\
    modes_messages.MessageDF4_UtilityMessage d =
      {| modes_fields.UtilityMessage_InterrogatorIdentifier := interrogator; modes_fields.UtilityMessage_IdentifierDesignator := designator |} /\
    modes_messages.MessageDF4_AltitudeReportMethod d = coding_code coding /\
    modes_messages.MessageDF4_Altitude d = feet.
Proof.
  intros fs dr ii ids c feet alt icao frame A R.
  assert (W : width (surveillance 4 fs dr ii ids alt) = 32) by (unfold surveillance; rewrite width_app, (altitude13_width _ _ _ A); reflexivity).
  rewrite <- (app_nil_r (surveillance 4 fs dr ii ids alt)) in R.
  destruct (reply_parts _ _ _ _ W R) as (Hb & Fs & _ & L & _ & B & _). specialize (L eq_refl).
  assert (Al : Altitude13 frame c feet).
  { apply (altitude13_bits frame _ c feet B). apply altitude13_ok; auto. }
  pose proof (df4_layout frame c feet Hb L ltac:(lookr 0%nat 1%nat) Al) as Rm.
  eexists. split; [apply (answered_ok _ _ _ _ _ W R Rm); discriminate|].
  cbn -[bits coding_code]. split; [lookr 1%nat 1%nat|]. split; [lookr 2%nat 1%nat|]. split; [|split; reflexivity].
  f_equal; [lookr 3%nat 1%nat|lookr 4%nat 1%nat].
Qed.

Theorem altitude_commb_told : forall status request interrogator designator coding feet altitude register icao frame,
  altitude13_fields coding feet altitude -> width register = 56 ->
  Reply (surveillance 20 status request interrogator designator altitude ++ register) icao frame ->
  exists d, answered frame icao (MDF20 d) /\
    modes_messages.MessageDF20_FlightStatus d = status /\
    modes_messages.MessageDF20_DownlinkRequest d = request /\
    modes_messages.MessageDF20_UtilityMessage d =
      {| modes_fields.UtilityMessage_InterrogatorIdentifier := interrogator; modes_fields.UtilityMessage_IdentifierDesignator := designator |} /\
    modes_messages.MessageDF20_AltitudeReportMethod d = coding_code coding /\
    modes_messages.MessageDF20_Altitude d = feet /\
    modes_messages.MessageDF20_MessageCommB d = message register.
Proof.
  intros fs dr ii ids c feet alt mb icao frame A Wm R.
  assert (W : width (surveillance 20 fs dr ii ids alt) = 32) by (unfold surveillance; rewrite width_app, (altitude13_width _ _ _ A); reflexivity).
  destruct (reply_parts _ _ _ _ W R) as (Hb & Fs & _ & _ & L & B & _). destruct (L Wm) as [L14 Lm].
  assert (Al : Altitude13 frame c feet).
  { apply (altitude13_bits frame _ c feet B). apply altitude13_ok; auto. }
  pose proof (df20_layout frame c feet Hb L14 ltac:(lookr 0%nat 1%nat) Al) as Rm.
  eexists. split; [apply (answered_ok _ _ _ _ _ W R Rm); discriminate|].
  cbn -[bits coding_code octets message]. split; [lookr 1%nat 1%nat|]. split; [lookr 2%nat 1%nat|].
  split; [f_equal; [lookr 3%nat 1%nat|lookr 4%nat 1%nat]|]. auto.
Qed.

(* ---- replies with a squawk ---- *)
Lemma squawk_width : forall a b c d, width (squawk_fields a b c d) = 13.
Proof. reflexivity. Qed.

Lemma bit_pulse : forall n x data i, bits i i data = snd (pulse n x) -> bit i data = (x / n mod 2 =? 1).
Proof. intros n x data i H. unfold bit. rewrite H. reflexivity. Qed.

Lemma octal_digit : forall n, octal n -> number [n / 4 mod 2 =? 1; n / 2 mod 2 =? 1; n / 1 mod 2 =? 1] = n.
Proof.
  intros n H. unfold octal in H. assert (X : n = 0 \/ n = 1 \/ n = 2 \/ n = 3 \/ n = 4 \/ n = 5 \/ n = 6 \/ n = 7) by lia.
  destruct X as [->|[->|[->|[->|[->|[->|[->| ->]]]]]]]; reflexivity.
Qed.

Lemma squawk_ok : forall df fs dr ii ids a b c d frame, octal a -> octal b -> octal c -> octal d ->
  fits (surveillance df fs dr ii ids (squawk_fields a b c d)) ->
  (forall i j, 1 <= i -> i <= j -> j <= 32 -> bits i j frame = bits i j (message (surveillance df fs dr ii ids (squawk_fields a b c d)))) ->
  identity13 frame = squawk a b c d.
Proof.
  intros df fs dr ii ids a b c d frame Ha Hb Hc Hd F B. unfold identity13.
  rewrite (bit_pulse 4 a frame 25), (bit_pulse 2 a frame 23), (bit_pulse 1 a frame 21), (octal_digit a Ha) by
    (first [lookr 10%nat 1%nat | lookr 8%nat 1%nat | lookr 6%nat 1%nat]).
  rewrite (bit_pulse 4 b frame 31), (bit_pulse 2 b frame 29), (bit_pulse 1 b frame 27), (octal_digit b Hb) by
    (first [lookr 16%nat 1%nat | lookr 14%nat 1%nat | lookr 12%nat 1%nat]).
  rewrite (bit_pulse 4 c frame 24), (bit_pulse 2 c frame 22), (bit_pulse 1 c frame 20), (octal_digit c Hc) by
    (first [lookr 9%nat 1%nat | lookr 7%nat 1%nat | lookr 5%nat 1%nat]).
  rewrite (bit_pulse 4 d frame 32), (bit_pulse 2 d frame 30), (bit_pulse 1 d frame 28), (octal_digit d Hd) by
    (first [lookr 17%nat 1%nat | lookr 15%nat 1%nat | lookr 13%nat 1%nat]).
  reflexivity.
Qed.

Theorem identity_reply_told : forall status request interrogator designator a b c d icao frame,
  octal a -> octal b -> octal c -> octal d ->
  Reply (surveillance 5 status request interrogator designator (squawk_fields a b c d)) icao frame ->
  exists m, answered frame icao (MDF5 m) /\
    modes_messages.MessageDF5_FlightStatus m = status /\
    modes_messages.MessageDF5_DownlinkRequest m = request /\
    modes_messages.MessageDF5_UtilityMessage m =
      {| modes_fields.UtilityMessage_InterrogatorIdentifier := interrogator; modes_fields.UtilityMessage_IdentifierDesignator := designator |} /\
    modes_messages.MessageDF5_Identity m = {| modes_fields.Identity_Identity := squawk a b c d |}.
Proof.
  intros fs dr ii ids a b c d icao frame Ha Hbb Hc Hd R.
  assert (W : width (surveillance 5 fs dr ii ids (squawk_fields a b c d)) = 32) by reflexivity.
  rewrite <- (app_nil_r (surveillance 5 fs dr ii ids (squawk_fields a b c d))) in R.
  destruct (reply_parts _ _ _ _ W R) as (Hb & Fs & _ & L & _ & B & _). specialize (L eq_refl).
  pose proof (df5_layout frame Hb L ltac:(lookr 0%nat 1%nat)) as Rm.
  eexists. split; [apply (answered_ok _ _ _ _ _ W R Rm); discriminate|].
  cbn -[bits identity13 squawk]. split; [lookr 1%nat 1%nat|]. split; [lookr 2%nat 1%nat|].
  split; [f_equal; [lookr 3%nat 1%nat|lookr 4%nat 1%nat]|].
  f_equal. apply (squawk_ok 5 fs dr ii ids); assumption.
Qed.

Theorem identity_commb_told : forall status request interrogator designator a b c d register icao frame,
  octal a -> octal b -> octal c -> octal d -> width register = 56 ->
  Reply (surveillance 21 status request interrogator designator (squawk_fields a b c d) ++ register) icao frame ->
  exists m, answered frame icao (MDF21 m) /\
    modes_messages.MessageDF21_FlightStatus m = status /\
    modes_messages.MessageDF21_DownlinkRequest m = request /\
    modes_messages.MessageDF21_UtilityMessage m =
      {| modes_fields.UtilityMessage_InterrogatorIdentifier := interrogator; modes_fields.UtilityMessage_IdentifierDesignator := designator |} /\
    modes_messages.MessageDF21_Identity m = {| modes_fields.Identity_Identity := squawk a b c d |} /\
    modes_messages.MessageDF21_MessageCommB m = message register.
Proof.
  intros fs dr ii ids a b c d mb icao frame Ha Hbb Hc Hd Wm R.
  assert (W : width (surveillance 21 fs dr ii ids (squawk_fields a b c d)) = 32) by reflexivity.
  destruct (reply_parts _ _ _ _ W R) as (Hb & Fs & _ & _ & L & B & _). destruct (L Wm) as [L14 Lm].
  pose proof (df21_layout frame Hb L14 ltac:(lookr 0%nat 1%nat)) as Rm.
  eexists. split; [apply (answered_ok _ _ _ _ _ W R Rm); discriminate|].
  cbn -[bits identity13 squawk octets message]. split; [lookr 1%nat 1%nat|]. split; [lookr 2%nat 1%nat|].
  split; [f_equal; [lookr 3%nat 1%nat|lookr 4%nat 1%nat]|].
  split; [f_equal; apply (squawk_ok 21 fs dr ii ids); assumption|exact Lm].
Qed.

(* ---- air-air replies ---- *)
Theorem air_air_told : forall vertical crosslink sensitivity information coding feet altitude icao frame,
  altitude13_fields coding feet altitude ->
  Reply (air_air vertical crosslink sensitivity information altitude) icao frame ->
  exists d, answered frame icao (MDF0 d) /\
    modes_messages.MessageDF0_VerticalStatus d = vertical /\
    modes_messages.MessageDF0_CrossLinkCapability d = crosslink /\
    modes_messages.MessageDF0_SensitivityLevel d = sensitivity /\
    modes_messages.MessageDF0_ReplyInformation d = information /\
    modes_messages.MessageDF0_AltitudeReportMethod d = coding_code coding /\
    modes_messages.MessageDF0_Altitude d = feet.
Proof.
  intros vs cc sl ri c feet alt icao frame A R.
  assert (W : width (air_air vs cc sl ri alt) = 32) by (unfold air_air; rewrite width_app, (altitude13_width _ _ _ A); reflexivity).
  rewrite <- (app_nil_r (air_air vs cc sl ri alt)) in R.
  destruct (reply_parts _ _ _ _ W R) as (Hb & Fs & _ & L & _ & B & _). specialize (L eq_refl).
  assert (Al : Altitude13 frame c feet).
  { apply (altitude13_bits frame _ c feet B). apply altitude13_ok; auto. }
  pose proof (df0_layout frame c feet Hb L ltac:(lookr 0%nat 1%nat) Al) as Rm.
  eexists. split; [apply (answered_ok _ _ _ _ _ W R Rm); discriminate|].
  cbn -[bits coding_code]. split; [lookr 1%nat 1%nat|]. split; [lookr 2%nat 1%nat|]. split; [lookr 4%nat 1%nat|]. split; [lookr 6%nat 1%nat|split; reflexivity].
Qed.

Theorem air_air_long_told : forall vertical sensitivity information coding feet altitude mv icao frame,
  altitude13_fields coding feet altitude -> width mv = 56 ->
  Reply (air_air_long vertical sensitivity information altitude mv) icao frame ->
  exists d, answered frame icao (MDF16 d) /\
    modes_messages.MessageDF16_VerticalStatus d = vertical /\
    modes_messages.MessageDF16_SensitivityLevel d = sensitivity /\
    modes_messages.MessageDF16_ReplyInformation d = information /\
    modes_messages.MessageDF16_AltitudeReportMethod d = coding_code coding /\
    modes_messages.MessageDF16_Altitude d = feet /\
    modes_messages.MessageDF16_MessageACAS d = message mv.
Proof.
  intros vs sl ri c feet alt mv icao frame A Wm R.
  unfold air_air_long in R. rewrite app_assoc in R.
  set (s := [(5, 16); (1, vs); (2, 0); (3, sl); (2, 0); (4, ri); (2, 0)] ++ alt) in *.
  assert (W : width s = 32) by (unfold s; rewrite width_app, (altitude13_width _ _ _ A); reflexivity).
  destruct (reply_parts _ _ _ _ W R) as (Hb & Fs & _ & _ & L & B & _). destruct (L Wm) as [L14 Lm].
  assert (Al : Altitude13 frame c feet).
  { apply (altitude13_bits frame _ c feet B). apply altitude13_ok; auto. }
  pose proof (df16_layout frame c feet Hb L14 ltac:(lookr 0%nat 1%nat) Al) as Rm.
  eexists. split; [apply (answered_ok _ _ _ _ _ W R Rm); discriminate|].
  cbn -[bits coding_code octets message]. split; [lookr 1%nat 1%nat|]. split; [lookr 3%nat 1%nat|]. split; [lookr 5%nat 1%nat|]. auto.
Qed.

(* ---- all-call replies ---- *)
Theorem all_call_told : forall capability icao interrogator frame,
  Reply (all_call capability icao) interrogator frame ->
  exists d, ReadMessage frame = Ok (MDF11 d) /\
    modes_messages.MessageDF11_Capability d = capability /\
    modes_messages.MessageDF11_AddressAnnounced d = {| modes_fields.AddressAnnounced_Address := icao |} /\
    forall addresses interrogators x, CheckCRC (MDF11 d) frame addresses interrogators = Ok x <-> x = interrogator /\ admits interrogators interrogator.
Proof.
  intros ca icao ov frame R.
  assert (W : width (all_call ca icao) = 32) by reflexivity.
  rewrite <- (app_nil_r (all_call ca icao)) in R.
  destruct (reply_parts _ _ _ _ W R) as (Hb & Fs & _ & L & _ & B & Ov & p & P & E). specialize (L eq_refl).
  pose proof (df11_layout frame Hb L ltac:(lookr 0%nat 1%nat)) as Rm.
  eexists. split; [exact Rm|]. cbn [modes_messages.MessageDF11_Capability modes_messages.MessageDF11_AddressAnnounced].
  split; [lookr 1%nat 1%nat|]. split; [f_equal; lookr 2%nat 1%nat|]. intros addresses interrogators x.
  exact (overlay_ok _ _ _ _ _ addresses interrogators x W R Rm ltac:(discriminate) ltac:(discriminate)).
Qed.

(* ---- such replies exist ---- *)
Theorem reply_exists : forall fields overlay, fits fields -> width fields = 32 \/ width fields = 88 -> 0 <= overlay < 2 ^ 24 ->
  exists frame, Reply fields overlay frame.
Proof.
  intros fs ov F W Ov.
  assert (exists k, width fs = 8 * k /\ 3 <= k) as (k & Wk & Hk) by (destruct W; [exists 4|exists 11]; lia).
  assert (L : len (message fs) = k) by (apply message_len; assumption).
  destruct (CrcCode.computeParity_ok (message fs) (message_bytes _) ltac:(lia)) as (p & _ & P).
  eexists. split; [exact F|]. split; [exact W|]. split; [exact Ov|]. exists p. split; [exact P|reflexivity].
Qed.

(* 37000 ft, no alert, airborne, by the aircraft 4840D6 *)
Example altitude_reply_example :
  altitude13_fields Feet25 37000 [(6, 1520 / 32); (1, 0); (1, 1520 / 16 mod 2); (1, 1); (4, 1520 mod 16)] /\
  Reply (surveillance 4 0 0 0 0 [(6, 1520 / 32); (1, 0); (1, 1520 / 16 mod 2); (1, 1); (4, 1520 mod 16)]) 0x4840D6
    [0x20; 0x0; 0x17; 0xb0; 0x4; 0xf9; 0xa1].
Proof.
  split; [apply (altitude13_25 1520); lia|].
  split; [repeat (constructor; [cbn; lia|]); constructor|]. split; [left; reflexivity|]. split; [lia|].
  exists (Z.lxor 0x04F9A1 0x4840D6). split; [|reflexivity].
  apply parity_is_remainder; [apply message_bytes|vm_compute; discriminate|vm_compute; reflexivity].
Qed.

(* 3700 ft by the pulses of Mode C *)
Example altitude13_example : exists alt, altitude13_fields Feet100 3700 alt.
Proof.
  eexists. apply (altitude13_100 3700 false false false false true true false true false false true).
  exists 49. split; [lia|]. split; [lia|reflexivity].
Qed.

(* emergency, 7700 *)
Example identity_reply_example : exists frame, octal 7 /\ octal 0 /\ Reply (surveillance 5 2 0 0 0 (squawk_fields 7 7 0 0)) 0x4840D6 frame.
Proof.
  destruct (reply_exists (surveillance 5 2 0 0 0 (squawk_fields 7 7 0 0)) 0x4840D6) as [frame R].
  - repeat (constructor; [cbn; lia|]). constructor.
  - left. reflexivity.
  - lia.
  - exists frame. split; [unfold octal; lia|]. split; [unfold octal; lia|exact R].
Qed.

Example all_call_example : exists frame, Reply (all_call 5 0x4840D6) 7 frame.
Proof. apply reply_exists; [repeat (constructor; [cbn; lia|]); constructor|left; reflexivity|lia]. Qed.
