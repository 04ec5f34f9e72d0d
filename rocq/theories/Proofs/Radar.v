(* C113: replies are kept under the address of the aircraft that answered, once it is known. *)
From Verif.Proofs Require Import Tac.
From Verif.Spec Require Import Altitude ModeS Crc Squitter Reply Lossless Noise Radar.
From Verif.Gen Require modes_messages modes_fields modes_common.
From Verif.Model Require Import Crc ModesReader.
From Verif.Proofs Require Import CommB1 ModesFields ModeSReader CrcReader Octets Squitter.
From Verif.Proofs Require Lossless Noise Reply.
From Coq Require Import List.
Local Open Scope Z_scope.

(* replies: the check of the parity gives the address of the aircraft that sent the frame, if it is in the list *)
Lemma resolved : forall frame m addresses a, bytes frame -> ReadMessage frame = Ok m ->
  GetDownLinkFormat m <> 11 -> GetDownLinkFormat m <> 17 -> GetDownLinkFormat m <> 18 ->
  (CheckCRC m frame addresses [] = Ok a <-> (exists fields, Reply fields a frame) /\ admits addresses a).
Proof.
  intros frame m al a Hb Hm N1 N2 N3. destruct (overlay_check frame m al [] Hb Hm N2 N3) as (I & _ & _).
  apply Z.eqb_neq in N1. rewrite N1 in I. split.
  - intros C. split; [|apply I, C]. destruct (Lossless.accepted_sent _ _ _ _ _ Hb Hm C) as (fs & _ & R). exists fs.
    destruct (announced m) eqn:E; [|exact R]. exfalso.
    destruct (message_kind frame m Hb Hm) as [G K]. cbv zeta in G, K. destruct m; try discriminate E; rewrite G, K in *; cbn in *; congruence.
  - intros [[fs R] A]. apply I. destruct (Noise.reply_codeword _ _ _ R) as (_ & _ & Ra & C). auto.
Qed.

Lemma squitter_any : forall frame d addresses a, bytes frame -> ReadMessage frame = Ok (MDF17 d) ->
  (CheckCRC (MDF17 d) frame addresses [] = Ok a <-> CheckCRC (MDF17 d) frame [] [] = Ok a).
Proof.
  intros frame d al a Hb Hm.
  assert (Q : GetDownLinkFormat (MDF17 d) = 17).
  { destruct (message_kind frame _ Hb Hm) as [G K]. rewrite G, K. reflexivity. }
  destruct (extended_squitter_check frame _ al [] Hb Hm (or_introl Q)) as (I & _).
  destruct (extended_squitter_check frame _ [] [] Hb Hm (or_introl Q)) as (J & _).
  rewrite I, J. reflexivity.
Qed.

(* the sender of a frame is one aircraft *)
Lemma one_sender : forall frame m a b fields fields', bytes frame -> ReadMessage frame = Ok m ->
  GetDownLinkFormat m <> 11 -> GetDownLinkFormat m <> 17 -> GetDownLinkFormat m <> 18 ->
  Reply fields a frame -> Reply fields' b frame -> a = b.
Proof.
  intros frame m a b fs fs' Hb Hm N1 N2 N3 R R'.
  pose proof (proj2 (resolved frame m [] a Hb Hm N1 N2 N3)) as A. pose proof (proj2 (resolved frame m [] b Hb Hm N1 N2 N3)) as B.
  rewrite A in B; [|split; [eauto|left; reflexivity]]. assert (E : Ok a = Ok b) by (apply B; split; [eauto|left; reflexivity]). congruence.
Qed.

Lemma has_in : forall icao l, has icao l = true <-> exists v, In (icao, v) l.
Proof.
  intros icao l. unfold has. rewrite existsb_exists. split.
  - intros ((a & v) & I & E). cbn [fst] in E. apply Z.eqb_eq in E. subst a. eauto.
  - intros (v & I). exists (icao, v). split; [exact I|]. cbn [fst]. apply Z.eqb_refl.
Qed.

Lemma admits_has : forall icao l, l <> [] -> (admits l icao <-> has icao l = true).
Proof.
  intros icao l N. rewrite has_in. unfold admits. split; [intros [E|E]; [contradiction|exact E]|auto].
Qed.

(* what is kept of an aircraft *)
Definition entry (icao : Z) (r : radar) := (has icao (known r), altitudes r icao, squawks r icao).

(* one reply: when the aircraft is known its entry changes, and otherwise nothing *)
Lemma reply_checked : forall r frame icao fields m, known r <> [] -> Reply fields icao frame -> ReadMessage frame = Ok m ->
  GetDownLinkFormat m <> 11 -> GetDownLinkFormat m <> 17 -> GetDownLinkFormat m <> 18 ->
  if has icao (known r) then CheckCRC m frame (known r) [] = Ok icao else forall a, CheckCRC m frame (known r) [] <> Ok a.
Proof.
  intros r frame icao fs m N R Hm N1 N2 N3. assert (Hb : bytes frame) by apply (Noise.reply_codeword _ _ _ R).
  destruct (has icao (known r)) eqn:H.
  - apply (resolved frame m (known r) icao Hb Hm N1 N2 N3). split; [eauto|]. apply admits_has; assumption.
  - intros a C. apply (resolved frame m (known r) a Hb Hm N1 N2 N3) in C as [[fs' R'] A].
    assert (a = icao) as -> by exact (one_sender _ _ _ _ _ _ Hb Hm N1 N2 N3 R' R).
    apply admits_has in A; [congruence|exact N].
Qed.

Lemma at_same : forall A (x : A) t icao, at_address icao x t icao = Some x.
Proof. intros. unfold at_address. rewrite Z.eqb_refl. reflexivity. Qed.

Lemma at_other : forall A (x : A) t a icao, a <> icao -> at_address a x t icao = t icao.
Proof. intros. unfold at_address. destruct (Z.eqb_spec icao a); congruence. Qed.

Lemma scan_nonempty : forall r frame, known r <> [] -> known (scan r frame) <> [].
Proof.
  intros r frame N. unfold scan. destruct (ReadMessage frame) as [m| |]; try exact N.
  destruct (CheckCRC m frame (known r) []) as [a| |]; try exact N. destruct m; cbn; try exact N. discriminate.
Qed.

Lemma scan_squitter : forall r frame icao ca payload, Squitter ca icao payload frame ->
  entry icao (scan r frame) = (true, altitudes r icao, squawks r icao).
Proof.
  intros r frame icao ca payload S.
  destruct (squitter_received ca icao payload frame S) as (_ & _ & d & R & C & _).
  assert (Hb : bytes frame) by (destruct S as (_ & _ & _ & p & _ & ->); apply message_bytes).
  unfold scan. rewrite R. apply (squitter_any frame d (known r) icao Hb R) in C. rewrite C.
  unfold entry. cbn [known altitudes squawks has existsb fst]. rewrite Z.eqb_refl. reflexivity.
Qed.

Lemma scan_altitude : forall r frame icao fields coding feet, known r <> [] ->
  Reply fields icao frame -> altitude_reply frame -> Altitude13 frame coding feet ->
  entry icao (scan r frame) =
    (has icao (known r), if has icao (known r) then Some (coding_code coding, feet) else altitudes r icao, squawks r icao).
Proof.
  intros r frame icao fs coding feet N R D A.
  assert (Hb : bytes frame) by apply (Noise.reply_codeword _ _ _ R).
  assert (G : forall m, ReadMessage frame = Ok m -> GetDownLinkFormat m = bits 1 5 frame).
  { intros m Hm. destruct (message_kind frame m Hb Hm) as [E _]. rewrite E. destruct (Z.leb_spec 24 (bits 1 5 frame)); [|reflexivity].
    destruct D as [[_ [D|D]]|[_ [D|D]]]; lia. }
  assert (F : forall m, ReadMessage frame = Ok m ->
    (forall a, (match m with
                | MDF17 _ => {| known := (a, true) :: known r; altitudes := altitudes r; squawks := squawks r |}
                | MDF0 d => keep_altitude r a (modes_messages.MessageDF0_AltitudeReportMethod d) (modes_messages.MessageDF0_Altitude d)
                | MDF4 d => keep_altitude r a (modes_messages.MessageDF4_AltitudeReportMethod d) (modes_messages.MessageDF4_Altitude d)
                | MDF16 d => keep_altitude r a (modes_messages.MessageDF16_AltitudeReportMethod d) (modes_messages.MessageDF16_Altitude d)
                | MDF20 d => keep_altitude r a (modes_messages.MessageDF20_AltitudeReportMethod d) (modes_messages.MessageDF20_Altitude d)
                | MDF5 d => keep_squawk r a (modes_messages.MessageDF5_Identity d)
                | MDF21 d => keep_squawk r a (modes_messages.MessageDF21_Identity d)
                | _ => r end) = keep_altitude r a (coding_code coding) feet) ->
    entry icao (scan r frame) = (has icao (known r), if has icao (known r) then Some (coding_code coding, feet) else altitudes r icao, squawks r icao)).
  { intros m Hm E. assert (K : GetDownLinkFormat m <> 11 /\ GetDownLinkFormat m <> 17 /\ GetDownLinkFormat m <> 18).
    { rewrite (G m Hm). destruct D as [[_ [D|D]]|[_ [D|D]]]; lia. }
    destruct K as (K1 & K2 & K3). pose proof (reply_checked r frame icao fs m N R Hm K1 K2 K3) as C.
    unfold scan. rewrite Hm. unfold entry. destruct (has icao (known r)) eqn:H.
    - rewrite C, E. cbn [known altitudes squawks keep_altitude]. rewrite H, at_same. reflexivity.
    - destruct (CheckCRC m frame (known r) []) as [a| |]; [exfalso; exact (C a eq_refl)|rewrite H; reflexivity|rewrite H; reflexivity]. }
  destruct D as [[L [D|D]]|[L [D|D]]].
  - refine (F _ (df0_layout frame coding feet Hb L D A) _). reflexivity.
  - refine (F _ (df4_layout frame coding feet Hb L D A) _). reflexivity.
  - refine (F _ (df16_layout frame coding feet Hb L D A) _). reflexivity.
  - refine (F _ (df20_layout frame coding feet Hb L D A) _). reflexivity.
Qed.

Lemma scan_squawk : forall r frame icao fields, known r <> [] ->
  Reply fields icao frame -> squawk_reply frame ->
  entry icao (scan r frame) =
    (has icao (known r), altitudes r icao, if has icao (known r) then Some (identity13 frame) else squawks r icao).
Proof.
  intros r frame icao fs N R D.
  assert (Hb : bytes frame) by apply (Noise.reply_codeword _ _ _ R).
  destruct D as [[L D]|[L D]].
  - pose proof (df5_layout frame Hb L D) as Hm.
    match type of Hm with _ = Ok ?m => assert (G : GetDownLinkFormat m = 5) by (destruct (message_kind frame m Hb Hm) as [-> _]; rewrite D; reflexivity);
      pose proof (reply_checked r frame icao fs m N R Hm ltac:(lia) ltac:(lia) ltac:(lia)) as C; set (m0 := m) in * end.
    unfold scan. rewrite Hm. unfold entry. destruct (has icao (known r)) eqn:H.
    + rewrite C. unfold m0. cbn [known altitudes squawks keep_squawk modes_messages.MessageDF5_Identity modes_fields.Identity_Identity].
      rewrite H, at_same. reflexivity.
    + destruct (CheckCRC m0 frame (known r) []) as [a| |]; [exfalso; exact (C a eq_refl)|rewrite H; reflexivity|rewrite H; reflexivity].
  - pose proof (df21_layout frame Hb L D) as Hm.
    match type of Hm with _ = Ok ?m => assert (G : GetDownLinkFormat m = 21) by (destruct (message_kind frame m Hb Hm) as [-> _]; rewrite D; reflexivity);
      pose proof (reply_checked r frame icao fs m N R Hm ltac:(lia) ltac:(lia) ltac:(lia)) as C; set (m0 := m) in * end.
    unfold scan. rewrite Hm. unfold entry. destruct (has icao (known r)) eqn:H.
    + rewrite C. unfold m0. cbn [known altitudes squawks keep_squawk modes_messages.MessageDF21_Identity modes_fields.Identity_Identity].
      rewrite H, at_same. reflexivity.
    + destruct (CheckCRC m0 frame (known r) []) as [a| |]; [exfalso; exact (C a eq_refl)|rewrite H; reflexivity|rewrite H; reflexivity].
Qed.

(* a frame that is read has an altitude that means one *)
Lemma readable : forall frame m, bytes frame -> ReadMessage frame = Ok m ->
  (match m with MDF0 _ | MDF4 _ | MDF16 _ | MDF20 _ => altitude_reply frame /\ exists coding feet, Altitude13 frame coding feet
   | MDF5 _ | MDF21 _ => squawk_reply frame | _ => True end).
Proof.
  intros frame m Hb Hm. destruct (message_kind frame m Hb Hm) as [_ K]. cbv zeta in K.
  destruct (proj1 (read_message_accepts frame Hb)) as [F A]; [eauto|]. unfold short_format, long_format in F.
  unfold altitude_reply, squawk_reply, has_altitude in *.
  destruct m; try exact I; (try (split; [lia|])); try (apply A; lia); lia.
Qed.

Lemma scan_foreign : forall r frame icao, foreign icao frame -> entry icao (scan r frame) = entry icao r.
Proof.
  intros r frame icao (Hb & NS & NR). unfold scan. destruct (ReadMessage frame) as [m| |] eqn:Hm; try reflexivity.
  destruct (CheckCRC m frame (known r) []) as [a| |] eqn:C; try reflexivity.
  pose proof (readable frame m Hb Hm) as Rd. destruct (message_kind frame m Hb Hm) as [G K]. cbv zeta in G, K.
  assert (Re : (GetDownLinkFormat m <> 11 -> GetDownLinkFormat m <> 17 -> GetDownLinkFormat m <> 18 -> exists fields, Reply fields a frame)).
  { intros N1 N2 N3. apply (resolved frame m (known r) a Hb Hm N1 N2 N3) in C. apply C. }
  destruct m; try reflexivity; unfold entry, keep_altitude, keep_squawk; cbn [known altitudes squawks].
  all: try (destruct Re as [fs Re]; [rewrite G, K; discriminate|rewrite G, K; discriminate|rewrite G, K; discriminate|]).
  all: try (rewrite at_other; [reflexivity|]; intros ->; destruct (NR fs Re) as [X Y]).
  1,2,4,6: destruct Rd as (R1 & coding & feet & R2); exact (Y R1 _ _ R2).
  1,3: exact (X Rd).
  - cbn [has existsb fst]. destruct (Z.eqb_spec a icao) as [->|]; [|reflexivity]. exfalso.
    apply (squitter_any frame _ (known r) icao Hb Hm) in C.
    destruct (proj1 (Lossless.squitter_iff frame icao Hb)) as (ca & payload & S); [eauto|]. exact (NS _ _ S).
Qed.

(* ---- any history ---- *)
Definition shown (altitude : option (AltitudeCoding * Z)) : option (Z * Z) :=
  match altitude with Some (coding, feet) => Some (coding_code coding, feet) | None => None end.

Theorem replies_kept : forall addresses frames icao known' altitude squawk,
  addresses <> [] -> told icao (has icao addresses) frames known' altitude squawk ->
  let r := scanned addresses frames in
  has icao (known r) = known' /\
  altitudes r icao = match altitude with Some (coding, feet) => Some (coding_code coding, feet) | None => None end /\
  squawks r icao = squawk.
Proof.
  intros addresses frames icao k alt sq N T. cbv zeta. fold (shown alt).
  enough (J : known (scanned addresses frames) <> [] /\ entry icao (scanned addresses frames) = (k, shown alt, sq)).
  { destruct J as [_ J]. unfold entry in J. injection J as J1 J2 J3. auto. }
  induction T as [|frames frame k alt sq ca payload T IH S|frames frame k alt sq fs c feet T IH R D A|frames frame k alt sq fs T IH R D|frames frame k alt sq T IH F];
    [split; [exact N|reflexivity]|..]; unfold scanned in *; rewrite fold_left_app; cbn [fold_left];
    destruct IH as [IN IE]; (split; [apply scan_nonempty, IN|]); unfold entry in IE; injection IE as E1 E2 E3.
  - rewrite (scan_squitter _ _ _ _ _ S). congruence.
  - rewrite (scan_altitude _ _ _ _ _ _ IN R D A). rewrite E1, E2, E3. destruct k; reflexivity.
  - rewrite (scan_squawk _ _ _ _ IN R D). rewrite E1, E2, E3. reflexivity.
  - rewrite (scan_foreign _ _ _ F). unfold entry. congruence.
Qed.

(* every frame of every history is one of these, for each aircraft *)
Theorem histories : forall icao start frames, Forall bytes frames -> exists known altitude squawk, told icao start frames known altitude squawk.
Proof.
  intros icao start frames. induction frames as [|frame frames IH] using rev_ind; intros B.
  - exists start, None, None. constructor.
  - apply Forall_app in B as [B1 B2]. inversion B2 as [|? ? Hb _]; subst. destruct (IH B1) as (k & alt & sq & T).
    assert (Dec : (exists ca payload, Squitter ca icao payload frame) \/
                  (exists fs, Reply fs icao frame) /\ (squawk_reply frame \/ altitude_reply frame /\ exists c f, Altitude13 frame c f) \/ foreign icao frame).
    { destruct (ReadMessage frame) as [m| |] eqn:Hm.
      2,3: right; right; split; [exact Hb|]; split;
        [intros ca payload S; destruct (squitter_received ca icao payload frame S) as (_ & _ & d & R & _); congruence|];
        intros fs R; assert (NA : ~ exists m, ReadMessage frame = Ok m) by (intros [m X]; congruence);
        rewrite (read_message_accepts frame Hb) in NA; split;
        [intros D; apply NA; unfold squawk_reply, short_format, long_format, has_altitude in *; split; [lia|intros Q; exfalso; lia]
        |intros D c f A; apply NA; unfold altitude_reply, short_format, long_format in *; split; [lia|eauto]].
      destruct (message_kind frame m Hb Hm) as [G K]. cbv zeta in G, K. pose proof (readable frame m Hb Hm) as Rd.
      destruct (CheckCRC m frame [] []) as [a| |] eqn:C; [destruct (Z.eq_dec a icao) as [->|Ne]|..].
      - destruct m; try (right; right; split; [exact Hb|]; split;
          [intros ca payload S; destruct (squitter_received ca icao payload frame S) as (_ & _ & d' & R & _); congruence|];
          intros fs R; unfold squawk_reply, altitude_reply; split; [lia|intros D; lia]).
        all: try (right; left; split; [destruct (Lossless.accepted_sent _ _ _ _ _ Hb Hm C) as (fs & _ & R); exists fs; exact R|auto]; fail).
        left. apply (Lossless.squitter_iff frame icao Hb). eauto.
        right; right; split; [exact Hb|]; split;
          [intros ca payload S; destruct (squitter_received ca icao payload frame S) as (_ & _ & d' & R & _); congruence|].
        destruct (read_len frame _ Hb Hm) as (_ & _ & L).
        assert (J : bits 1 5 frame = bits 1 2 frame * 8 + bits 3 5 frame) by (apply (bits_join 1 2 5); lia).
        pose proof (bits_range 3 5 frame ltac:(lia)). intros fs R; unfold squawk_reply, altitude_reply; split; [lia|intros D; lia].
      - right; right. split; [exact Hb|]. split.
        + intros ca payload S. apply Ne. destruct (squitter_received ca icao payload frame S) as (_ & _ & d & R & C' & _).
          rewrite Hm in R. injection R as ->. congruence.
        + intros fs R. assert (X : GetDownLinkFormat m <> 11 -> GetDownLinkFormat m <> 17 -> GetDownLinkFormat m <> 18 -> False).
          { intros N1 N2 N3. apply Ne. assert (Q : CheckCRC m frame [] [] = Ok icao) by (apply (resolved frame m [] icao Hb Hm N1 N2 N3); split; [eauto|left; reflexivity]). congruence. }
          assert (Y : In (bits 1 5 frame) [0; 4; 5; 16; 20; 21] -> False).
          { intros Q. cbn [In] in Q. apply X; rewrite G; (destruct (Z.leb_spec 24 (bits 1 5 frame)); lia). }
          split; [intros D; apply Y; unfold squawk_reply in D; cbn [In]; lia|intros D; exfalso; apply Y; unfold altitude_reply in D; cbn [In]; lia].
      - right; right. split; [exact Hb|]. split.
        + intros ca payload S. destruct (squitter_received ca icao payload frame S) as (_ & _ & d & R & C' & _).
          rewrite Hm in R. injection R as ->. congruence.
        + intros fs R. assert (X : GetDownLinkFormat m <> 11 -> GetDownLinkFormat m <> 17 -> GetDownLinkFormat m <> 18 -> False).
          { intros N1 N2 N3. assert (Q : CheckCRC m frame [] [] = Ok icao) by (apply (resolved frame m [] icao Hb Hm N1 N2 N3); split; [eauto|left; reflexivity]). congruence. }
          assert (Y : In (bits 1 5 frame) [0; 4; 5; 16; 20; 21] -> False).
          { intros Q. cbn [In] in Q. apply X; rewrite G; (destruct (Z.leb_spec 24 (bits 1 5 frame)); lia). }
          split; [intros D; apply Y; unfold squawk_reply in D; cbn [In]; lia|intros D; exfalso; apply Y; unfold altitude_reply in D; cbn [In]; lia].
      - right; right. split; [exact Hb|]. split.
        + intros ca payload S. destruct (squitter_received ca icao payload frame S) as (_ & _ & d & R & C' & _).
          rewrite Hm in R. injection R as ->. congruence.
        + intros fs R. assert (X : GetDownLinkFormat m <> 11 -> GetDownLinkFormat m <> 17 -> GetDownLinkFormat m <> 18 -> False).
          { intros N1 N2 N3. assert (Q : CheckCRC m frame [] [] = Ok icao) by (apply (resolved frame m [] icao Hb Hm N1 N2 N3); split; [eauto|left; reflexivity]). congruence. }
          assert (Y : In (bits 1 5 frame) [0; 4; 5; 16; 20; 21] -> False).
          { intros Q. cbn [In] in Q. apply X; rewrite G; (destruct (Z.leb_spec 24 (bits 1 5 frame)); lia). }
          split; [intros D; apply Y; unfold squawk_reply in D; cbn [In]; lia|intros D; exfalso; apply Y; unfold altitude_reply in D; cbn [In]; lia]. }
    destruct Dec as [(ca & payload & S)|[[[fs R] [D|(D & c & f & A)]]|F]].
    + do 3 eexists. exact (told_address _ _ _ _ _ _ _ _ _ T S).
    + do 3 eexists. exact (told_squawk _ _ _ _ _ _ _ _ T R D).
    + do 3 eexists. exact (told_altitude _ _ _ _ _ _ _ _ _ _ T R D A).
    + do 3 eexists. exact (told_foreign _ _ _ _ _ _ _ T F).
Qed.

(* ---- what other frames may be ---- *)
Lemma sender_unique : forall frame a b fields fields', Reply fields a frame -> Reply fields' b frame -> a = b.
Proof.
  intros frame a b fs fs' R R'. destruct (Noise.reply_codeword _ _ _ R) as (_ & _ & Ra & C). destruct (Noise.reply_codeword _ _ _ R') as (_ & _ & Rb & C').
  pose proof (CrcPoly.codeword_lxor _ _ C C') as Q. rewrite CrcPoly.lxor_4, Z.lxor_nilpotent, Z.lxor_0_l in Q.
  apply Z.lxor_eq. apply CrcPoly.codeword_small; [exact Q|]. apply (CrcCode.lxor_range 24); lia.
Qed.

Lemma squitter_format : forall ca icao payload frame, Squitter ca icao payload frame -> extended frame.
Proof.
  intros ca icao payload frame S. assert (Hb : bytes frame) by (destruct S as (_ & _ & _ & p & _ & ->); apply message_bytes).
  destruct (squitter_received _ _ _ _ S) as (_ & _ & d & R & _). left. apply (message_kind frame _ Hb R).
Qed.

(* a reply of another aircraft *)
Theorem foreign_sender : forall fields icao icao' frame, Reply fields icao' frame -> ~ extended frame -> icao' <> icao -> foreign icao frame.
Proof.
  intros fs icao icao' frame R E N. split; [apply (Noise.reply_codeword _ _ _ R)|]. split.
  - intros ca payload S. exact (E (squitter_format _ _ _ _ S)).
  - intros fs' R'. exfalso. exact (N (sender_unique _ _ _ _ _ R R')).
Qed.

(* a squitter of another aircraft *)
Theorem foreign_squitter : forall capability payload icao icao' frame, Squitter capability icao' payload frame -> icao' <> icao -> foreign icao frame.
Proof.
  intros ca payload icao icao' frame S N. assert (Hb : bytes frame) by (destruct S as (_ & _ & _ & p & _ & ->); apply message_bytes).
  split; [exact Hb|]. destruct (squitter_received _ _ _ _ S) as (_ & _ & d & R & C & _). split.
  - intros ca' payload' S'. destruct (squitter_received _ _ _ _ S') as (_ & _ & d' & R' & C' & _). rewrite R in R'. injection R' as <-. congruence.
  - pose proof (proj2 (message_kind frame _ Hb R)) as K. cbv zeta in K. intros fs _. unfold squawk_reply, altitude_reply. lia.
Qed.

(* a reply heard with up to five wrong bits, an odd number of them, or a burst of up to 24 bits, when it is not read as a squitter: it
   changes nothing of its sender *)
Theorem foreign_damaged : forall fields icao sent heard, Reply fields icao sent -> damaged sent heard -> ~ extended heard -> foreign icao heard.
Proof.
  intros fs icao sent heard R D E. destruct (Noise.reply_codeword _ _ _ R) as (Bs & L & _ & C). split; [apply D|]. split.
  - intros ca payload S. exact (E (squitter_format _ _ _ _ S)).
  - intros fs' R'. exfalso. destruct (Noise.reply_codeword _ _ _ R') as (_ & _ & _ & C').
    apply (Noise.damage_seen sent heard Bs ltac:(lia) D).
    pose proof (CrcPoly.codeword_lxor _ _ C C') as Q. rewrite CrcPoly.lxor_4, Z.lxor_nilpotent, Z.lxor_0_r in Q. exact Q.
Qed.

(* with an empty list, every reply is kept, for some address, whether there is such an aircraft or not *)
Theorem empty_list : forall frame coding feet, bytes frame -> altitude_reply frame -> Altitude13 frame coding feet ->
  exists icao, altitudes (scanned [] [frame]) icao = Some (coding_code coding, feet).
Proof.
  intros frame c feet Hb D A.
  assert (F : forall m, ReadMessage frame = Ok m -> exists a, CheckCRC m frame [] [] = Ok a).
  { intros m Hm. assert (G : GetDownLinkFormat m = bits 1 5 frame).
    { destruct (message_kind frame m Hb Hm) as [E _]. rewrite E. destruct (Z.leb_spec 24 (bits 1 5 frame)); [|reflexivity].
      destruct D as [[_ [D|D]]|[_ [D|D]]]; lia. }
    destruct (overlay_check frame m [] [] Hb Hm) as (I & (a & X) & _); [unfold altitude_reply in D; lia|unfold altitude_reply in D; lia|].
    exists a. apply I. split; [exact X|]. destruct (_ =? _); left; reflexivity. }
  destruct D as [[L [D|D]]|[L [D|D]]];
    [pose proof (df0_layout frame c feet Hb L D A) as Hm|pose proof (df4_layout frame c feet Hb L D A) as Hm
    |pose proof (df16_layout frame c feet Hb L D A) as Hm|pose proof (df20_layout frame c feet Hb L D A) as Hm];
    destruct (F _ Hm) as [a C]; exists a; unfold scanned; cbn [fold_left]; unfold scan; rewrite Hm; cbn [radar_start known]; rewrite C;
    cbn -[coding_code]; apply at_same.
Qed.

(* an altitude, a squitter of the aircraft, the altitude again: it is kept only when the aircraft is known *)
Example radar_example :
  let reply := [0x20; 0x0; 0x17; 0xb0; 0x4; 0xf9; 0xa1] in
  let squitter := [0x8D; 0x48; 0x40; 0xD6; 0x20; 0x2C; 0xC3; 0x71; 0xC3; 0x2C; 0xE0; 0x57; 0x60; 0x98] in
  (exists fields, Reply fields 0x4840D6 reply) /\ altitude_reply reply /\ Altitude13 reply Feet25 37000 /\
  (exists capability payload, Squitter capability 0x4840D6 payload squitter) /\
  told 0x4840D6 false [reply; squitter; reply] true (Some (Feet25, 37000)) None /\
  altitudes (scanned [(0, true)] [reply]) 0x4840D6 = None /\
  altitudes (scanned [(0, true)] [reply; squitter; reply]) 0x4840D6 = Some (coding_code Feet25, 37000) /\
  altitudes (scanned [] [reply]) 0x4840D6 = Some (coding_code Feet25, 37000).
Proof.
  intros reply squitter.
  assert (R : exists fields, Reply fields 0x4840D6 reply) by (eexists; exact (proj2 Reply.altitude_reply_example)).
  assert (A1 : altitude_reply reply) by (left; vm_compute; auto).
  assert (A2 : Altitude13 reply Feet25 37000) by (exact (alt_25 reply eq_refl eq_refl)).
  assert (S : exists capability payload, Squitter capability 0x4840D6 payload squitter).
  { apply Lossless.squitter_iff; [unfold squitter; repeat (constructor; [unfold byte; lia|]); constructor|]. destruct Lossless.kept_example as (d & X & Y & _). exists d. exact (conj X Y). }
  split; [exact R|]. split; [exact A1|]. split; [exact A2|]. split; [exact S|]. split.
  - destruct R as [fs R]. destruct S as (ca & payload & S).
    change [reply; squitter; reply] with ((([] ++ [reply]) ++ [squitter]) ++ [reply]).
    refine (told_altitude _ _ _ _ true None None fs Feet25 37000 (told_address _ _ _ _ false None None ca payload _ S) R A1 A2).
    exact (told_altitude _ _ _ _ false None None fs Feet25 37000 (told_nothing _ _) R A1 A2).
  - vm_compute. auto.
Qed.
