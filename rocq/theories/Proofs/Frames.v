(* C101: the command prints what the library reads. *)
From Verif.Proofs Require Import Tac.
From Verif.Gen Require modes_messages modes_fields modes_common bds10 acas_ra bds50 bds65 bds61 adsb_aircraft_operational_status adsb_aircraft_status.
From Verif.Model Require Import Crc ModesReader Cmd.
From Verif.Model Require AdsbReader CommbReader.
From Verif.Spec Require Import Floats Altitude ModeS Crc Identification Adsb AdsbMessages Squitter Reply Payloads Statuses.
From Verif.Proofs Require Import ModeSReader CrcReader Octets AdsbApi CommBApi Texts ReportTools ReportsModeS ReportsApi Squitter Reply Registers2 Payloads Statuses.
From Verif.Proofs Require Command.
From Verif.Spec Require Import Text Report Reports Command.
Require Import String List.
Import ListNotations.
From Coq Require Import Reals.
From Verif.Spec Require Import Track Printout Frames.
From Verif.Proofs Require Import Printout.
Local Open Scope string_scope.
Local Open Scope list_scope.
Local Open Scope Z_scope.

Lemma registers_shown : forall ffmt data l t, (forall f, one_line (ffmt f)) -> bytes data ->
  CommbReader.ReadCommBMessage data = Ok l -> Forall printable_register l -> Command.listed ffmt l t ->
  exists t', t = (t' ++ nl)%string /\ shows (t' ++ nl ++ "")%string (registers_rows ffmt l ++ [("", heading)]).
Proof.
  intros ffmt data l t One Hb R P L.
  assert (Q : forall m, In m l -> exists text, CommbReader.Message_ToString ffmt m = Ok text /\ shows text (commb_rows ffmt m)).
  { intros m I. rewrite Forall_forall in P. destruct (P m I) as [P1 P2]. exact (commb_report_partial ffmt data l m One Hb R I P1 P2). }
  clear R P Hb. induction L as [m t E|m n ms t r E L IH].
  - exists t. split; [reflexivity|]. destruct (Q m (or_introl eq_refl)) as (t' & E' & S). replace t' with t in * by congruence.
    cbn [registers_rows]. apply shows_app; [exact S|exact shows_empty].
  - destruct IH as (r' & -> & Sr). { intros x I. apply Q. right. exact I. }
    destruct (Q m (or_introl eq_refl)) as (t' & E' & S). replace t' with t in * by congruence.
    exists (t ++ nl ++ "-------------------------------" ++ nl ++ r')%string.
    split. { unfold endl. change (String newline EmptyString) with nl. rewrite !app_assoc_s. reflexivity. }
    rewrite !app_assoc_s. change (registers_rows ffmt (m :: n :: ms)) with (commb_rows ffmt m ++ [("-------------------------------", heading)] ++ registers_rows ffmt (n :: ms)). rewrite <- !app_assoc.
    apply shows_app; [exact S|]. apply shows_head; [reflexivity|exact Sr].
Qed.

Lemma content_shown : forall ffmt matan2 level frame rows more, (forall f, one_line (ffmt f)) -> bytes frame -> 
  content ffmt matan2 level frame rows -> details ffmt matan2 level frame more -> shows more (rows ++ [("", heading)]).
Proof.
  intros ffmt matan2 level frame rows more One Hb C D.
  assert (Ho : forall i j, bytes (octets i j frame)) by (intros; apply Octets.octets_bytes; exact Hb).
  pose proof (bits_range 6 8 frame ltac:(lia)) as Rg.
  destruct C as [ra D1 D2 R P|m D1 R P|D1 D2|D1 D2|l D1 R N P|D1 R|D1]; destruct D as [t E1 E2 S|E1 E2|t E1 S|E1 E2|E1 E2|l' t E1 R' L|E1 R'|E1]; try (exfalso; lia).
  - rewrite R in S. inversion S as [|x t' T]; subst.
    destruct (ra_report_partial ffmt _ ra One (Ho 6 11) R P) as (t' & T' & Sh). replace t' with t in * by congruence.
    unfold endl. change (String newline EmptyString) with nl. rewrite app_assoc_s. cbn [app]. apply shows_head; [reflexivity|].
    change nl with (nl ++ "")%string. apply shows_app; [exact Sh|exact shows_empty].
  - rewrite R in S. inversion S as [|x t' T]; subst.
    destruct (adsb_report_partial ffmt matan2 level false false _ m One (Ho 5 11) R P) as (t' & T' & Sh). replace t' with t in * by congruence.
    unfold endl. change (String newline EmptyString) with nl. rewrite app_assoc_s. cbn [app]. apply shows_head; [reflexivity|].
    change nl with (nl ++ "")%string. apply shows_app; [exact Sh|exact shows_empty].
  - unfold endl. change (String newline EmptyString) with (nl ++ "")%string. rewrite ?app_assoc_s.
    apply shows_head; [reflexivity|]. apply shows_head; [reflexivity|]. exact shows_empty.
  - exact shows_empty.
  - replace l' with l in * by congruence. destruct (registers_shown ffmt _ l t One (Ho 5 11) R P L) as (t' & -> & Sh).
    unfold endl. change (String newline EmptyString) with nl. rewrite app_assoc_s. cbn [app]. apply shows_head; [reflexivity|].
    exact Sh.
  - congruence.
  - replace l' with (@nil CommbReader.Message) in * by congruence. inversion L.
  - unfold endl. change (String newline EmptyString) with (nl ++ "")%string. rewrite ?app_assoc_s.
    apply shows_head; [reflexivity|]. apply shows_head; [reflexivity|]. exact shows_empty.
  - unfold endl. change (String newline EmptyString) with (nl ++ "")%string. apply (shows_app "" ""); exact shows_empty.
Qed.

Lemma checked_range : forall frame m a, bytes frame -> ReadMessage frame = Ok m -> CheckCRC m frame [] [] = Ok a -> 0 <= a < 2 ^ 24.
Proof.
  intros frame m a Hb R C.
  destruct (Z.eq_dec (GetDownLinkFormat m) 17) as [E|N17]; [|destruct (Z.eq_dec (GetDownLinkFormat m) 18) as [E|N18]].
  - destruct (extended_squitter_check frame m [] [] Hb R (or_introl E)) as (I & _). apply I in C as [_ ->]. apply (bits_range 9 32); lia.
  - destruct (extended_squitter_check frame m [] [] Hb R (or_intror E)) as (I & _). apply I in C as [_ ->]. apply (bits_range 9 32); lia.
  - destruct (overlay_check frame m [] [] Hb R N17 N18) as (I & _). apply I in C as [[Ra _] _]. exact Ra.
Qed.

Theorem frame_printed : forall ffmt matan2 level line frame m a rows, (forall f, one_line (ffmt f)) -> hex_text line frame ->
  ReadMessage frame = Ok m -> CheckCRC m frame [] [] = Ok a -> content ffmt matan2 level frame rows ->
  exists out, processSingleLine ffmt matan2 line level = Ok out /\ shows out (printout line (origin frame) a (modes_rows m) rows).
Proof.
  intros ffmt matan2 level line frame m a rows One Hx R K C. pose proof (Command.hex_text_bytes _ _ Hx) as Hb.
  destruct (Command.command_report ffmt matan2 line level) as (out & E & Rep). exists out. split; [exact E|].
  eapply (printed ffmt matan2 level line); eauto.
  - exact (checked_range frame m a Hb R K).
  - intros more D. exact (content_shown _ _ _ _ _ _ One Hb C D).
Qed.

Theorem squitter_printed : forall ffmt matan2 level line ca icao payload frame m, (forall f, one_line (ffmt f)) -> hex_text line frame ->
  Squitter ca icao payload frame -> received level false false frame icao m ->
  (forall ra, adsb_advisory m = Some ra -> printable_advisory ra) ->
  exists out, processSingleLine ffmt matan2 line level = Ok out /\
    shows out (printout line "From" icao ([format_row 17 "Extended squitter"; ("Capability", coded ca)] ++ squitter_rows icao payload)
                 ((" -- ADSB Information --", heading) :: adsb_rows ffmt matan2 m)).
Proof.
  intros ffmt matan2 level line ca icao payload frame m One Hx Sq (d & R & K & Rd) P.
  pose proof (Command.hex_text_bytes _ _ Hx) as Hb.
  destruct (squitter_reply _ _ _ _ Sq) as [W Rp].
  destruct (squitter_frame 17 ca icao payload frame (or_introl eq_refl) W Rp) as (_ & Hl & D & B1 & B2 & O & F & Ri & Pa).
  rewrite (df17_layout frame Hb Hl D) in R. injection R as <-. cbn [modes_messages.MessageDF17_MessageExtendedSquitter] in Rd.
  destruct (frame_printed ffmt matan2 level line frame _ icao ((" -- ADSB Information --", heading) :: adsb_rows ffmt matan2 m) One Hx
    (df17_layout frame Hb Hl D) K) as (out & E & Sh); [constructor; auto|].
  exists out. split; [exact E|]. eapply shows_weaken; [|exact Sh].
  unfold origin. rewrite D. unfold printout. cbn [modes_rows]. rewrite B1, B2, O. apply implies_refl.
Qed.

(* A device that is not a transponder: its frame has another format, and the library reads the same message in it. *)
Theorem device_received : forall v nicA nicC ca icao payload frame m cf address frame' addresses interrogators,
  Squitter ca icao payload frame -> received v nicA nicC frame icao m ->
  Reply ([(5, 18); (3, cf); (24, address)] ++ payload) 0 frame' ->
  exists d, ReadMessage frame' = Ok (MDF18 d) /\ modes_messages.MessageDF18_ControlField d = cf /\
    CheckCRC (MDF18 d) frame' addresses interrogators = Ok address /\
    AdsbReader.ReadADSBMessage v nicA nicC (modes_messages.MessageDF18_MessageExtendedSquitter d) = Ok m.
Proof.
  intros v nicA nicC ca icao payload frame m cf address frame' al ai Sq (d & R & K & Rd) Rp'.
  destruct (squitter_reply _ _ _ _ Sq) as [W Rp].
  destruct (squitter_frame 17 ca icao payload frame (or_introl eq_refl) W Rp) as (Hb & Hl & D & B1 & B2 & O & F & Ri & Pa).
  rewrite (df17_layout frame Hb Hl D) in R. injection R as <-. cbn [modes_messages.MessageDF17_MessageExtendedSquitter] in Rd.
  destruct (squitter_frame 18 cf address payload frame' (or_intror eq_refl) W Rp') as (Hb' & Hl' & D' & B1' & B2' & O' & _ & _ & Pa').
  eexists. split; [exact (df18_layout frame' Hb' Hl' D')|]. split; [exact B1'|]. split; [|cbn [modes_messages.MessageDF18_MessageExtendedSquitter]; rewrite O in Rd; rewrite O'; exact Rd].
  destruct (message_kind _ _ Hb' (df18_layout frame' Hb' Hl' D')) as [G _].
  apply (proj1 (extended_squitter_check frame' _ al ai Hb' (df18_layout frame' Hb' Hl' D') (or_intror eq_refl))). auto.
Qed.

Theorem device_printed : forall ffmt matan2 level line cf icao payload frame m, (forall f, one_line (ffmt f)) -> hex_text line frame ->
  width payload = 56 -> Reply ([(5, 18); (3, cf); (24, icao)] ++ payload) 0 frame -> cf = 0 \/ cf = 1 ->
  AdsbReader.ReadADSBMessage level false false (message payload) = Ok m ->
  (forall ra, adsb_advisory m = Some ra -> printable_advisory ra) ->
  exists out, processSingleLine ffmt matan2 line level = Ok out /\
    shows out (printout line "From" icao ([format_row 18 "Extended squitter/non transponder"; ("ControlField", coded cf)] ++ squitter_rows icao payload)
                 ((" -- ADSB Information --", heading) :: adsb_rows ffmt matan2 m)).
Proof.
  intros ffmt matan2 level line cf icao payload frame m One Hx W Rp Cf Rd P.
  destruct (squitter_frame 18 cf icao payload frame (or_intror eq_refl) W Rp) as (Hb & Hl & D & B1 & B2 & O & F & Ri & Pa).
  destruct (frame_printed ffmt matan2 level line frame _ icao ((" -- ADSB Information --", heading) :: adsb_rows ffmt matan2 m) One Hx
    (df18_layout frame Hb Hl D) (df17_18 _ _ _ Hb (df18_layout frame Hb Hl D) (or_intror D) Pa (eq_sym B2))) as (out & E & Sh).
  { constructor; [right; split; [exact D|rewrite B1; exact Cf]|rewrite O; exact Rd|exact P]. }
  exists out. split; [exact E|]. eapply shows_weaken; [|exact Sh].
  unfold origin. rewrite D. unfold printout. cbn [modes_rows]. rewrite B1, B2, O. apply implies_refl.
Qed.

Lemma commb_content : forall ffmt matan2 level frame register l, bits 1 5 frame = 20 \/ bits 1 5 frame = 21 ->
  octets 5 11 frame = message register -> CommbReader.ReadCommBMessage (message register) = Ok l -> Forall printable_register l ->
  content ffmt matan2 level frame ((" -- Comm-B Information --", heading) :: register_content ffmt l).
Proof.
  intros ffmt matan2 level frame register l D O R P. rewrite <- O in R. destruct l as [|m l].
  - apply content_unknown; assumption.
  - apply content_registers; [assumption|exact R|discriminate|exact P].
Qed.

Theorem altitude_register_printed : forall ffmt matan2 level line status request interrogator designator coding feet altitude register icao frame l,
  (forall f, one_line (ffmt f)) -> hex_text line frame -> altitude13_fields coding feet altitude -> width register = 56 ->
  Reply (surveillance 20 status request interrogator designator altitude ++ register) icao frame ->
  CommbReader.ReadCommBMessage (message register) = Ok l -> Forall printable_register l ->
  exists out, processSingleLine ffmt matan2 line level = Ok out /\
    shows out (printout line "From" icao
      ([format_row 20 "Comm-B altitude reply"] ++ surveillance_rows status request interrogator designator ++
       altitude_rows coding feet ++ [("MessageCommB", hex_octets (message register))])
      ((" -- Comm-B Information --", heading) :: register_content ffmt l)).
Proof.
  intros ffmt matan2 level line status request interrogator designator coding feet altitude register icao frame l One Hx A W Rp Rd P.
  pose proof (Command.hex_text_bytes _ _ Hx) as Hb.
  destruct (altitude_commb_told _ _ _ _ _ _ _ _ _ _ A W Rp) as (m & An & M1 & M2 & M3 & M4 & M5 & M6).
  destruct (answer_checked _ _ _ An) as [R K]. destruct (message_kind frame _ Hb R) as [_ D]. cbv beta iota in D.
  destruct (frame_printed ffmt matan2 level line frame _ icao _ One Hx R K
    (commb_content ffmt matan2 level frame register l (or_introl D) (eq_trans (eq_sym (Texts.body_df20 frame m Hb R)) M6) Rd P)) as (out & E & Sh).
  exists out. split; [exact E|]. eapply shows_weaken; [|exact Sh].
  unfold origin. rewrite D. unfold printout. cbn [modes_rows]. rewrite M1, M2, M3, M4, M5, M6. apply implies_refl.
Qed.

Theorem squawk_register_printed : forall ffmt matan2 level line status request interrogator designator a b c d register icao frame l,
  (forall f, one_line (ffmt f)) -> hex_text line frame -> octal a -> octal b -> octal c -> octal d -> width register = 56 ->
  Reply (surveillance 21 status request interrogator designator (squawk_fields a b c d) ++ register) icao frame ->
  CommbReader.ReadCommBMessage (message register) = Ok l -> Forall printable_register l ->
  exists out, processSingleLine ffmt matan2 line level = Ok out /\
    shows out (printout line "From" icao
      ([format_row 21 "Comm-B identify reply"] ++ surveillance_rows status request interrogator designator ++
       [("Identity", identity_value (squawk a b c d)); ("MessageCommB", hex_octets (message register))])
      ((" -- Comm-B Information --", heading) :: register_content ffmt l)).
Proof.
  intros ffmt matan2 level line status request interrogator designator a b c d register icao frame l One Hx Oa Ob Oc Od W Rp Rd P.
  pose proof (Command.hex_text_bytes _ _ Hx) as Hb.
  destruct (identity_commb_told _ _ _ _ _ _ _ _ _ _ _ Oa Ob Oc Od W Rp) as (m & An & M1 & M2 & M3 & M4 & M5).
  destruct (answer_checked _ _ _ An) as [R K]. destruct (message_kind frame _ Hb R) as [_ D]. cbv beta iota in D.
  destruct (frame_printed ffmt matan2 level line frame _ icao _ One Hx R K
    (commb_content ffmt matan2 level frame register l (or_intror D) (eq_trans (eq_sym (Texts.body_df21 frame m Hb R)) M5) Rd P)) as (out & E & Sh).
  exists out. split; [exact E|]. eapply shows_weaken; [|exact Sh].
  unfold origin. rewrite D. unfold printout. cbn [modes_rows]. rewrite M1, M2, M3, M4, M5. apply implies_refl.
Qed.

(* the advisory in an air-air reply *)
Theorem advisory_printed : forall ffmt matan2 level line vertical sensitivity information coding feet altitude icao frame
    a below above left right over t who,
  (forall f, one_line (ffmt f)) -> hex_text line frame ->
  altitude13_fields coding feet altitude -> threat_fields t who -> readable t who ->
  printable_advisory (Spec.Payloads.said a below above left right over t) ->
  Reply (air_air_long vertical sensitivity information altitude ((8, 0x30) :: report_of a below above left right over who)) icao frame ->
  exists out, processSingleLine ffmt matan2 line level = Ok out /\
    shows out (printout line "From" icao
      ([format_row 16 "Long air-air surveillance (ACAS)"; ("VerticalStatus", coded vertical); ("SensitivityLevel", coded sensitivity);
        ("ReplyInformation", coded information)] ++ altitude_rows coding feet ++
       [("Message ACAS", decimal_octets (message ((8, 0x30) :: report_of a below above left right over who)))])
      ((" -- ACAS Information --", heading) :: resolution_advisory_rows ffmt (Spec.Payloads.said a below above left right over t))).
Proof.
  intros ffmt matan2 level line vs sl ri c feet alt icao frame a below above left right over t who One Hx A T Rd P R.
  pose proof (Command.hex_text_bytes _ _ Hx) as Hb.
  pose proof (report_width a below above left right over t who T) as W.
  pose proof R as (F & _). unfold air_air_long in F. rewrite !fits_app in F. destruct F as (_ & _ & F).
  change ((8, 0x30) :: report_of a below above left right over who) with ([(8, 0x30)] ++ report_of a below above left right over who) in *.
  pose proof F as F'. apply fits_app in F' as [F1 F2].
  assert (W7 : width ([(8, 0x30)] ++ report_of a below above left right over who) = 56) by (rewrite width_app, W; reflexivity).
  destruct (Reply.air_air_long_told _ _ _ _ _ _ _ _ _ A W7 R) as (d & An & M1 & M2 & M3 & M4 & M5 & M6).
  destruct (answer_checked _ _ _ An) as [Re K]. destruct (message_kind frame _ Hb Re) as [_ D]. cbv beta iota in D.
  destruct (after_octet _ _ F1 F2 eq_refl W) as (E1 & _ & _).
  pose proof (eq_trans (eq_sym (Texts.body_df16 frame d Hb Re)) M6) as O.
  pose proof (accepted_length frame _ Hb Re ltac:(lia)) as Hl.
  assert (B1 : bits 1 8 (message ([(8, 48)] ++ report_of a below above left right over who)) = 48) by (look 0%nat 1%nat; reflexivity).
  assert (E33 : bits 33 40 frame = 0x30).
  { rewrite <- B1. rewrite <- O. symmetry. apply (Octets.bits_octets 5 11 frame 1 8); (assumption || lia). }
  assert (E6 : octets 6 11 frame = message (report_of a below above left right over who)).
  { transitivity (octets 2 7 (octets 5 11 frame)); [split_list frame Hl; reflexivity|rewrite O; exact E1]. }
  destruct (frame_printed ffmt matan2 level line frame _ icao ((" -- ACAS Information --", heading) :: resolution_advisory_rows ffmt (Spec.Payloads.said a below above left right over t))
     One Hx Re K) as (out & E & Sh).
  { apply content_advisory; [exact D|exact E33| |exact P]. rewrite E6. apply report_read; assumption. }
  exists out. split; [exact E|]. eapply shows_weaken; [|exact Sh].
  unfold origin. rewrite D. unfold printout. cbn [modes_rows]. rewrite M1, M2, M3, M4, M5, M6. apply implies_refl.
Qed.
