(* C110: what is told of the integrity of a position follows the last operational status of the aircraft. *)
From Verif.Proofs Require Import Tac.
From Verif.Spec Require Import Altitude ModeS Crc Floats Adsb AdsbMessages Status Squitter Reply Payloads Statuses Lossless Noise Session.
From Verif.Gen Require modes_messages bds65 adsb_aircraft_operational_status.
From Verif.Model Require Import Crc ModesReader AdsbReader.
From Verif.Proofs Require Import Octets ModeSReader AdsbApi Squitter.
From Verif.Proofs Require Lossless Noise Statuses Departures.
Local Open Scope Z_scope.

Lemma long_17 : forall frame d, bytes frame -> ReadMessage frame = Ok (MDF17 d) ->
  len frame = 14 /\ bits 1 5 frame = 17 /\ modes_messages.MessageDF17_MessageExtendedSquitter d = octets 5 11 frame.
Proof.
  intros frame d Hb R. destruct (message_kind frame _ Hb R) as [_ K]. cbv iota zeta in K.
  destruct (proj1 (read_message_accepts frame Hb)) as [[[L F]|[L _]] _]; [eauto| |].
  - exfalso. unfold short_format in F. lia.
  - split; [exact L|]. split; [exact K|]. rewrite df17_layout in R by assumption. injection R as <-. reflexivity.
Qed.

Lemma learn_elsewhere : forall icao s frame, elsewhere icao frame -> learn icao s frame = s.
Proof.
  intros icao s frame [Hb O]. unfold learn.
  destruct (ReadMessage frame) as [[]| |] eqn:R; try reflexivity.
  destruct (CheckCRC _ frame [] []) as [address| |] eqn:C; try reflexivity.
  destruct (Z.eqb_spec address icao) as [->|]; [|reflexivity].
  destruct (long_17 frame _ Hb R) as (L & _ & X). rewrite X.
  destruct (ReadADSBMessage _ _ _ (octets 5 11 frame)) as [[]| |] eqn:Q; try reflexivity.
  exfalso. destruct (proj1 (Lossless.squitter_iff frame icao Hb)) as (ca & payload & S); [eauto|]. specialize (O ca payload S).
  pose proof (octets_bytes 5 11 frame Hb) as Hb'.
  assert (L' : len (octets 5 11 frame) = 7) by (rewrite octets_len by lia; reflexivity).
  destruct (adsb_kind _ _ _ _ _ Hb' Q) as [_ K]; cbn [kind] in K.
  pose proof K as T. inversion T as [| | | | | | | |T']. clear T.
  change 33 with (8 * (5 - 1) + 1) in O. change 37 with (8 * (5 - 1) + 5) in O.
  change 73 with (8 * (5 - 1) + 41) in O. change 75 with (8 * (5 - 1) + 43) in O.
  rewrite <- (bits_octets 5 11 frame 1 5), <- (bits_octets 5 11 frame 41 43) in O by (assumption || lia).
  specialize (O T').
  match type of Q with _ = Ok (AOperational ?y) => destruct y as [x l] end. pose proof (proj2 (operational_message _ _ _ _ Hb' L' K x) (ex_intro _ l Q)) as P.
  inversion P as [_ Z0| | | |]; try lia.
  rewrite (bits_of_zero 41 56 _ 41 43) in O by (assumption || lia). lia.
Qed.

Lemma flag_one : forall b, (flag b =? 1) = b.
Proof. intros []; reflexivity. Qed.

Lemma learn_announced : forall icao s s' frame, announces icao s s' frame -> learn icao s frame = s'.
Proof.
  intros icao [v a c] s' frame A. unfold learn. cbn [s_version s_nic_a s_nic_c].
  destruct A as [ca e t ap su e' t' a' su' frame S|ca not_acas cdti arv ts tc ra ident atc nic nacp sil baro hrd frame S
    |ca offset cdti b2low size ra ident atc nic nacp sil track hrd frame S
    |ca acas es_in arv ts tc uat ra ident antenna sda nic nacp gva sil baro hrd sils frame S
    |ca es_in b2low uat nacv nic_c size ra ident antenna sda lateral longitudinal nic nacp sil track hrd sils frame S].
  - destruct (Statuses.operational_0_received v a c _ _ _ _ _ _ _ _ _ _ _ S) as (m & (d & R & C & Q) & E & _).
    rewrite R, C, Z.eqb_refl, Q, E. reflexivity.
  - destruct (Statuses.airborne_operational_1_received v a c _ _ _ _ _ _ _ _ _ _ _ _ _ _ _ _ S) as (m & (d & R & C & Q) & E & _).
    rewrite R, C, Z.eqb_refl, Q, E. cbn. rewrite flag_one. reflexivity.
  - destruct (Statuses.surface_operational_1_received v a c _ _ _ _ _ _ _ _ _ _ _ _ _ _ _ S) as (m & (d & R & C & Q) & E & _).
    rewrite R, C, Z.eqb_refl, Q, E. cbn. rewrite flag_one. reflexivity.
  - destruct (Statuses.airborne_operational_2_received v a c _ _ _ _ _ _ _ _ _ _ _ _ _ _ _ _ _ _ _ _ S) as (m & (d & R & C & Q) & E & _).
    rewrite R, C, Z.eqb_refl, Q, E. cbn. rewrite flag_one. reflexivity.
  - destruct (Statuses.surface_operational_2_received v a c _ _ _ _ _ _ _ _ _ _ _ _ _ _ _ _ _ _ _ _ _ S) as (m & (d & R & C & Q) & E).
    rewrite R, C, Z.eqb_refl, Q, E. cbn. rewrite !flag_one. reflexivity.
Qed.

(* after any history, the receiver knows what the aircraft told last *)
Theorem session_learned : forall icao start frames s, session icao start frames s -> learned icao start frames = s.
Proof.
  intros icao start frames s H. unfold learned. induction H as [|frames frame s H IH O|frames frame s s' H IH A].
  - reflexivity.
  - rewrite fold_left_app. cbn [fold_left]. rewrite IH. apply learn_elsewhere, O.
  - rewrite fold_left_app. cbn [fold_left]. rewrite IH. apply learn_announced, A.
Qed.

Lemma session_version : forall icao start frames s, session icao start frames s -> 0 <= s_version start <= 2 -> 0 <= s_version s <= 2.
Proof.
  intros icao start frames s H B. induction H as [|frames frame s H IH O|frames frame s s' H IH A]; try assumption.
  destruct A; cbn; lia.
Qed.

(* and the positions heard then are told with the integrity of that version and these supplements *)
Theorem airborne_integrity : forall icao start frames s ca tc status antenna feet altitude time odd lat lon frame,
  0 <= s_version start <= 2 -> session icao start frames s ->
  9 <= tc <= 18 \/ 20 <= tc <= 22 -> altitude_fields feet altitude ->
  Squitter ca icao (airborne_payload tc status antenna altitude time odd lat lon) frame ->
  let known := learned icao start frames in
  exists m, received (s_version known) (s_nic_a known) (s_nic_c known) frame icao (AAirborne m) /\
    AirborneOf (s_version s) (s_nic_a s) (message (airborne_payload tc status antenna altitude time odd lat lon)) m.
Proof.
  intros icao start frames s ca tc ss sa feet alt t odd la lo frame B H Ht A S known.
  unfold known. rewrite (session_learned _ _ _ _ H). pose proof (session_version _ _ _ _ H B) as Hv.
  pose proof S as (_ & F & _).
  destruct (airborne_bits tc ss sa feet alt t odd la lo A F) as (_ & B1 & BA & _).
  destruct (squitter_received _ _ _ _ S) as (Hb & Hl & d & R & C & E).
  set (me := message _) in *. clearbody me.
  assert (K : KindOf me KAirborne) by (apply k_airborne; rewrite B1; exact Ht).
  destruct (airborne_ok (s_version s) (s_nic_a s) (s_nic_c s) me feet Hb Hl K Hv BA) as (m & Rm & M).
  exists m. split; [exists d; rewrite E; auto|exact M].
Qed.

Theorem surface_integrity_partial : forall icao start frames s ca tc movement track_valid track time odd lat lon frame,
  0 <= s_version start <= 2 -> session icao start frames s ->
  5 <= tc <= 8 -> ~ (s_version s = 1 /\ tc = 7 /\ s_nic_a s = false) ->
  Squitter ca icao (surface_payload tc movement track_valid track time odd lat lon) frame ->
  let known := learned icao start frames in
  exists m, received (s_version known) (s_nic_a known) (s_nic_c known) frame icao (ASurface m) /\
    SurfaceOf (s_version s) (s_nic_a s) (s_nic_c s) (message (surface_payload tc movement track_valid track time odd lat lon)) m.
Proof.
  intros icao start frames s ca tc mv tv tr t odd la lo frame B H Ht N S known.
  unfold known. rewrite (session_learned _ _ _ _ H). pose proof (session_version _ _ _ _ H B) as Hv.
  pose proof S as (_ & F & _).
  assert (B1 : bits 1 5 (message (surface_payload tc mv tv tr t odd la lo)) = tc).
  { assert (W : width (surface_payload tc mv tv tr t odd la lo) = 8 * 7) by reflexivity. look 0%nat 1%nat; reflexivity. }
  destruct (squitter_received _ _ _ _ S) as (Hb & Hl & d & R & C & E).
  set (me := message _) in *. clearbody me.
  assert (K : KindOf me KSurface) by (apply k_surface; rewrite B1; exact Ht).
  destruct (surface_ok_partial (s_version s) (s_nic_a s) (s_nic_c s) me Hb Hl K Hv) as (m & Rm & M).
  { rewrite B1. exact N. }
  exists m. split; [exists d; rewrite E; auto|exact M].
Qed.

(* ---- which frames are elsewhere ---- *)
Lemma squitter_17 : forall ca icao payload frame, Squitter ca icao payload frame -> bytes frame /\ bits 1 5 frame = 17.
Proof.
  intros ca icao payload frame S. assert (Hb : bytes frame) by (destruct S as (_ & _ & _ & p & _ & ->); apply message_bytes).
  split; [exact Hb|]. destruct (squitter_received _ _ _ _ S) as (_ & _ & d & R & _). apply (long_17 frame d Hb R).
Qed.

Theorem elsewhere_address : forall ca icao icao' payload frame, Squitter ca icao' payload frame -> icao' <> icao -> elsewhere icao frame.
Proof.
  intros ca icao icao' payload frame S N. split; [apply (squitter_17 _ _ _ _ S)|]. intros ca' payload' S'. exfalso.
  destruct (squitter_received _ _ _ _ S) as (_ & _ & d & R & C & _). destruct (squitter_received _ _ _ _ S') as (_ & _ & d' & R' & C' & _).
  rewrite R in R'. injection R' as <-. rewrite C in C'. injection C' as E. exact (N E).
Qed.

Theorem elsewhere_format : forall icao frame, bytes frame -> bits 1 5 frame <> 17 -> elsewhere icao frame.
Proof. intros icao frame Hb N. split; [exact Hb|]. intros ca payload S. exfalso. apply N, (squitter_17 _ _ _ _ S). Qed.

Theorem elsewhere_type : forall icao ca tc rest frame, Squitter ca icao ((5, tc) :: rest) frame -> tc <> 31 -> elsewhere icao frame.
Proof.
  intros icao ca tc rest frame S N. destruct (squitter_17 _ _ _ _ S) as [Hb _]. split; [exact Hb|]. intros ca' payload' _ T. exfalso.
  destruct (squitter_received _ _ _ _ S) as (_ & _ & d & R & _ & X). destruct (long_17 frame d Hb R) as (L & _ & X').
  rewrite X' in X. change 33 with (8 * (5 - 1) + 1) in T. change 37 with (8 * (5 - 1) + 5) in T.
  rewrite <- (bits_octets 5 11 frame 1 5) in T by (assumption || lia). rewrite X in T.
  destruct S as (_ & F & W & _). rewrite (bits_field _ 0 1 1 5 7 tc F) in T; [exact (N T)|exact W|reflexivity|reflexivity|].
  cbn. lia.
Qed.

Theorem elsewhere_damaged : forall ca icao icao' payload sent frame, Squitter ca icao' payload sent -> damaged sent frame -> elsewhere icao frame.
Proof.
  intros ca icao icao' payload sent frame S D. split; [apply D|]. intros ca' payload' S'. exfalso.
  destruct (squitter_17 _ _ _ _ S') as [Hb B]. destruct (squitter_received _ _ _ _ S') as (_ & _ & d & R & C & _).
  destruct (Noise.squitter_damaged _ _ _ _ _ S D (or_introl B)) as (m & R' & E). rewrite R in R'. injection R' as <-.
  destruct (E [] []) as [e E']. rewrite C in E'. discriminate E'.
Qed.

(* ---- a history: an aircraft on the ground says it is of version 2, with supplement C; garbage is heard, and another
   aircraft; it takes off, with supplement A ---- *)
Example session_example : exists frames, len frames = 4 /\
  session 0x400940 newcomer frames {| s_version := 2; s_nic_a := true; s_nic_c := true |}.
Proof.
  assert (X : forall icao p, 0 <= icao < 16777216 -> fits p -> width p = 56 -> exists frame, Squitter 5 icao p frame).
  { intros icao p I F W. apply squitter_exists; [|exact F|exact W]. unfold fits, header.
    repeat (constructor; [cbn; lia|]); constructor. }
  destruct (X 0x400940 (surface_status_2 1 0 0 2 (flag true) 5 0 0 0 2 1 3 (flag false) 9 3 0 0 0)) as (f1 & S1); [lia| |reflexivity|].
  { unfold fits. repeat (constructor; [cbn; lia|]); constructor. }
  destruct (X 0x400941 (airborne_status_1 0 0 0 0 0 0 0 0 (flag false) 7 2 0 0)) as (f3 & S3); [lia| |reflexivity|].
  { unfold fits. repeat (constructor; [cbn; lia|]); constructor. }
  destruct (X 0x400940 (airborne_status_2 1 1 1 1 0 0 0 0 0 2 (flag true) 9 2 3 1 0 0)) as (f4 & S4); [lia| |reflexivity|].
  { unfold fits. repeat (constructor; [cbn; lia|]); constructor. }
  exists (((([] ++ [f1]) ++ [[0x5D; 0x40]]) ++ [f3]) ++ [f4]). split; [reflexivity|].
  apply session_status with {| s_version := 2; s_nic_a := false; s_nic_c := true |}; [|exact (announces_2_in_flight _ {| s_version := 2; s_nic_a := false; s_nic_c := true |} _ _ _ _ _ _ _ _ _ _ _ true _ _ _ _ _ _ _ S4)].
  apply session_other; [|apply (elsewhere_address _ _ _ _ _ S3); discriminate].
  apply session_other.
  - apply session_status with newcomer; [apply session_start|].
    exact (announces_2_on_ground _ newcomer _ _ _ _ _ true _ _ _ _ _ _ _ false _ _ _ _ _ _ S1).
  - apply elsewhere_format; [apply Forall_cons; [unfold byte; lia|apply Forall_cons; [unfold byte; lia|apply Forall_nil]]|vm_compute; discriminate].
Qed.

(* the case left out: every aircraft of version 1 without supplement A that sends a surface position of type 7. The code
   of the radius told to be the containment is not "less than 0.1 NM" *)
Theorem surface_integrity_refuted : forall icao start frames s ca movement track_valid track time odd lat lon frame,
  0 <= s_version start <= 2 -> session icao start frames s -> s_version s = 1 -> s_nic_a s = false ->
  Squitter ca icao (surface_payload 7 movement track_valid track time odd lat lon) frame ->
  let known := learned icao start frames in
  exists m, received (s_version known) (s_nic_a known) (s_nic_c known) frame icao (ASurface m) /\
    ~ SurfaceOf (s_version s) (s_nic_a s) (s_nic_c s) (message (surface_payload 7 movement track_valid track time odd lat lon)) m.
Proof.
  intros icao start frames s ca mv tv tr t odd la lo frame B H H1 H2 S known.
  unfold known. rewrite (session_learned _ _ _ _ H). rewrite H1, H2.
  pose proof S as (_ & F & _).
  assert (B1 : bits 1 5 (message (surface_payload 7 mv tv tr t odd la lo)) = 7).
  { assert (W : width (surface_payload 7 mv tv tr t odd la lo) = 8 * 7) by reflexivity. look 0%nat 1%nat; reflexivity. }
  destruct (squitter_received _ _ _ _ S) as (Hb & Hl & d & R & C & E).
  set (me := message _) in *. clearbody me.
  destruct (Departures.surface_7_departs (s_nic_c s) me Hb Hl B1) as (m & Rm & M).
  exists m. split; [exists d; rewrite E; auto|]. intros X. inversion M as [p hcr Sp L]; subst m.
  inversion X; subst.
  match goal with N : nic_surface_v1 _ _ = _ |- _ => rewrite B1 in N; vm_compute in N; injection N as <- end.
  match goal with Y : says _ _ |- _ => rewrite L in Y; apply Y; vm_compute; reflexivity end.
Qed.

Example surface_session_example : exists frames s frame,
  session 0x400940 newcomer frames s /\ s_version s = 1 /\ s_nic_a s = false /\
  Squitter 5 0x400940 (surface_payload 7 20 true 64 0 false 93000 51372) frame.
Proof.
  assert (X : forall icao p, 0 <= icao < 16777216 -> fits p -> width p = 56 -> exists frame, Squitter 5 icao p frame).
  { intros icao p I F W. apply squitter_exists; [|exact F|exact W]. unfold fits, header.
    repeat (constructor; [cbn; lia|]); constructor. }
  destruct (X 0x400940 (airborne_status_1 0 0 0 0 0 0 0 0 (flag false) 7 2 0 0)) as (f1 & S1); [lia| |reflexivity|].
  { unfold fits. repeat (constructor; [cbn; lia|]); constructor. }
  destruct (X 0x400940 (surface_payload 7 20 true 64 0 false 93000 51372)) as (f2 & S2); [lia| |reflexivity|].
  { unfold fits, surface_payload. repeat (constructor; [cbn; lia|]); constructor. }
  exists ([] ++ [f1]), {| s_version := 1; s_nic_a := false; s_nic_c := false |}, f2.
  split; [|split; [reflexivity|split; [reflexivity|exact S2]]].
  apply session_status with newcomer; [apply session_start|].
  exact (announces_1_in_flight _ newcomer _ _ _ _ _ _ _ _ _ false _ _ _ _ _ S1).
Qed.
