(* C111: a receiver follows each of the aircraft it hears. *)
From Verif.Proofs Require Import Tac.
From Verif.Spec Require Import Altitude ModeS Crc Floats Velocity Adsb AdsbMessages Status Squitter Reply Statuses Lossless Noise Session.
From Verif.Gen Require modes_messages bds05 bds06 bds65 adsb_aircraft_operational_status.
From Verif.Model Require Import Crc ModesReader AdsbReader Geo.
From Verif.Proofs Require Import Octets ModeSReader AdsbApi Squitter.
From Verif.Proofs Require Lossless Session.
From Coq Require Import Reals Lra Psatz List.
From Flocq Require Import Core.
From Verif.Spec Require Import Binary64 Cpr Geodesy MathLib ZoneTable Precise Sent Flight Receiver.
From Verif.Proofs Require Import Flight.
Local Open Scope R_scope.

(* whatever is heard, the version stays one the library knows *)
Lemma learn_range : forall icao s frame, bytes frame -> (0 <= s_version s <= 2)%Z -> (0 <= s_version (learn icao s frame) <= 2)%Z.
Proof.
  intros icao s frame Hb B. unfold learn.
  destruct (ReadMessage frame) as [[]| |] eqn:R; try exact B.
  destruct (CheckCRC _ frame [] []) as [address| |] eqn:C; try exact B.
  destruct (Z.eqb_spec address icao) as [->|]; [|exact B].
  destruct (long_17 frame _ Hb R) as (L & _ & X). rewrite X.
  destruct (ReadADSBMessage _ _ _ (octets 5 11 frame)) as [[]| |] eqn:Q; try exact B.
  pose proof (octets_bytes 5 11 frame Hb) as Hb'.
  assert (L' : len (octets 5 11 frame) = 7%Z) by (rewrite octets_len by lia; reflexivity).
  destruct (adsb_kind _ _ _ _ _ Hb' Q) as [_ K]; cbn [kind] in K.
  match type of Q with _ = Ok (AOperational ?y) => destruct y as [x l] end.
  pose proof (proj2 (operational_message _ _ _ _ Hb' L' K x) (ex_intro _ l Q)) as P.
  destruct P as [P1 P2|P1 P2|P1 P2|P1 P2|P1 P2]; cbn -[bits octets]; rewrite ?P1; lia.
Qed.

Lemma heard_bytes : forall icao r frame, sends icao r frame -> bytes frame.
Proof.
  intros icao r frame S. unfold sends in S. destruct (r_ground r).
  - destruct S as (_ & _ & _ & ca & tc & mv & tv & tr & t & _ & S). apply (squitter_17 _ _ _ _ S).
  - destruct S as (_ & _ & ca & tc & ss & sa & feet & alt & t & _ & _ & S). apply (squitter_17 _ _ _ _ S).
Qed.

Lemma hear_parts : forall m icao frames s pos, fst (fold_left (hear m icao) frames (s, pos)) = learned icao s frames.
Proof.
  intros m icao frames. unfold learned. induction frames as [|frame frames IH]; intros s pos; [reflexivity|].
  cbn [fold_left]. unfold hear at 2. cbn [fst snd]. apply IH.
Qed.

(* one aircraft: its version is learned and its position followed, at the same time *)
Theorem followed : forall m icao turns standard start first frames last,
  sharp m -> (0 <= s_version standard <= 2)%Z ->
  -90 <= r_lat first <= 90 -> (1 <= r_zones first <= 59)%Z -> Rabs (r_lon first + 360 * IZR turns) <= 181 ->
  located turns start first -> heard icao first frames last ->
  located turns (snd (fold_left (hear m icao) frames (standard, start))) last.
Proof.
  intros m icao turns st start first frames last Sh Hv B Bn BL L0 H.
  enough (J : let k := fold_left (hear m icao) frames (st, start) in
    located turns (snd k) last /\ (0 <= s_version (fst k) <= 2)%Z /\ -90 <= r_lat last <= 90 /\ (1 <= r_zones last <= 59)%Z /\
              Rabs (r_lon last - r_lon first) <= 200) by apply J.
  induction H as [|frames frame last H (L & V & Bl & Bz & Bo) O|frames frame last next H (L & V & Bl & Bz & Bo) S (F1 & F2)]; cbv zeta in *.
  - split; [exact L0|]. split; [exact Hv|]. split; [exact B|]. split; [exact Bn|]. rewrite Rminus_diag_eq, Rabs_R0 by reflexivity. lra.
  - rewrite fold_left_app. cbn [fold_left]. unfold hear at 1 3. cbn [fst snd]. rewrite receive_other by exact O.
    split; [exact L|]. split; [apply learn_range; [apply O|exact V]|auto].
  - rewrite fold_left_app. cbn [fold_left]. unfold hear at 1 3. cbn [fst snd]. pose proof (sends_range _ _ _ S) as [S1 S2].
    split; [|split; [apply learn_range; [apply (heard_bytes _ _ _ S)|exact V]|auto]].
    apply receive_report with last; auto. apply Rabs_le_inv in BL, Bo. apply Rabs_le. lra.
Qed.

(* the aircraft do not mix: what is known of each of them is what a receiver which only looks at it would know *)
Theorem crowd : forall m frames table icao,
  fold_left (hear_all m) frames table icao = fold_left (hear m icao) frames (table icao).
Proof.
  intros m frames. induction frames as [|frame frames IH]; intros table icao; [reflexivity|].
  cbn [fold_left]. rewrite IH. f_equal. unfold hear_all, hear, learn, receive.
  assert (P : table icao = (fst (table icao), snd (table icao))) by (destruct (table icao); reflexivity).
  destruct (ReadMessage frame) as [[]| |]; try exact P.
  destruct (CheckCRC _ frame [] []) as [address| |]; try exact P.
  rewrite (Z.eqb_sym icao address). destruct (address =? icao)%Z; [reflexivity|exact P].
Qed.

(* hence each aircraft of the crowd is followed, and its version is the one it told last *)
Theorem crowd_followed : forall m table frames icao turns first last s,
  sharp m -> (0 <= s_version (fst (table icao)) <= 2)%Z ->
  -90 <= r_lat first <= 90 -> (1 <= r_zones first <= 59)%Z -> Rabs (r_lon first + 360 * IZR turns) <= 181 ->
  located turns (snd (table icao)) first -> heard icao first frames last ->
  session icao (fst (table icao)) frames s ->
  let k := fold_left (hear_all m) frames table icao in
  fst k = s /\ located turns (snd k) last.
Proof.
  intros m table frames icao turns first last s Sh Hv B Bn BL L0 H HS k. unfold k. rewrite crowd.
  destruct (table icao) as [st pos]. cbn [fst snd] in *. split.
  - rewrite hear_parts. apply Session.session_learned, HS.
  - apply (followed m icao turns st pos first frames last); assumption.
Qed.

(* a position is not an operational status *)
Lemma position_elsewhere : forall icao r frame, sends icao r frame -> elsewhere icao frame.
Proof.
  intros icao r frame S. unfold sends in S. destruct (r_ground r).
  - destruct S as (_ & _ & _ & ca & tc & mv & tv & tr & t & T & S). refine (Session.elsewhere_type _ _ tc _ _ S _). unfold surface_type in T. lia.
  - destruct S as (_ & _ & ca & tc & ss & sa & feet & alt & t & T & _ & S). refine (Session.elsewhere_type _ _ tc _ _ S _). unfold airborne_type in T. lia.
Qed.

(* ---- two aircraft: each of them sends a position, then one of them its status, of version 2, then both a position ---- *)
Example crowd_example : exists start first frames last,
  r_lon first = 179 /\ r_lon last = 180.5 /\ Datatypes.length frames = 5%nat /\
  -90 <= r_lat first <= 90 /\ (1 <= r_zones first <= 59)%Z /\ Rabs (r_lon first + 360 * IZR 0) <= 181 /\
  located 0 start first /\ heard 0x40621D first frames last /\
  session 0x40621D newcomer frames {| s_version := 2; s_nic_a := true; s_nic_c := false |} /\
  session 0x40621E newcomer frames newcomer.
Proof.
  destruct (can_send 0x40621D false 10 179 ltac:(lia) ltac:(lra)) as (n0 & f0 & S0).
  destruct (can_send 0x40621D true 10.5 179.9 ltac:(lia) ltac:(lra)) as (n1 & f1 & S1).
  destruct (can_send 0x40621E true 50.5 9 ltac:(lia) ltac:(lra)) as (n2 & f2 & S2).
  destruct (squitter_exists 5 0x40621D (airborne_status_2 1 1 1 1 0 0 0 0 0 2 (flag true) 9 2 3 1 0 0)) as (f3 & S3);
    [unfold fits; repeat (constructor; [cbn; lia|]); constructor|unfold fits; repeat (constructor; [cbn; lia|]); constructor|reflexivity|].
  destruct (can_send 0x40621D true 11 180.5 ltac:(lia) ltac:(lra)) as (n4 & f4 & S4).
  destruct (can_send 0x40621E false 50.6 9 ltac:(lia) ltac:(lra)) as (n5 & f5 & S5).
  set (first := {| r_ground := false; r_odd := false; r_lat := 10; r_lon := 179; r_zones := n0 |}) in *.
  set (middle := {| r_ground := false; r_odd := true; r_lat := 10.5; r_lon := 179.9; r_zones := n1 |}) in *.
  set (last := {| r_ground := false; r_odd := true; r_lat := 11; r_lon := 180.5; r_zones := n4 |}) in *.
  pose proof (proj2 (sends_range _ _ _ S0)) as N0. pose proof (proj2 (sends_range _ _ _ S1)) as N1. pose proof (proj2 (sends_range _ _ _ S4)) as N4.
  assert (W : forall n odd, (1 <= n <= 59)%Z -> 3 <= 360 / IZR (longitude_zones n odd) / 2).
  { intros n odd Hn. assert (1 <= IZR (longitude_zones n odd) <= 59) by (split; apply IZR_le; unfold longitude_zones; destruct odd; lia).
    enough (6 <= 360 / IZR (longitude_zones n odd)) by lra.
    apply Rmult_le_reg_r with (IZR (longitude_zones n odd)); [lra|]. unfold Rdiv. rewrite Rmult_assoc, Rinv_l by lra. lra. }
  pose proof (half_steps first N0) as P0. pose proof (half_steps_lat first) as P0'.
  assert (O2 : forall n f, sends 0x40621E {| r_ground := false; r_odd := true; r_lat := 50.5; r_lon := 9; r_zones := n |} f -> other 0x40621D f).
  { intros n f S. destruct S as (_ & _ & ca & tc & ss & sa & feet & alt & t & _ & _ & S). apply (other_address _ _ _ _ _ S). discriminate. }
  assert (O5 : forall n f, sends 0x40621E {| r_ground := false; r_odd := false; r_lat := 50.6; r_lon := 9; r_zones := n |} f -> other 0x40621D f).
  { intros n f S. destruct S as (_ & _ & ca & tc & ss & sa & feet & alt & t & _ & _ & S). apply (other_address _ _ _ _ _ S). discriminate. }
  assert (E : forall i j r f, i <> j -> sends i r f -> elsewhere j f).
  { intros i j r f N S. unfold sends in S. destruct (r_ground r).
    - destruct S as (_ & _ & _ & ca & tc & mv & tv & tr & t & T & S). exact (Session.elsewhere_address _ _ _ _ _ S N).
    - destruct S as (_ & _ & ca & tc & ss & sa & feet & alt & t & _ & _ & S). exact (Session.elsewhere_address _ _ _ _ _ S N). }
  exists (f64_of_Z 10, f64_of_Z 179), first, ((((([] ++ [f1]) ++ [f2]) ++ [f3]) ++ [f4]) ++ [f5]), last.
  do 3 (split; [reflexivity|]). split; [cbn [r_lat first]; lra|]. split; [exact N0|].
  split; [cbn [r_lon first]; apply Rabs_le; lra|]. split.
  { exists 10, 179. cbn [fst snd]. change (r_lat first) with 10. change (r_lon first) with 179. split; [apply FloatR.fl_of_Z; lia|]. split; [|split; [apply FloatR.fl_of_Z; lia|]].
    - rewrite Rminus_diag_eq, Rabs_R0 by reflexivity. lra.
    - replace (179 - (179 + 360 * 0)) with 0 by ring. rewrite Rabs_R0. lra. }
  split; [|split].
  - apply heard_other; [|exact (O5 _ _ S5)].
    apply heard_report with middle; [apply heard_other; [apply heard_other; [apply heard_report with first; [constructor|exact S1|]|exact (O2 _ _ S2)]|]|exact S4|].
    + repeat split; cbn [r_ground r_odd r_lat r_lon r_zones r_turn first middle]; try (apply Rabs_le; lra). pose proof (W n1 true N1). apply Rabs_le. lra.
    + refine (other_type _ _ 31%Z _ _ S3 _ _); unfold airborne_type, surface_type; lia.
    + repeat split; cbn [r_ground r_odd r_lat r_lon r_zones r_turn first middle last]; try (apply Rabs_le; lra). pose proof (W n4 true N4). apply Rabs_le. lra.
  - apply session_other; [|apply (fun N => E _ _ _ _ N S5); discriminate]. apply session_other; [|exact (position_elsewhere _ _ _ S4)].
    apply session_status with newcomer; [|exact (announces_2_in_flight _ newcomer _ _ _ _ _ _ _ _ _ _ _ true _ _ _ _ _ _ _ S3)].
    apply session_other; [|apply (fun N => E _ _ _ _ N S2); discriminate]. apply session_other; [apply session_start|exact (position_elsewhere _ _ _ S1)].
  - apply session_other; [|exact (position_elsewhere _ _ _ S5)]. apply session_other; [|apply (fun N => E _ _ _ _ N S4); discriminate].
    apply session_other; [|apply (Session.elsewhere_address _ _ _ _ _ S3); discriminate].
    apply session_other; [|exact (position_elsewhere _ _ _ S2)]. apply session_other; [apply session_start|apply (fun N => E _ _ _ _ N S1); discriminate].
Qed.
