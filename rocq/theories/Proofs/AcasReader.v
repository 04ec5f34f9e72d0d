(* ACAS resolution advisories (C43). *)
From Verif.Proofs Require Import Tac Gillham.
From Verif.Spec Require Import Altitude Floats Acas.
From Verif.Gen Require acas_ra acas_ra_fields.
Local Open Scope Z_scope.

Lemma if_bit : forall i data, (if bit i data then 1 else 0) = bits i i data.
Proof. intros. symmetry. apply bit_spec. Qed.

Lemma if_id : forall b : bool, (if b then true else false) = b.
Proof. destruct b; reflexivity. Qed.

Ltac enums := unfold acas_ra_fields.ActiveRAPreventive, acas_ra_fields.ActiveRACorrective,
  acas_ra_fields.ActiveRASenseUpward, acas_ra_fields.ActiveRASenseDownward,
  acas_ra_fields.ActiveRAVerticalSpeedLimit, acas_ra_fields.ActiveRAPositive,
  acas_ra_fields.MTEOneOrZero, acas_ra_fields.MTETwoOrMore, acas_ra_fields.RATCurrent, acas_ra_fields.RATTerminated,
  acas_ra_fields.ThreatTypeModeS, acas_ra_fields.ThreatTypeAltitudeRangeBearing.

Lemma read_active_ra : forall data, bytes data -> len data = 6 ->
  acas_ra_fields.ReadActiveResolutionAdvisory data = Ok (active_ra data).
Proof.
  intros data Hb Hl. unfold acas_ra_fields.ReadActiveResolutionAdvisory, active_ra.
  split_list data Hl. gorun. enums. normbits Hb. rewrite ?mul_eq0, ?bit_neg0, ?if_bit, ?if_id.
  match goal with |- context [bits 1 1 ?l =? 1] => change (bits 1 1 l =? 1) with (bit 1 l) end.
  destruct (bit 1 _); [reflexivity|]. destruct (bit 20 _); reflexivity.
Qed.

Lemma read_complement : forall data, bytes data -> len data = 6 ->
  acas_ra_fields.ReadRAComplement data =
    Ok {| acas_ra_fields.RAComplement_DoNotPassBelow := bit 15 data;
          acas_ra_fields.RAComplement_DoNotPassAbove := bit 16 data;
          acas_ra_fields.RAComplement_DoNotTurnLeft := bit 17 data;
          acas_ra_fields.RAComplement_DoNotTurnRight := bit 18 data |}.
Proof.
  intros data Hb Hl. unfold acas_ra_fields.ReadRAComplement. split_list data Hl. reg_run Hb. reflexivity.
Qed.

Lemma read_rat : forall data, bytes data -> len data = 6 -> acas_ra_fields.ReadRATerminatedIndicator data = Ok (bits 19 19 data).
Proof.
  intros data Hb Hl. unfold acas_ra_fields.ReadRATerminatedIndicator. split_list data Hl. enums. reg_run Hb.
  rewrite if_bit. reflexivity.
Qed.

Lemma read_mte : forall data, bytes data -> len data = 6 -> acas_ra_fields.ReadMultipleThreatEncounter data = Ok (bits 20 20 data).
Proof.
  intros data Hb Hl. unfold acas_ra_fields.ReadMultipleThreatEncounter. split_list data Hl. enums. reg_run Hb.
  rewrite if_bit. reflexivity.
Qed.

Lemma read_tti : forall data, bytes data -> len data = 6 -> acas_ra_fields.ReadThreatTypeIndicator data = Ok (bits 21 22 data).
Proof.
  intros data Hb Hl. unfold acas_ra_fields.ReadThreatTypeIndicator. split_list data Hl. reg_run Hb. reflexivity.
Qed.

Lemma read_threat_address : forall data, bytes data -> len data = 6 ->
  acas_ra_fields.ReadThreatIdentityAddress data = Ok (bits 23 46 data).
Proof.
  intros data Hb Hl. unfold acas_ra_fields.ReadThreatIdentityAddress. split_list data Hl. reg_run Hb. reflexivity.
Qed.

Lemma read_threat_bearing : forall data, bytes data -> len data = 6 ->
  acas_ra_fields.ReadThreatIdentityBearing data = Ok (bits 43 48 data).
Proof.
  intros data Hb Hl. unfold acas_ra_fields.ReadThreatIdentityBearing. split_list data Hl. reg_run Hb. reflexivity.
Qed.

(* the last bit of the range is lost *)
Lemma read_threat_range : forall data, bytes data -> len data = 6 ->
  acas_ra_fields.ReadThreatIdentityRange data = Ok (2 * bits 36 41 data).
Proof.
  intros data Hb Hl. unfold acas_ra_fields.ReadThreatIdentityRange. split_list data Hl. gostep. f_equal. 
  rewrite (Z.mul_comm 2).
  match type of Hb with bytes ?l => bveq l Hb end.
Qed.

(* the altitude is right when the pulses C1 and A1 are absent *)
Lemma read_threat_altitude : forall data, bytes data -> len data = 6 -> bits 23 24 data = 0 ->
  acas_ra_fields.ReadThreatIdentityAltitude data =
  if (bits 25 28 data =? 0) && (bits 30 35 data =? 0)
  then Ok {| acas_ra_fields.ThreatIdentityAltitude_AltitudeStatus := acas_ra_fields.AltitudeInvalid;
             acas_ra_fields.ThreatIdentityAltitude_AltitudeInFeet := 0 |}
  else match bitutils.GillhamToAltitude (bit 31 data) (bit 33 data) (bit 35 data)
            (bit 24 data) (bit 26 data) (bit 28 data)
            (bit 30 data) (bit 32 data) (bit 34 data)
            (bit 23 data) (bit 25 data) (bit 27 data) with
       | Ok feet => Ok {| acas_ra_fields.ThreatIdentityAltitude_AltitudeStatus := acas_ra_fields.AltitudeValid;
             acas_ra_fields.ThreatIdentityAltitude_AltitudeInFeet := feet |}
       | Err _ => Err "the Altitude field is malformed"%string
       | Panic => Panic
       end.
Proof.
  intros data Hb Hl H0. unfold acas_ra_fields.ReadThreatIdentityAltitude. 
  assert (B23 : bit 23 data = false).
  { unfold bit. rewrite (bits_of_zero 23 24 data 23 23); try reflexivity; try lia; try assumption. }
  assert (B24 : bit 24 data = false).
  { unfold bit. rewrite (bits_of_zero 23 24 data 24 24); try reflexivity; try lia; try assumption. }
  rewrite B23, B24.
  split_list data Hl. gostep.
  match type of Hb with bytes ?l =>
    match goal with |- context [u16 (?x + u16 (Z.shiftl (Z.land ?d 3) 2))] =>
      assert (E : u16 (Z.shiftl (Z.land d 3) 2) = bits 23 24 l * 4) by (bveq l Hb);
      rewrite E, H0; clear E; cbn [Z.mul]; rewrite (Z.add_0_r x);
      assert (E : u16 x = bits 25 28 l * 64 + bits 30 35 l) by (bveq l Hb);
      rewrite E; clear E
    end;
    assert (E1 : Z.land (bits 25 28 l * 64 + bits 30 35 l) 2048 = 0) by (bveq l Hb);
    assert (E2 : Z.land (bits 25 28 l * 64 + bits 30 35 l) 1024 = 0) by (bveq l Hb);
    rewrite E1, E2; clear E1 E2;
    assert (E3 : (bits 25 28 l * 64 + bits 30 35 l =? 0) = (bits 25 28 l =? 0) && (bits 30 35 l =? 0))
      by (bits_bound 25 28 l; bits_bound 30 35 l; lia);
    rewrite E3; clear E3;
    repeat match goal with |- context [Z.land (bits 25 28 l * 64 + bits 30 35 l) ?c] =>
       canon_term l Hb (Z.land (bits 25 28 l * 64 + bits 30 35 l) c) end
  end.
  rewrite ?mul_eq0, ?bit_neg0. reflexivity.
Qed.

Ltac ra_fields data Hb Hl :=
  rewrite (read_active_ra data Hb Hl), (read_complement data Hb Hl), (read_rat data Hb Hl), (read_mte data Hb Hl).

Lemma read_ra_no_identity : forall data, bytes data -> len data = 6 -> bits 21 22 data = 0 \/ bits 21 22 data = 3 ->
  acas_ra.ReadResolutionAdvisory data = Ok (report data None None None None).
Proof.
  intros data Hb Hl Ht. unfold acas_ra.ReadResolutionAdvisory. enums. rewrite Hl. cbn [Z.eqb Pos.eqb negb].
  rewrite (read_tti data Hb Hl). cbn [bind]. do 2 decide_if.
  ra_fields data Hb Hl. reflexivity.
Qed.

Lemma read_ra_mode_s : forall data, bytes data -> len data = 6 -> bits 21 22 data = 1 ->
  acas_ra.ReadResolutionAdvisory data = Ok (report data (Some (bits 23 46 data)) None None None).
Proof.
  intros data Hb Hl Ht. unfold acas_ra.ReadResolutionAdvisory. enums. rewrite Hl. cbn [Z.eqb Pos.eqb negb].
  rewrite (read_tti data Hb Hl). cbn [bind]. decide_if.
  rewrite (read_threat_address data Hb Hl). ra_fields data Hb Hl. reflexivity.
Qed.

Lemma read_ra_arb : forall data, bytes data -> len data = 6 -> bits 21 22 data = 2 ->
  acas_ra.ReadResolutionAdvisory data =
  match acas_ra_fields.ReadThreatIdentityAltitude data with
  | Ok alt => Ok (report data None (Some alt) (Some (2 * bits 36 41 data)) (Some (bits 43 48 data)))
  | Err e => Err e
  | Panic => Panic
  end.
Proof.
  intros data Hb Hl Ht. unfold acas_ra.ReadResolutionAdvisory. enums. rewrite Hl. cbn [Z.eqb Pos.eqb negb].
  rewrite (read_tti data Hb Hl). cbn [bind]. do 2 decide_if.
  rewrite (read_threat_bearing data Hb Hl), (read_threat_range data Hb Hl). ra_fields data Hb Hl. cbn [bind].
  destruct (acas_ra_fields.ReadThreatIdentityAltitude data); reflexivity.
Qed.

Lemma threat_altitude_no_panic : forall data, bytes data -> len data = 6 ->
  acas_ra_fields.ReadThreatIdentityAltitude data <> Panic.
Proof.
  intros data Hb Hl. unfold acas_ra_fields.ReadThreatIdentityAltitude. split_list data Hl. gostep.
  destruct (_ =? 0); [discriminate|].
  match goal with |- context [bitutils.GillhamToAltitude ?a ?b ?c ?d ?e ?f ?g ?h ?i ?j ?k ?l] =>
    pose proof (gillham_no_panic a b c d e f g h i j k l) as N;
    destruct (bitutils.GillhamToAltitude a b c d e f g h i j k l); congruence end.
Qed.

Lemma read_ra_total : forall data, bytes data -> acas_ra.ReadResolutionAdvisory data <> Panic.
Proof.
  intros data Hb. destruct (Z.eq_dec (len data) 6) as [Hl|Hl].
  - bits_bound 21 22 data. assert (bits 21 22 data = 0 \/ bits 21 22 data = 3 \/ bits 21 22 data = 1 \/ bits 21 22 data = 2) as [H|[H|[H|H]]] by lia.
    + rewrite read_ra_no_identity by auto. discriminate.
    + rewrite read_ra_no_identity by auto. discriminate.
    + rewrite read_ra_mode_s by auto. discriminate.
    + rewrite read_ra_arb by auto. pose proof (threat_altitude_no_panic data Hb Hl).
      destruct (acas_ra_fields.ReadThreatIdentityAltitude data); congruence.
  - unfold acas_ra.ReadResolutionAdvisory. decide_if. discriminate.
Qed.

(* C43, when the pulses C1, A1 of the threat's altitude and the last bit of its range
   are zero, or the threat is not identified by altitude, range, bearing *)
Theorem resolution_advisory_partial : forall data, bytes data -> len data = 6 ->
  (bits 21 22 data = 2 -> bits 23 24 data = 0 /\ bits 42 42 data = 0) ->
  forall ra, Reports data ra <-> acas_ra.ReadResolutionAdvisory data = Ok ra.
Proof.
  intros data Hb Hl H ra. bits_bound 21 22 data.
  assert (bits 21 22 data = 0 \/ bits 21 22 data = 3 \/ bits 21 22 data = 1 \/ bits 21 22 data = 2) as D by lia.
  assert (S : bits 36 42 data = 2 * bits 36 41 data + bits 42 42 data).
  { clear - Hb Hl. split_list data Hl. rewrite (Z.mul_comm 2).
    match type of Hb with bytes ?l => bveq l Hb end. }
  split.
  - intros [T|T|alt T A].
    + apply read_ra_no_identity; auto.
    + apply read_ra_mode_s; auto.
    + destruct (H T) as [H1 H2]. rewrite read_ra_arb by auto. rewrite S, H2, Z.add_0_r.
      rewrite read_threat_altitude by auto.
      assert (E : bits 23 28 data = bits 25 28 data).
      { assert (E : bits 23 28 data = bits 23 24 data * 16 + bits 25 28 data).
        { clear - Hb Hl. split_list data Hl. match type of Hb with bytes ?l => bveq l Hb end. }
        rewrite E, H1. reflexivity. }
      inversion A as [A1 A2|feet N G]; subst; clear A.
      * rewrite E in A1. rewrite A1, A2. reflexivity.
      * rewrite E in N. decide_if. apply gillham_decodes in G. rewrite G. reflexivity.
  - intros R. destruct D as [D|[D|[D|D]]].
    + rewrite read_ra_no_identity in R by auto. injection R as <-. constructor; auto.
    + rewrite read_ra_no_identity in R by auto. injection R as <-. constructor; auto.
    + rewrite read_ra_mode_s in R by auto. injection R as <-. constructor; auto.
    + destruct (H D) as [H1 H2]. rewrite read_ra_arb in R by auto.
      rewrite read_threat_altitude in R by auto.
      assert (E : bits 23 28 data = bits 25 28 data).
      { assert (E : bits 23 28 data = bits 23 24 data * 16 + bits 25 28 data).
        { clear - Hb Hl. split_list data Hl. match type of Hb with bytes ?l => bveq l Hb end. }
        rewrite E, H1. reflexivity. }
      replace (2 * bits 36 41 data) with (bits 36 42 data) in R by lia.
      destruct ((bits 25 28 data =? 0) && (bits 30 35 data =? 0)) eqn:Z0.
      * injection R as <-. apply arb; [exact D|]. constructor; lia.
      * destruct (bitutils.GillhamToAltitude _ _ _ _ _ _ _ _ _ _ _ _) eqn:G; try discriminate.
        injection R as <-. apply arb; [exact D|]. constructor; [lia|]. apply gillham_decodes. exact G.
Qed.

(* The full statement is false of the code. First witness: a threat at 30 700 ft (pulses
   A1 and C4 only); the pulse A1 is misplaced and another altitude is returned. *)
Definition threat_witness : list Z := [0x80; 0; 0x09; 0x20; 0; 0].

Theorem threat_altitude_refuted :
  bytes threat_witness /\ len threat_witness = 6 /\
  exists ra ra', Reports threat_witness ra /\ acas_ra.ReadResolutionAdvisory threat_witness = Ok ra' /\
    acas_ra.ResolutionAdvisory_ThreatIdentityAltitude ra =
      Some {| acas_ra_fields.ThreatIdentityAltitude_AltitudeStatus := acas_ra_fields.AltitudeValid;
              acas_ra_fields.ThreatIdentityAltitude_AltitudeInFeet := 30700 |} /\
    acas_ra.ResolutionAdvisory_ThreatIdentityAltitude ra' <> acas_ra.ResolutionAdvisory_ThreatIdentityAltitude ra.
Proof.
  split; [repeat constructor; lia|]. split; [reflexivity|].
  eexists; eexists. split; [|split; [vm_compute; reflexivity|]].
  - eapply arb with (alt := {| acas_ra_fields.ThreatIdentityAltitude_AltitudeStatus := acas_ra_fields.AltitudeValid;
              acas_ra_fields.ThreatIdentityAltitude_AltitudeInFeet := 30700 |}); [reflexivity|].
    constructor; [vm_compute; intros [? ?]; discriminate|].
    apply gillham_decodes. vm_compute. reflexivity.
  - split; [reflexivity|]. vm_compute. discriminate.
Qed.

(* Second witness: a threat at a range coded 1 is reported with a range coded 0. *)
Definition range_witness : list Z := [0x80; 0; 0x08; 0; 0; 0x40].

Theorem threat_range_refuted :
  bytes range_witness /\ len range_witness = 6 /\
  exists ra ra', Reports range_witness ra /\ acas_ra.ReadResolutionAdvisory range_witness = Ok ra' /\
    acas_ra.ResolutionAdvisory_ThreatIdentityRange ra = Some 1 /\
    acas_ra.ResolutionAdvisory_ThreatIdentityRange ra' = Some 0.
Proof.
  split; [repeat constructor; lia|]. split; [reflexivity|].
  eexists; eexists. split; [|split; [vm_compute; reflexivity|]].
  - eapply arb with (alt := {| acas_ra_fields.ThreatIdentityAltitude_AltitudeStatus := acas_ra_fields.AltitudeInvalid;
              acas_ra_fields.ThreatIdentityAltitude_AltitudeInFeet := 0 |}); [reflexivity|].
    constructor; reflexivity.
  - split; reflexivity.
Qed.
