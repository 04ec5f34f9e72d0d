(* Comm-B registers 0,0 0,7 1,0 1,7 2,0 3,0 4,0 (C39-C44). *)
From Verif.Proofs Require Import Tac Ident AcasReader Octets.
From Verif.Spec Require Import Floats Acas Identification CommB CommBMessages.
From Verif.Gen Require bds00 bds07 bds07_fields bds10 bds10_fields bds17 bds20 bds30 bds40 bds40_fields.
Local Open Scope Z_scope.

(* ---- consecutive fields ---- *)

Lemma bits_join : forall a b c data, 1 <= a -> a <= b -> b < c -> c <= 8 * len data ->
  bits a c data = bits a b data * 2 ^ (c - b) + bits (b + 1) c data.
Proof.
  intros a b c data Ha Hab Hbc Hc. unfold bits.
  replace (c - (b + 1) + 1) with (c - b) by lia.
  replace (8 * len data - b) with ((8 * len data - c) + (c - b)) by lia.
  rewrite (Z.pow_add_r 2 (8 * len data - c)) by lia.
  rewrite <- Z.div_div; [|apply Z.pow_nonzero; lia|apply Z.pow_pos_nonneg; lia].
  generalize (be data / 2 ^ (8 * len data - c)). intros X.
  replace (c - a + 1) with ((c - b) + (b - a + 1)) by lia. rewrite (Z.pow_add_r 2 (c - b)) by lia.
  rewrite Z.rem_mul_r; [lia|apply Z.pow_nonzero; lia|apply Z.pow_pos_nonneg; lia].
Qed.

Lemma bits_zero_split : forall a b c data, 1 <= a -> a <= b -> b < c -> c <= 8 * len data ->
  (bits a c data = 0 <-> bits a b data = 0 /\ bits (b + 1) c data = 0).
Proof.
  intros a b c data Ha Hab Hbc Hc. rewrite (bits_join a b c) by assumption.
  pose proof (bits_range a b data ltac:(lia)). pose proof (bits_range (b + 1) c data ltac:(lia)).
  assert (0 < 2 ^ (c - b)) by (apply Z.pow_pos_nonneg; lia). nia.
Qed.

Ltac zsplit L a b c :=
  lazymatch type of L with len ?f = _ =>
    let H := fresh "S" in
    pose proof (bits_zero_split a b c f ltac:(clear; lia) ltac:(clear; lia) ltac:(clear; lia) ltac:(rewrite L; clear; lia)) as H;
    let e := eval vm_compute in (b + 1) in change (b + 1) with e in H; rewrite H; clear H
  end.

(* name the whole list again *)
Ltac whole Hb L :=
  let f := fresh "f" in
  lazymatch type of Hb with bytes ?l =>
    assert (L : len l = 7) by reflexivity; remember l as f end.

(* whole octets *)
Lemma octet_k : forall d0 d1 d2 d3 d4 d5 d6, bytes [d0;d1;d2;d3;d4;d5;d6] ->
  let f := [d0;d1;d2;d3;d4;d5;d6] in
  d0 = bits 1 8 f /\ d1 = bits 9 16 f /\ d2 = bits 17 24 f /\ d3 = bits 25 32 f /\ d4 = bits 33 40 f /\
  d5 = bits 41 48 f /\ d6 = bits 49 56 f.
Proof.
  intros * Hb. cbv zeta. lazymatch type of Hb with bytes ?l => repeat split; bveq l Hb end.
Qed.

(* case analysis on all the tests of the reader, for a goal (reader = Ok m <-> conditions /\ m = v) *)
Ltac iff_cases tac :=
  repeat match goal with
  | |- context [if ?c then _ else _] =>
      lazymatch c with context [if _ then _ else _] => fail | _ => idtac end;
      let E := fresh "E" in destruct c eqn:E; cbn [rmap bind negb]
  end;
  (split;
  [ let H := fresh "H" in intros H; first [discriminate H | first [injection H as <- | clear H]; split; [tac|try reflexivity]]
  | let H := fresh "H" in intros [H ->]; first [reflexivity | exfalso; tac] ]).

(* ---- BDS 0,0 ---- *)

Theorem read_bds00 : forall data m, bytes data -> len data = 7 ->
  (bds00.ReadNoMessageAvailable data = Ok m <-> recognised_00 data /\ m = bds00.mkNoMessageAvailable).
Proof.
  intros data m Hb Hl. unfold recognised_00, bds00.ReadNoMessageAvailable. split_list data Hl.
  pose proof (octet_k _ _ _ _ _ _ _ Hb) as Oc. cbv zeta in Oc. gorun.
  whole Hb L. destruct Oc as (-> & -> & -> & -> & -> & -> & ->).
  zsplit L 1 8 56. zsplit L 9 16 56. zsplit L 17 24 56. zsplit L 25 32 56. zsplit L 33 40 56. zsplit L 41 48 56.
  iff_cases ltac:(lia); destruct m; reflexivity.
Qed.

Ltac start data Hl Hb Oc :=
  split_list data Hl; pose proof (octet_k _ _ _ _ _ _ _ Hb) as Oc; cbv zeta in Oc.

(* ---- BDS 0,7 ---- *)

(* the reader does not look at the bits 7 and 8 *)
Theorem read_bds07 : forall data m, bytes data -> len data = 7 ->
  (bds07.ReadStatus data = Ok m <-> (bits 4 6 data = 0 /\ bits 9 56 data = 0) /\ m = status_07 data).
Proof.
  intros data m Hb Hl. unfold status_07, bds07.ReadStatus. start data Hl Hb Oc. gorun. normbits Hb.
  whole Hb L. destruct Oc as (E0 & E1 & E2 & E3 & E4 & E5 & E6). rewrite ?mul_eq0.
  rewrite E1, E2, E3, E4, E5, E6. clear E0 E1 E2 E3 E4 E5 E6 Heqf.
  zsplit L 9 16 56. zsplit L 17 24 56. zsplit L 25 32 56. zsplit L 33 40 56. zsplit L 41 48 56.
  iff_cases ltac:(lia).
Qed.

Theorem coherence_bds07 : forall data, bytes data -> len data = 7 ->
  (bds07.Status_CheckCoherency (status_07 data) = Ok tt <-> coherent_07 data) /\
  bds07.Status_CheckCoherency (status_07 data) <> Panic.
Proof.
  intros data Hb Hl. unfold bds07.Status_CheckCoherency, status_07, coherent_07. cbn. bits_bound 1 2 data.
  destruct (_ >=? 3) eqn:E; (split; [split; intros; first [discriminate | lia | reflexivity]|discriminate]).
Qed.

(* C39: recognised_07 and the actual behaviour differ on the reserved bits 7 and 8 *)
Theorem bds07_partial : forall data m, bytes data -> len data = 7 ->
  (recognised_07 data -> bds07.ReadStatus data = Ok (status_07 data)) /\
  (bits 7 8 data = 0 -> bds07.ReadStatus data = Ok m -> recognised_07 data /\ m = status_07 data).
Proof.
  intros data m Hb Hl. unfold recognised_07. zsplit Hl 4 6 56. zsplit Hl 7 8 56. split.
  - intros (H1 & H2 & H3). apply read_bds07; auto.
  - intros H R. apply read_bds07 in R; auto. tauto.
Qed.

Definition reserved_07 : list Z := [1;0;0;0;0;0;0].
Theorem bds07_refuted :
  bytes reserved_07 /\ len reserved_07 = 7 /\ ~ recognised_07 reserved_07 /\
  exists m, bds07.ReadStatus reserved_07 = Ok m.
Proof.
  split; [repeat constructor; lia|]. split; [reflexivity|]. split; [|eexists; reflexivity].
  unfold recognised_07. vm_compute. discriminate.
Qed.

(* ---- BDS 1,0 ---- *)

Theorem read_bds10 : forall data m, bytes data -> len data = 7 ->
  (bds10.ReadDataLinkCapabilityReport data = Ok m <->
   recognised_10 data /\ m = capability_10 data (2 * bits 18 18 data)).
Proof.
  intros data m Hb Hl. unfold recognised_10, capability_10, bds10.ReadDataLinkCapabilityReport. start data Hl Hb Oc.
  gorun. unpack. normbits Hb. rewrite ?mul_eq0.
  whole Hb L. destruct Oc as (E0 & _). rewrite E0. rewrite ?(Z.mul_comm _ 2).
  iff_cases ltac:(lia).
Qed.

(* coherency checks: case analysis on the cascade of tests *)
Global Arguments bits : simpl never.
Global Arguments bit : simpl never.
Ltac coherence tac :=
  repeat match goal with
  | |- context [if ?c then _ else _] =>
      lazymatch c with context [if _ then _ else _] => fail | _ => idtac end;
      let E := fresh "E" in destruct c eqn:E
  end;
  (split; [split; intros; first [discriminate | reflexivity | tac]|discriminate]).

Theorem coherence_bds10 : forall data sic, bytes data -> len data = 7 ->
  (bds10.DataLinkCapabilityReport_CheckCoherency (capability_10 data sic) = Ok tt <-> coherent_10 data) /\
  bds10.DataLinkCapabilityReport_CheckCoherency (capability_10 data sic) <> Panic.
Proof.
  intros data sic Hb Hl. unfold bds10.DataLinkCapabilityReport_CheckCoherency, capability_10, coherent_10.
  zsplit Hl 37 37 40. zsplit Hl 38 38 40. pose proof (bit_spec 16 data) as B. cbn.
  unfold bds10_fields.ACASFailedOrStandBy, bds10_fields.ACASHybridSurveillanceNotCapable,
    bds10_fields.ACASGenerationNotCapable, bds10_fields.ACASApplicableDocument185 in *.
  destruct (bit 16 data); rewrite B; cbn [Z.eqb Pos.eqb].
  - coherence ltac:(repeat split; intros; first [discriminate | lia]).
  - coherence ltac:(repeat split; intros; first [discriminate | lia]).
Qed.

(* C40: everything but the surveillance identifier code (bit 35) *)
Theorem bds10_partial : forall data m, bytes data -> len data = 7 ->
  (bds10.ReadDataLinkCapabilityReport data = Ok m <->
   recognised_10 data /\ m = capability_10 data (2 * bits 18 18 data)).
Proof. exact read_bds10. Qed.

(* the surveillance identifier code is bit 35: 1 is reported as 0, and 0 may be reported as 2 *)
Definition sic_witness : list Z := [16;0;0;0;32;0;0].
Theorem bds10_refuted :
  bytes sic_witness /\ len sic_witness = 7 /\ recognised_10 sic_witness /\ bits 35 35 sic_witness = 1 /\
  exists m, bds10.ReadDataLinkCapabilityReport sic_witness = Ok m /\
            bds10.DataLinkCapabilityReport_SurveillanceIdentifierCode m = 0.
Proof.
  split; [repeat constructor; lia|]. split; [reflexivity|]. split; [split; reflexivity|]. split; [reflexivity|].
  eexists. split; reflexivity.
Qed.

(* ---- BDS 1,7 ---- *)

Theorem read_bds17 : forall data m, bytes data -> len data = 7 ->
  (bds17.ReadCommonUsageGICBCapabilityReport data = Ok m <-> recognised_17 data /\ m = capability_17 data).
Proof.
  intros data m Hb Hl. unfold recognised_17, capability_17, bds17.ReadCommonUsageGICBCapabilityReport.
  start data Hl Hb Oc. gorun. normbits Hb. rewrite ?mul_eq0.
  whole Hb L. destruct Oc as (_ & _ & _ & _ & E4 & E5 & E6). rewrite E4, E5, E6. clear E4 E5 E6 Heqf. rewrite ?bit_neg0.
  zsplit L 30 32 56. zsplit L 33 40 56. zsplit L 41 48 56.
  iff_cases ltac:(lia).
Qed.

(* ---- BDS 2,0 ---- *)

Theorem read_bds20_iff : forall data m, bytes data -> len data = 7 ->
  (bds20.ReadAircraftIdentification data = Ok m <->
   recognised_20 data /\
   m = {| bds20.AircraftIdentification_Identification := text (List.map shown (char_codes data)) |}).
Proof.
  intros data m Hb Hl. unfold recognised_20. split.
  - intros R. destruct (Z.eq_dec (bits 1 8 data) 32) as [E|E].
    + rewrite (read_bds20 data Hb Hl E) in R. injection R as <-. auto.
    + destruct (read_bds20_other data Hb Hl E) as [e R']. congruence.
  - intros [E ->]. apply read_bds20; auto.
Qed.

Theorem coherence_bds20 : forall data, bytes data -> len data = 7 ->
  let m := {| bds20.AircraftIdentification_Identification := text (List.map shown (char_codes data)) |} in
  (bds20.AircraftIdentification_CheckCoherency m = Ok tt <-> legal_characters data) /\
  bds20.AircraftIdentification_CheckCoherency m <> Panic.
Proof.
  intros data Hb Hl m. unfold bds20.AircraftIdentification_CheckCoherency, m.
  cbn [bds20.AircraftIdentification_Identification]. rewrite <- coherent_text.
  destruct (contains_any _ _); (split; [split; intros; first [discriminate|reflexivity]|discriminate]).
Qed.

(* ---- BDS 3,0 ---- *)

Lemma slice_tail7 : forall data, len data = 7 -> slice data 1 (len data) = Ok (octets 2 7 data).
Proof. intros data Hl. split_list data Hl. reflexivity. Qed.

Theorem read_bds30 : forall data m, bytes data -> len data = 7 ->
  (bds30.ReadACASResolutionAdvisory data = Ok m <->
   recognised_30 data /\ acas_ra.ReadResolutionAdvisory (octets 2 7 data) = Ok (bds30.ACASResolutionAdvisory_ResolutionAdvisory m)).
Proof.
  intros data m Hb Hl. unfold bds30.ReadACASResolutionAdvisory, recognised_30. rewrite (slice_tail7 data Hl).
  remember (octets 2 7 data) as sub. clear Heqsub. start data Hl Hb Oc. gostep. destruct Oc as (E0 & _). rewrite <- E0.
  destruct (d =? 48) eqn:E; cbn [negb].
  - destruct (acas_ra.ReadResolutionAdvisory sub) as [ra|e|].
    + split; [intros H; injection H as <-; split; [lia|reflexivity]|].
      intros [_ H]. injection H as ->. destruct m. reflexivity.
    + split; [discriminate|intros [_ H]; discriminate].
    + split; [discriminate|intros [_ H]; discriminate].
  - split; [discriminate|intros [H _]; lia].
Qed.

(* C43 for the register 3,0 *)
Theorem bds30_partial : forall data m, bytes data -> len data = 7 ->
  (bits 29 30 data = 2 -> bits 31 32 data = 0 /\ bits 50 50 data = 0) ->
  (bds30.ReadACASResolutionAdvisory data = Ok m <->
   recognised_30 data /\ Reports (octets 2 7 data) (bds30.ACASResolutionAdvisory_ResolutionAdvisory m)).
Proof.
  intros data m Hb Hl H. rewrite read_bds30 by assumption.
  rewrite resolution_advisory_partial.
  - reflexivity.
  - apply octets_bytes; assumption.
  - rewrite octets_len by lia. reflexivity.
  - rewrite !bits_octets by (assumption || lia). exact H.
Qed.

(* ---- BDS 4,0 ---- *)

Definition code_setting (n : Z) : f32 := f32_add (f32_mul (f32_of_Z n) (f32_lit 1 10)) (f32_lit 800 1).

Lemma setting_ok : forall n, 0 <= n < 0 + 4096 -> is_close (code_setting n) (setting_hpa n) (1 # 10000).
Proof. apply (close_range code_setting setting_hpa (1 # 10000) 0 4096). vm_compute. reflexivity. Qed.

Lemma setting_not_0 : forall n, 0 <= n < 0 + 4096 -> fl_eqb (code_setting n) (f32_lit 0 1) = false.
Proof.
  intros n Hn. apply Bool.negb_true_iff.
  exact (forall_range (fun n => negb (fl_eqb (code_setting n) (f32_lit 0 1))) 0 4096 ltac:(vm_compute; reflexivity) n Hn).
Qed.

Lemma u32_id : forall z, 0 <= z < 4294967296 -> u32 z = z.
Proof. intros. apply Z.mod_small. lia. Qed.

(* what the reader does: the two altitudes are exchanged and the pressure status is bit 1 *)
Theorem read_bds40 : forall data m, bytes data -> len data = 7 ->
  (bds40.ReadSelectedVerticalIntention data = Ok m <->
   recognised_40 data /\
   m = intention data (16 * bits 15 26 data) (16 * bits 2 13 data) (bit 1 data) (code_setting (bits 28 39 data))).
Proof.
  intros data m Hb Hl. unfold recognised_40, intention, code_setting, bds40.ReadSelectedVerticalIntention.
  start data Hl Hb Oc. gorun. unpack. normbits Hb. rewrite ?mul_eq0.
  whole Hb L. clear Oc Heqf. rewrite ?bit_neg0, ?bit_is0. bits_bound 2 13 f. bits_bound 15 26 f.
  rewrite ?u32_id by lia. rewrite ?(Z.mul_comm _ 16). zsplit L 40 40 47.
  pose proof (bit_spec 40 f) as B40. destruct (bit 40 f); rewrite B40; clear B40.
  - split; [discriminate|intros [H _]; exfalso; lia].
  - iff_cases ltac:(lia).
Qed.

(* C44 *)
Theorem bds40_partial : forall data, bytes data -> len data = 7 ->
  (* recognition, and all the fields but the altitudes and the status of the pressure *)
  (forall m, bds40.ReadSelectedVerticalIntention data = Ok m ->
     recognised_40 data /\ exists mcp fms status pressure,
     is_close pressure (setting_hpa (bits 28 39 data)) (1 # 10000) /\
     m = intention data mcp fms status pressure) /\
  (recognised_40 data -> exists m, bds40.ReadSelectedVerticalIntention data = Ok m) /\
  (* the whole property when the two altitudes are equal and the statuses too *)
  (bits 2 13 data = bits 15 26 data -> bit 27 data = bit 1 data -> forall m,
     bds40.ReadSelectedVerticalIntention data = Ok m -> IntentionOf data m).
Proof.
  intros data Hb Hl. bits_bound 28 39 data. split; [|split].
  - intros m H. apply read_bds40 in H; [|assumption|assumption]. destruct H as [R ->]. split; [exact R|].
    do 4 eexists. split; [|reflexivity]. apply setting_ok. lia.
  - intros R. eexists. apply read_bds40; auto.
  - intros E1 E2 m H. apply read_bds40 in H; [|assumption|assumption]. destruct H as [R ->].
    rewrite <- E1. rewrite E1 at 1. rewrite <- E2. rewrite <- E1.
    replace (16 * bits 2 13 data) with (16 * bits 15 26 data) at 2 by (rewrite E1; reflexivity).
    constructor; [exact R|]. apply setting_ok. lia.
Qed.

Lemma close_unique_absurd : forall x p q err, is_close x p err -> is_close x q err ->
  (err + err < Qabs (p - q))%Q -> False.
Proof.
  intros x p q err (v & Hv & Hp) (w & Hw & Hq) H.
  assert (v == w)%Q.
  { destruct x; cbn in Hv, Hw; try contradiction; rewrite Hv, Hw; reflexivity. }
  rewrite H0 in Hp. apply (Qlt_irrefl (err + err)).
  apply Qlt_le_trans with (Qabs (p - q)); [exact H|].
  setoid_replace (p - q)%Q with ((p - w) + (w - q))%Q by ring.
  eapply Qle_trans; [apply Qabs_triangle|]. apply Qplus_le_compat; [|exact Hq].
  setoid_replace (p - w)%Q with (- (w - p))%Q by ring. rewrite Qabs_opp. exact Hp.
Qed.

(* MCP altitude 32000 ft (available), no FMS altitude, pressure 1013.2 hPa (available) *)
Definition intention_witness : list Z := [190;128;0;48;168;0;0].
Theorem bds40_refuted :
  bytes intention_witness /\ len intention_witness = 7 /\ recognised_40 intention_witness /\ coherent_40 intention_witness /\
  bit 1 intention_witness = true /\ 16 * bits 2 13 intention_witness = 32000 /\
  exists m, bds40.ReadSelectedVerticalIntention intention_witness = Ok m /\
    bds40.SelectedVerticalIntention_MCPFCUSelectedAltitudeAvailable m = true /\
    bds40.SelectedVerticalIntention_MCPFCUSelectedAltitude m = 0 /\
    bds40.SelectedVerticalIntention_FMSSelectedAltitudeAvailable m = false /\
    bds40.SelectedVerticalIntention_FMSSelectedAltitude m = 32000 /\
    ~ IntentionOf intention_witness m /\
    (* and the message is then rejected as not coherent *)
    exists e, bds40.SelectedVerticalIntention_CheckCoherency m = Err e.
Proof.
  split; [repeat constructor; lia|]. split; [reflexivity|]. split; [split; reflexivity|].
  split. { split; [left; reflexivity|]. unfold absent_is_zero. repeat split; intros H; vm_compute in H |- *; congruence. }
  split; [reflexivity|]. split; [reflexivity|].
  eexists. split; [vm_compute; reflexivity|]. split; [reflexivity|]. split; [reflexivity|]. split; [reflexivity|].
  split; [reflexivity|]. split; [|eexists; vm_compute; reflexivity].
  intros H. inversion H.
Qed.

(* only the pressure is reported: 1013.2 hPa *)
Definition pressure_witness : list Z := [0;0;0;48;168;0;0].
Theorem bds40_pressure_refuted :
  bytes pressure_witness /\ len pressure_witness = 7 /\ recognised_40 pressure_witness /\ coherent_40 pressure_witness /\
  bit 27 pressure_witness = true /\
  exists m, bds40.ReadSelectedVerticalIntention pressure_witness = Ok m /\
    bds40.SelectedVerticalIntention_BarometricPressureSettingAvailable m = false /\
    exists e, bds40.SelectedVerticalIntention_CheckCoherency m = Err e.
Proof.
  split; [repeat constructor; lia|]. split; [reflexivity|]. split; [split; reflexivity|].
  split. { split; [right; right; reflexivity|]. unfold absent_is_zero. repeat split; intros H; vm_compute in H |- *; congruence. }
  split; [reflexivity|].
  eexists. split; [vm_compute; reflexivity|]. split; [reflexivity|]. eexists; vm_compute; reflexivity.
Qed.

Theorem coherence_bds40 : forall data, bytes data -> len data = 7 ->
  let m := intention data (16 * bits 15 26 data) (16 * bits 2 13 data) (bit 1 data) (code_setting (bits 28 39 data)) in
  (bds40.SelectedVerticalIntention_CheckCoherency m = Ok tt <-> accepted_40 data) /\
  bds40.SelectedVerticalIntention_CheckCoherency m <> Panic.
Proof.
  intros data Hb Hl m. unfold bds40.SelectedVerticalIntention_CheckCoherency, m, intention, accepted_40, absent_is_zero.
  cbn -[Z.mul]. bits_bound 28 39 data. rewrite setting_not_0 by lia. cbn [negb].
  destruct (bit 1 data), (bit 14 data); cbn [negb andb].
  - coherence ltac:(intuition congruence).
  - destruct (16 * bits 2 13 data =? 0) eqn:E; cbn [negb].
    + coherence ltac:(split; [reflexivity|intros _; lia]).
    + coherence ltac:(exfalso; match goal with H : _ /\ _ |- _ => destruct H as [_ H]; specialize (H eq_refl); lia end).
  - coherence ltac:(intuition congruence).
  - coherence ltac:(intuition congruence).
Qed.
