(* Airborne and surface positions: C21-C26, C34. *)
From Verif.Proofs Require Import Tac Gillham.
From Verif.Spec Require Import Altitude Floats Adsb.
From Verif.Gen Require bds05 bds05_fields bds06 bds06_fields adsb adsb_airborne_position
  adsb_airborne_position_fields adsb_surface_position adsb_surface_position_fields
  adsb_no_position_information.
Local Open Scope Z_scope.

(* altitude as computed by the code *)
Definition code_altitude12 (f : list Z) : res Z :=
  if bit 16 f then Ok (25 * (16 * bits 9 15 f + bits 17 20 f) - 1000)
  else
    match bitutils.GillhamToAltitude false (bit 18 f) (bit 20 f)
            (bit 10 f) (bit 12 f) (bit 14 f)
            (bit 15 f) (bit 17 f) (bit 19 f)
            (bit 9 f) (bit 11 f) (bit 13 f) with
    | Ok a => Ok a
    | Err _ => Err "the Altitude field is malformed"%string
    | Panic => Panic
    end.

Lemma read_altitude12 : forall data, bytes data -> len data = 7 ->
  bds05_fields.ReadAltitude data =
  rmap (fun a => (a, (if (20 <=? bits 1 5 data) && (bits 1 5 data <=? 22) then 1 else 0), bits 16 16 data)) (code_altitude12 data).
Proof.
  intros data Hb Hl. split_list data Hl. unfold bds05_fields.ReadAltitude, code_altitude12.
  reg_run Hb.
  match type of Hb with bytes ?l => 
       assert (E : Z.lor (bits 9 15 l * 16) (bits 17 20 l) = bits 9 15 l * 16 + bits 17 20 l) by (bveq l Hb);
       rewrite E; clear E;
       bits_bound 9 15 l; bits_bound 17 20 l; rewrite (bit_spec 16 l); remember l as f eqn:Ef
  end.
  rewrite !i32_small by (rewrite ?i32_small by lia; lia).
  destruct (bit 16 f); cbn [rmap].
  - do 3 f_equal. lia.
  - destruct (bitutils.GillhamToAltitude _ _ _ _ _ _ _ _ _ _ _ _); reflexivity.
Qed.

Lemma code_altitude12_ok : forall data alt, bytes data -> len data = 7 ->
  Altitude12 data alt <-> code_altitude12 data = Ok alt.
Proof.
  intros data alt Hb Hl. unfold Altitude12, code_altitude12. destruct (bit 16 data).
  - split; [intros ->; reflexivity|intros E; injection E as <-; reflexivity].
  - rewrite gillham_decodes. destruct (bitutils.GillhamToAltitude _ _ _ _ _ _ _ _ _ _ _ _); split; congruence.
Qed.

Lemma code_altitude12_err : forall data, bytes data -> len data = 7 ->
  (forall alt, ~ Altitude12 data alt) <-> exists e, code_altitude12 data = Err e.
Proof.
  intros data Hb Hl. unfold Altitude12, code_altitude12. destruct (bit 16 data).
  - split; [intros N; exfalso; eapply N; reflexivity|intros [e E]; discriminate].
  - rewrite gillham_rejects. destruct (bitutils.GillhamToAltitude _ _ _ _ _ _ _ _ _ _ _ _); split; intros [e E]; try discriminate; eauto.
Qed.

Lemma read_bds05 : forall data, bytes data -> len data = 7 -> airborne_type (bits 1 5 data) ->
  forall alt, Altitude12 data alt -> bds05.ReadAirbornePosition data = Ok (airborne_position data alt).
Proof.
  intros data Hb Hl Ht alt Ha. pose proof (proj1 (code_altitude12_ok data alt Hb Hl) Ha) as Ha'.
  pose proof (read_altitude12 data Hb Hl) as R. rewrite Ha' in R. cbn [rmap] in R.
  unfold bds05.ReadAirbornePosition. rewrite R. clear R Ha' Ha.
  unfold airborne_type in Ht. split_list data Hl. reg_run Hb. unfold airborne_position.
  decide_if. repeat f_equal.
  match goal with |- context [bits 1 5 ?l] => remember (bits 1 5 l) as t end.
  destruct (Z.leb_spec 20 t), (Z.leb_spec t 22); cbn; try reflexivity; lia.
Qed.

Lemma read_bds05_bad_altitude : forall data, bytes data -> len data = 7 -> airborne_type (bits 1 5 data) ->
  (forall alt, ~ Altitude12 data alt) -> bds05.ReadAirbornePosition data = Err "the field Altitude is malformed"%string.
Proof.
  intros data Hb Hl Ht Ha. apply (proj1 (code_altitude12_err data Hb Hl)) in Ha as [e Ha'].
  pose proof (read_altitude12 data Hb Hl) as R. rewrite Ha' in R. cbn [rmap] in R.
  unfold bds05.ReadAirbornePosition. rewrite R. clear R Ha'.
  unfold airborne_type in Ht. split_list data Hl. reg_run Hb. decide_if. reflexivity.
Qed.

Lemma altitude12_dec : forall data, (exists alt, Altitude12 data alt) \/ (forall alt, ~ Altitude12 data alt).
Proof.
  intros data. unfold Altitude12. destruct (bit 16 data); [left; eauto|].
  rewrite gillham_rejects. 
  destruct (bitutils.GillhamToAltitude false (bit 18 data) (bit 20 data) (bit 10 data)
         (bit 12 data) (bit 14 data) (bit 15 data) (bit 17 data) (bit 19 data)
         (bit 9 data) (bit 11 data) (bit 13 data)) eqn:E.
  - left. exists a. apply gillham_decodes. exact E.
  - right. eauto.
  - exfalso. revert E. apply gillham_no_panic.
Qed.

(* ---- surface ---- *)

Lemma movement_ok : forall code, 0 <= code < 0 + 128 ->
  is_value (bds06_fields.MovementStatus_getSpeed code) (movement_knots code).
Proof. apply value_range. vm_compute. reflexivity. Qed.

Lemma ground_track_ok : forall code, 0 <= code < 0 + 128 ->
  is_value (f32_div (f32_mul (f32_of_Z code) (f32_lit 360 1)) (f32_lit 128 1)) (inject_Z code * (360 # 128)).
Proof. apply value_range. vm_compute. reflexivity. Qed.

Lemma read_bds06 : forall data, bytes data -> len data = 7 -> surface_type (bits 1 5 data) ->
  exists p, bds06.ReadSurfacePosition data = Ok p /\ surface_position data p.
Proof.
  intros data Hb Hl Ht. unfold surface_type in Ht. unfold bds06.ReadSurfacePosition. split_list data Hl.
  reg_run Hb. decide_if. eexists. split; [reflexivity|]. unfold surface_position. cbn [
    bds06.SurfacePosition_FormatTypeCode bds06.SurfacePosition_MovementStatus
    bds06.SurfacePosition_MovementSpeed bds06.SurfacePosition_GroundTrackStatus
    bds06.SurfacePosition_GroundTrack bds06.SurfacePosition_Time bds06.SurfacePosition_CPRFormat
    bds06.SurfacePosition_EncodedLatitude bds06.SurfacePosition_EncodedLongitude].
  match type of Hb with bytes ?l => bits_bound 6 12 l; bits_bound 14 20 l end.
  repeat split; try (apply movement_ok; lia); try (apply ground_track_ok; lia).
Qed.
