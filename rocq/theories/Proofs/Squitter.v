(* C78-C81: what an aircraft sends in extended squitters is what the library tells. *)
From Verif.Proofs Require Import Tac.
From Verif.Spec Require Import Altitude ModeS Crc Floats Identification Adsb AdsbMessages Velocity Status Squitter.
From Verif.Gen Require modes_messages modes_fields adsb_airborne_position bds05.
From Verif.Model Require Import Crc ModesReader AdsbReader.
From Verif.Proofs Require Import ModeSReader CrcReader Octets Adsb0506 AdsbApi.
Local Open Scope Z_scope.

(* ---- packing ---- *)
Lemma fits_app : forall l r, fits (l ++ r) <-> fits l /\ fits r.
Proof. intros. unfold fits. apply Forall_app. Qed.

Lemma width_app : forall l r, width (l ++ r) = width l + width r.
Proof. induction l as [|f l IH]; intros r; [reflexivity|]. cbn [app]. unfold width in *. cbn [fold_right]. rewrite IH. lia. Qed.

Lemma width_nonneg : forall l, fits l -> 0 <= width l.
Proof. induction 1 as [|f l H _ IH]; cbn; [lia|]. unfold width in IH. lia. Qed.

Lemma packed_acc : forall l a, fits l -> fold_left (fun acc f => acc * 2 ^ fst f + snd f) l a = a * 2 ^ width l + packed l.
Proof.
  unfold packed. induction l as [|f l IH]; intros a F.
  - cbn. lia.
  - inversion F as [|? ? H F']; subst. cbn [fold_left]. rewrite IH by exact F'. rewrite (IH (0 * 2 ^ fst f + snd f)) by exact F'.
    change (width (f :: l)) with (fst f + width l). rewrite Z.pow_add_r by (try apply width_nonneg; lia || exact F'). ring.
Qed.

Lemma packed_app : forall l r, fits r -> packed (l ++ r) = packed l * 2 ^ width r + packed r.
Proof. intros l r F. unfold packed at 1. rewrite fold_left_app. apply packed_acc. exact F. Qed.

Lemma packed_one : forall w v, packed [(w, v)] = v.
Proof. intros. reflexivity. Qed.

Lemma packed_range : forall l, fits l -> 0 <= packed l < 2 ^ width l.
Proof.
  induction 1 as [|f l H F IH]; [cbn; lia|]. change (f :: l) with ([f] ++ l). rewrite packed_app by exact F.
  destruct f as [w v]. rewrite packed_one. rewrite width_app. cbn [fst snd] in H. change (width [(w, v)]) with (w + 0).
  rewrite Z.add_0_r, Z.pow_add_r by (try apply width_nonneg; lia || exact F). nia.
Qed.

Lemma octets_of_len : forall n z, len (octets_of n z) = Z.of_nat n.
Proof.
  induction n as [|n IH]; intros z; [reflexivity|]. cbn [octets_of]. unfold len in *. rewrite app_length. cbn [Datatypes.length]. 
  specialize (IH (z / 256)). lia.
Qed.

Lemma octets_of_bytes : forall n z, bytes (octets_of n z).
Proof.
  induction n as [|n IH]; intros z; [constructor|]. cbn [octets_of]. apply Forall_app. split; [apply IH|].
  constructor; [|constructor]. apply Z.mod_pos_bound. lia.
Qed.

Lemma be_octets_of : forall n z, 0 <= z < 256 ^ Z.of_nat n -> be (octets_of n z) = z.
Proof.
  induction n as [|n IH]; intros z H; [cbn in *; lia|]. cbn [octets_of]. rewrite be_app. change (be [z mod 256]) with (256 * 0 + z mod 256).
  change (len [z mod 256]) with 1. rewrite Nat2Z.inj_succ, Z.pow_succ_r in H by lia. rewrite IH.
  - pose proof (Z.div_mod z 256). lia.
  - split; [apply Z.div_pos; lia|]. apply Z.div_lt_upper_bound; lia.
Qed.

Lemma octets_of_app : forall n m a b, 0 <= b < 256 ^ Z.of_nat m ->
  octets_of (n + m) (a * 256 ^ Z.of_nat m + b) = octets_of n a ++ octets_of m b.
Proof.
  intros n m. induction m as [|m IH]; intros a b H.
  - rewrite Nat.add_0_r. change (256 ^ Z.of_nat 0) with 1 in *. cbn [octets_of]. rewrite app_nil_r. f_equal. lia.
  - rewrite Nat.add_succ_r. cbn [octets_of]. rewrite Nat2Z.inj_succ, Z.pow_succ_r in H |- * by lia.
    replace (a * (256 * 256 ^ Z.of_nat m) + b) with (b + (a * 256 ^ Z.of_nat m) * 256) by ring.
    rewrite Z.div_add, Z.mod_add by lia. rewrite Z.add_comm, IH.
    + rewrite app_assoc. reflexivity.
    + split; [apply Z.div_pos; lia|]. apply Z.div_lt_upper_bound; lia.
Qed.

Lemma pow256 : forall k, 0 <= k -> 256 ^ k = 2 ^ (8 * k).
Proof. intros k H. change 256 with (2 ^ 8). rewrite <- Z.pow_mul_r by lia. reflexivity. Qed.

Section whole.
Variables (l : list field) (k : Z).
Hypotheses (F : fits l) (W : width l = 8 * k).

Lemma whole_k : 0 <= k.
Proof using F W. pose proof (width_nonneg l F). lia. Qed.
Lemma message_len : len (message l) = k.
Proof using F W. unfold message. rewrite octets_of_len, W, (Z.mul_comm 8), Z.div_mul by lia. pose proof whole_k. lia. Qed.
Lemma message_be : be (message l) = packed l.
Proof using F W.
  unfold message. rewrite W, (Z.mul_comm 8), Z.div_mul by lia. pose proof whole_k. apply be_octets_of.
  rewrite Z2Nat.id by lia. rewrite pow256, <- W by lia. apply packed_range, F.
Qed.
End whole.

Lemma message_bytes : forall l, bytes (message l).
Proof. intros. apply octets_of_bytes. Qed.

Lemma message_app : forall l r j k, fits l -> fits r -> width l = 8 * j -> width r = 8 * k -> message (l ++ r) = message l ++ message r.
Proof.
  intros l r j k Fl Fr Wl Wr. pose proof (width_nonneg l Fl). pose proof (width_nonneg r Fr).
  unfold message. rewrite width_app, packed_app, Wl, Wr by exact Fr.
  replace (8 * j + 8 * k) with ((j + k) * 8) by ring. rewrite (Z.mul_comm 8 j), (Z.mul_comm 8 k), !Z.div_mul by lia.
  rewrite Z2Nat.inj_add by lia. rewrite (Z.mul_comm k 8).
  rewrite <- pow256 by lia. rewrite <- (Z2Nat.id k) at 2 by lia. apply octets_of_app.
  rewrite Z2Nat.id, pow256, <- Wr by lia. apply packed_range, Fr.
Qed.

(* the bits of a field, or of consecutive ones *)
Lemma bits_message : forall l m r k, fits l -> fits m -> fits r -> width l + width m + width r = 8 * k ->
  bits (width l + 1) (width l + width m) (message (l ++ m ++ r)) = packed m.
Proof.
  intros l m r k Fl Fm Fr W.
  assert (Fa : fits (l ++ m ++ r)) by (rewrite !fits_app; auto).
  assert (Wa : width (l ++ m ++ r) = 8 * k) by (rewrite !width_app; lia).
  unfold bits. rewrite (message_be _ k Fa Wa), (message_len _ k Fa Wa), <- Wa, !width_app.
  pose proof (width_nonneg l Fl). pose proof (width_nonneg m Fm). pose proof (width_nonneg r Fr).
  replace (width l + (width m + width r) - (width l + width m)) with (width r) by ring.
  replace (width l + width m - (width l + 1) + 1) with (width m) by ring.
  rewrite !packed_app, ?width_app by (rewrite ?fits_app; auto).
  pose proof (packed_range m Fm). pose proof (packed_range r Fr).
  rewrite Z.pow_add_r by lia.
  replace (packed l * (2 ^ width m * 2 ^ width r) + (packed m * 2 ^ width r + packed r))
    with (packed r + (packed m + packed l * 2 ^ width m) * 2 ^ width r) by ring.
  rewrite Z.div_add by (apply Z.pow_nonzero; lia). rewrite Z.div_small by assumption.
  rewrite Z.add_0_l, Z.mod_add by (apply Z.pow_nonzero; lia). apply Z.mod_small. assumption.
Qed.

(* ---- the squitter ---- *)
Lemma parity_fits : forall l p, Parity l p -> fits [(24, p)].
Proof. intros l p [H _]. constructor; [|constructor]. cbn [fst snd]. lia. Qed.

Lemma firstn_len : forall (A : Type) (l r : list A) n, Z.to_nat (len l) = n -> firstn n (l ++ r) = l.
Proof.
  intros A l r n <-. unfold len. rewrite Nat2Z.id. rewrite firstn_app, firstn_all, Nat.sub_diag, firstn_O, app_nil_r. reflexivity.
Qed.
Lemma skipn_len : forall (A : Type) (l r : list A) n, Z.to_nat (len l) = n -> skipn n (l ++ r) = r.
Proof.
  intros A l r n <-. unfold len. rewrite Nat2Z.id. rewrite skipn_app, skipn_all, Nat.sub_diag, skipn_O. reflexivity.
Qed.

Theorem squitter_received : forall ca icao payload frame, Squitter ca icao payload frame ->
  bytes (message payload) /\ len (message payload) = 7 /\
  exists d, ReadMessage frame = Ok (MDF17 d) /\ CheckCRC (MDF17 d) frame [] [] = Ok icao /\
    modes_messages.MessageDF17_MessageExtendedSquitter d = message payload.
Proof.
  intros ca icao payload frame (Fh & Fp & Wp & p & Hp & E). pose proof (parity_fits _ _ Hp) as Ft.
  assert (L7 : len (message payload) = 7) by (apply message_len; [exact Fp|lia]).
  split; [apply message_bytes|]. split; [exact L7|].
  assert (L4 : len (message (header ca icao)) = 4) by (apply message_len; [exact Fh|reflexivity]).
  assert (E1 : message (header ca icao ++ payload) = message (header ca icao) ++ message payload).
  { apply (message_app _ _ 4 7); auto. }
  assert (E2 : frame = message (header ca icao) ++ message payload ++ message [(24, p)]).
  { rewrite E. rewrite (message_app _ _ 4 10); [|exact Fh|apply fits_app; auto|reflexivity|rewrite width_app, Wp; reflexivity].
    rewrite (message_app payload _ 7 3) by auto. reflexivity. }
  assert (Hb : bytes frame) by (rewrite E; apply message_bytes).
  assert (Hl : len frame = 14).
  { rewrite E. apply message_len; [rewrite !fits_app; auto|]. rewrite !width_app, Wp. reflexivity. }
  assert (B1 : bits 1 5 frame = 17).
  { rewrite E. change (header ca icao ++ payload ++ [(24, p)]) with ([] ++ [(5, 17)] ++ ([(3, ca); (24, icao)] ++ payload ++ [(24, p)])).
    inversion Fh as [|? ? F1 Fh']; subst.
    apply (bits_message [] [(5, 17)] _ 14); [constructor|constructor; [exact F1|constructor]|rewrite !fits_app; auto|].
    rewrite !width_app, Wp. reflexivity. }
  assert (B2 : bits 9 32 frame = icao).
  { rewrite E. change (header ca icao ++ payload ++ [(24, p)]) with ([(5, 17); (3, ca)] ++ [(24, icao)] ++ (payload ++ [(24, p)])).
    change (header ca icao) with ([(5, 17); (3, ca)] ++ [(24, icao)]) in Fh. apply fits_app in Fh as [F1 F2].
    apply (bits_message [(5, 17); (3, ca)] [(24, icao)] _ 14); auto; [rewrite !fits_app; auto|].
    rewrite !width_app, Wp. reflexivity. }
  assert (B3 : bits 89 112 frame = p).
  { rewrite E. rewrite app_assoc. change [(24, p)] with ([(24, p)] ++ []).
    replace 89 with (width (header ca icao ++ payload) + 1) by (rewrite width_app, Wp; reflexivity).
    replace 112 with (width (header ca icao ++ payload) + width [(24, p)]) by (rewrite width_app, Wp; reflexivity).
    apply (bits_message _ [(24, p)] [] 14); auto; [rewrite fits_app; auto|constructor|].
    rewrite !width_app, Wp. reflexivity. }
  assert (O1 : octets 1 11 frame = message (header ca icao ++ payload)).
  { rewrite E1, E2, app_assoc. unfold octets. cbn [Z.sub Z.to_nat skipn]. apply firstn_len.
    unfold len in *. rewrite app_length. replace (Z.of_nat (Datatypes.length (message (header ca icao)) + Datatypes.length (message payload))) with 11 by lia. reflexivity. }
  assert (O2 : octets 5 11 frame = message payload).
  { rewrite E2. unfold octets. rewrite (skipn_len _ (message (header ca icao))) by (rewrite L4; reflexivity).
    apply firstn_len. rewrite L7. reflexivity. }
  pose proof (df17_layout frame Hb Hl B1) as R. eexists. split; [exact R|]. split; [|exact O2].
  apply (extended_squitter_check frame _ [] [] Hb R); [left; reflexivity|]. rewrite O1, B3, B2. split; [exact Hp|reflexivity].
Qed.

(* c fields from the n-th on *)
Lemma bits_field : forall fs n c i j k x, fits fs -> width fs = 8 * k ->
  width (firstn n fs) + 1 = i -> width (firstn n fs) + width (firstn c (skipn n fs)) = j ->
  packed (firstn c (skipn n fs)) = x -> bits i j (message fs) = x.
Proof.
  intros fs n c i j k x F W <- <- <-.
  assert (E : fs = firstn n fs ++ firstn c (skipn n fs) ++ skipn c (skipn n fs)) by (rewrite firstn_skipn, firstn_skipn; reflexivity).
  pose proof F as F'. rewrite E in F'. rewrite !fits_app in F'. destruct F' as (F1 & F2 & F3).
  pose proof (bits_message _ _ _ k F1 F2 F3) as B. rewrite <- E in B. apply B.
  rewrite <- W. pose proof (f_equal width E) as EW. rewrite !width_app in EW. lia.
Qed.

(* ---- airborne positions ---- *)
Lemma altitude_fits : forall feet alt, altitude_fields feet alt -> fits alt /\ width alt = 12.
Proof.
  intros feet alt H. destruct H as [k Hk|].
  - split; [|reflexivity]. pose proof (Z.mod_pos_bound k 16 ltac:(lia)). pose proof (Z.div_mod k 16 ltac:(lia)).
    constructor; [cbn [fst snd]; change (2 ^ 7) with 128; lia|]. constructor; [cbn [fst snd]; change (2 ^ 1) with 2; lia|].
    constructor; [cbn [fst snd]; change (2 ^ 4) with 16; lia|]. constructor.
  - split; [|reflexivity]. assert (X : forall b, 0 <= flag b < 2) by (intros []; cbn; lia).
    unfold fits. repeat (constructor; [cbn [fst snd]; change (2 ^ 1) with 2; split; [lia|first [apply X|lia]]|]). constructor.
Qed.

Lemma flag_test : forall b, (flag b =? 1) = b.
Proof. intros []; reflexivity. Qed.

Ltac look n c := match goal with |- bits ?i ?j (message ?fs) = ?x =>
  apply (bits_field fs n c i j 7 x); [assumption|assumption|reflexivity|reflexivity|] end.

Lemma airborne_bits : forall tc ss sa feet alt t odd la lo,
  let fs := airborne_payload tc ss sa alt t odd la lo in
  altitude_fields feet alt -> fits fs ->
  width fs = 56 /\ bits 1 5 (message fs) = tc /\ Altitude12 (message fs) feet /\ bits 6 7 (message fs) = ss /\ bits 8 8 (message fs) = sa /\
  bits 21 21 (message fs) = t /\ bits 22 22 (message fs) = flag odd /\
  bits 23 39 (message fs) = la /\ bits 40 56 (message fs) = lo.
Proof.
  intros tc ss sa feet alt t odd la lo fs A F.
  assert (W : width fs = 8 * 7). { unfold fs, airborne_payload. rewrite !width_app. destruct (altitude_fits _ _ A) as [_ ->]. reflexivity. }
  split; [exact W|]. unfold fs in *. clear fs. destruct A as [k Hk|feet d2 d4 a1 a2 a4 b1 b2 b4 c1 c2 c4 G].
  - split; [look 0%nat 1%nat; reflexivity|]. split.
    + unfold Altitude12, bit.
      assert (Q : bits 16 16 (message (airborne_payload tc ss sa [(7, k / 16); (1, 1); (4, k mod 16)] t odd la lo)) = 1) by (look 4%nat 1%nat; reflexivity).
      rewrite Q. change (1 =? 1) with true. cbv iota.
      assert (Q1 : bits 9 15 (message (airborne_payload tc ss sa [(7, k / 16); (1, 1); (4, k mod 16)] t odd la lo)) = k / 16) by (look 3%nat 1%nat; reflexivity).
      assert (Q2 : bits 17 20 (message (airborne_payload tc ss sa [(7, k / 16); (1, 1); (4, k mod 16)] t odd la lo)) = k mod 16) by (look 5%nat 1%nat; reflexivity).
      rewrite Q1, Q2. pose proof (Z.div_mod k 16). lia.
    + split; [look 1%nat 1%nat; reflexivity|]. split; [look 2%nat 1%nat; reflexivity|]. split; [look 6%nat 1%nat; reflexivity|]. split; [look 7%nat 1%nat; reflexivity|]. split; [look 8%nat 1%nat; reflexivity|look 9%nat 1%nat; reflexivity].
  - split; [look 0%nat 1%nat; reflexivity|]. split.
    + unfold Altitude12, bit. set (me := message _).
      assert (Q16 : bits 16 16 me = 0) by (unfold me; look 10%nat 1%nat; reflexivity). rewrite Q16. change (0 =? 1) with false. cbv iota.
      assert (Q18 : bits 18 18 me = flag d2) by (unfold me; look 12%nat 1%nat; reflexivity).
      assert (Q20 : bits 20 20 me = flag d4) by (unfold me; look 14%nat 1%nat; reflexivity).
      assert (Q10 : bits 10 10 me = flag a1) by (unfold me; look 4%nat 1%nat; reflexivity).
      assert (Q12 : bits 12 12 me = flag a2) by (unfold me; look 6%nat 1%nat; reflexivity).
      assert (Q14 : bits 14 14 me = flag a4) by (unfold me; look 8%nat 1%nat; reflexivity).
      assert (Q15 : bits 15 15 me = flag b1) by (unfold me; look 9%nat 1%nat; reflexivity).
      assert (Q17 : bits 17 17 me = flag b2) by (unfold me; look 11%nat 1%nat; reflexivity).
      assert (Q19 : bits 19 19 me = flag b4) by (unfold me; look 13%nat 1%nat; reflexivity).
      assert (Q9 : bits 9 9 me = flag c1) by (unfold me; look 3%nat 1%nat; reflexivity).
      assert (Q11 : bits 11 11 me = flag c2) by (unfold me; look 5%nat 1%nat; reflexivity).
      assert (Q13 : bits 13 13 me = flag c4) by (unfold me; look 7%nat 1%nat; reflexivity).
      rewrite Q18, Q20, Q10, Q12, Q14, Q15, Q17, Q19, Q9, Q11, Q13, !flag_test. exact G.
    + split; [look 1%nat 1%nat; reflexivity|]. split; [look 2%nat 1%nat; reflexivity|]. split; [look 15%nat 1%nat; reflexivity|]. split; [look 16%nat 1%nat; reflexivity|]. split; [look 17%nat 1%nat; reflexivity|look 18%nat 1%nat; reflexivity].
Qed.

Lemma altitude12_unique : forall data feet feet', bytes data -> len data = 7 -> KindOf data KAirborne ->
  Altitude12 data feet -> Altitude12 data feet' -> feet = feet'.
Proof.
  intros data feet feet' Hb Hl Hk A A'. apply kind_airborne in Hk.
  pose proof (read_bds05 data Hb Hl Hk feet A) as R. rewrite (read_bds05 data Hb Hl Hk feet' A') in R. injection R as E. congruence.
Qed.

Lemma airborne_part_ok : forall v a data m, AirborneOf v a data m -> exists feet, Altitude12 data feet /\ airborne_part m = airborne_position data feet.
Proof. intros v a data m H. destruct H; eexists; split; try eassumption; reflexivity. Qed.

(* an airborne position is read as it was sent *)
Theorem airborne_received : forall v nicA nicC ca icao tc status antenna feet altitude time odd lat lon frame,
  (0 <= v <= 2)%Z -> (9 <= tc <= 18 \/ 20 <= tc <= 22)%Z -> altitude_fields feet altitude ->
  Squitter ca icao (airborne_payload tc status antenna altitude time odd lat lon) frame ->
  exists m, received v nicA nicC frame icao (AAirborne m) /\
    bds05.AirbornePosition_FormatTypeCode (airborne_part m) = tc /\
    bds05.AirbornePosition_SurveillanceStatus (airborne_part m) = status /\
    bds05.AirbornePosition_SingleAntennaFlag (airborne_part m) = antenna /\
    bds05.AirbornePosition_AltitudeInFeet (airborne_part m) = feet /\
    bds05.AirbornePosition_Time (airborne_part m) = time /\
    bds05.AirbornePosition_CPRFormat (airborne_part m) = flag odd /\
    bds05.AirbornePosition_EncodedLatitude (airborne_part m) = lat /\
    bds05.AirbornePosition_EncodedLongitude (airborne_part m) = lon.
Proof.
  intros v nicA nicC ca icao tc ss sa feet alt t odd la lo frame Hv Ht A S.
  pose proof S as (_ & F & _).
  destruct (airborne_bits tc ss sa feet alt t odd la lo A F) as (_ & B1 & BA & B2 & B3 & B4 & B5 & B6 & B7).
  destruct (squitter_received _ _ _ _ S) as (Hb & Hl & d & R & C & E).
  set (me := message _) in *. clearbody me.
  assert (K : KindOf me KAirborne) by (apply k_airborne; rewrite B1; exact Ht).
  destruct (airborne_ok v nicA nicC me feet Hb Hl K Hv BA) as (m & Rm & M).
  exists m. split; [exists d; rewrite E; auto|].
  destruct (airborne_part_ok _ _ _ _ M) as (feet' & BA' & ->). cbn -[bits]. repeat split; try assumption.
  apply (altitude12_unique me); assumption.
Qed.

(* ---- surface positions ---- *)
Lemma surface_bits : forall tc mv ts tr t odd la lo,
  let fs := surface_payload tc mv ts tr t odd la lo in fits fs ->
  bits 1 5 (message fs) = tc /\ bits 6 12 (message fs) = mv /\ bits 13 13 (message fs) = flag ts /\ bits 14 20 (message fs) = tr /\
  bits 21 21 (message fs) = t /\ bits 22 22 (message fs) = flag odd /\ bits 23 39 (message fs) = la /\ bits 40 56 (message fs) = lo.
Proof.
  intros tc mv ts tr t odd la lo fs F. assert (W : width fs = 8 * 7) by reflexivity. unfold fs in *.
  split; [look 0%nat 1%nat; reflexivity|]. split; [look 1%nat 1%nat; reflexivity|]. split; [look 2%nat 1%nat; reflexivity|].
  split; [look 3%nat 1%nat; reflexivity|]. split; [look 4%nat 1%nat; reflexivity|]. split; [look 5%nat 1%nat; reflexivity|].
  split; [look 6%nat 1%nat; reflexivity|look 7%nat 1%nat; reflexivity].
Qed.

Theorem surface_received : forall v nicA nicC ca icao tc movement track_valid track time odd lat lon frame,
  (0 <= v <= 2)%Z -> (5 <= tc <= 8)%Z ->
  Squitter ca icao (surface_payload tc movement track_valid track time odd lat lon) frame ->
  exists m, received v nicA nicC frame icao (ASurface m) /\
    bds06.SurfacePosition_FormatTypeCode (surface_part m) = tc /\
    is_value (bds06.SurfacePosition_MovementSpeed (surface_part m)) (movement_knots movement) /\
    bds06.SurfacePosition_GroundTrackStatus (surface_part m) = track_valid /\
    is_value (bds06.SurfacePosition_GroundTrack (surface_part m)) (inject_Z track * (360 # 128))%Q /\
    bds06.SurfacePosition_Time (surface_part m) = time /\
    bds06.SurfacePosition_CPRFormat (surface_part m) = flag odd /\
    bds06.SurfacePosition_EncodedLatitude (surface_part m) = lat /\
    bds06.SurfacePosition_EncodedLongitude (surface_part m) = lon.
Proof.
  intros v nicA nicC ca icao tc mv ts tr t odd la lo frame Hv Ht S.
  pose proof S as (_ & F & _).
  destruct (surface_bits tc mv ts tr t odd la lo F) as (B1 & B2 & B3 & B4 & B5 & B6 & B7 & B8).
  destruct (squitter_received _ _ _ _ S) as (Hb & Hl & d & R & C & E).
  generalize dependent (message (surface_payload tc mv ts tr t odd la lo)). intros me B1 B2 B3 B4 B5 B6 B7 B8 Hb Hl E.
  assert (K : KindOf me KSurface) by (apply k_surface; rewrite B1; exact Ht).
  destruct (surface_fields v nicA nicC me Hb Hl K Hv) as (m & Rm & M).
  exists m. split; [exists d; rewrite E; auto|].
  destruct M as (M1 & M2 & M3 & M4 & M5 & M6 & M7 & M8 & M9). 
  rewrite B2 in M3. rewrite B4 in M5. unfold bit in M4. rewrite B3, flag_test in M4.
  split; [congruence|]. split; [exact M3|]. split; [exact M4|]. split; [exact M5|]. repeat split; congruence.
Qed.

(* ---- identifications ---- *)
Lemma codes8 : forall (l : list Z), len l = 8 -> exists c0 c1 c2 c3 c4 c5 c6 c7, l = [c0; c1; c2; c3; c4; c5; c6; c7].
Proof.
  intros l H. unfold len in H. do 9 (destruct l as [|? l]; [try (cbn in H; lia)|]); [eauto 10|cbn [Datatypes.length] in H; lia].
Qed.

Lemma identification_bits : forall tc cat codes, let fs := identification_payload tc cat codes in
  len codes = 8 -> fits fs ->
  width fs = 56 /\ bits 1 5 (message fs) = tc /\ bits 6 8 (message fs) = cat /\ char_codes (message fs) = codes.
Proof.
  intros tc cat codes fs L F. destruct (codes8 codes L) as (c0 & c1 & c2 & c3 & c4 & c5 & c6 & c7 & ->).
  assert (W : width fs = 8 * 7) by reflexivity. split; [reflexivity|]. unfold fs in *.
  split; [look 0%nat 1%nat; reflexivity|]. split; [look 1%nat 1%nat; reflexivity|].
  unfold char_codes. cbn [List.map]. cbn [Z.mul Z.add Pos.mul Pos.add Pos.succ].
  repeat match goal with |- ?a :: ?l = _ => f_equal end.
  - look 2%nat 1%nat; reflexivity.
  - look 3%nat 1%nat; reflexivity.
  - look 4%nat 1%nat; reflexivity.
  - look 5%nat 1%nat; reflexivity.
  - look 6%nat 1%nat; reflexivity.
  - look 7%nat 1%nat; reflexivity.
  - look 8%nat 1%nat; reflexivity.
  - look 9%nat 1%nat; reflexivity.
Qed.

Lemma shown_of : forall codes l, List.map ia5 codes = List.map Some l -> List.map shown codes = l.
Proof.
  induction codes as [|c codes IH]; intros [|a l] H; try discriminate; [reflexivity|].
  cbn [List.map] in *. injection H as H1 H2. unfold shown at 1. rewrite H1. f_equal. apply IH. exact H2.
Qed.

Theorem identification_received : forall v nicA nicC ca icao tc category codes callsign frame,
  (1 <= tc <= 4)%Z -> len codes = 8%Z -> List.map ia5 codes = List.map Some callsign ->
  Squitter ca icao (identification_payload tc category codes) frame ->
  exists m, received v nicA nicC frame icao (AIdentification m) /\
    let i := adsb_aircraft_identification_and_category.AircraftIdentificationAndCategory_AircraftIdentificationAndCategory m in
    bds08.AircraftIdentificationAndCategory_Identification i = text callsign /\
    bds08.AircraftIdentificationAndCategory_Category i =
      List.nth (Z.to_nat (tc - 1)%Z) [bds08_fields.IAircraftCategory_AircraftCategorySetD category;
        bds08_fields.IAircraftCategory_AircraftCategorySetC category; bds08_fields.IAircraftCategory_AircraftCategorySetB category]
        (bds08_fields.IAircraftCategory_AircraftCategorySetA category).
Proof.
  intros v nicA nicC ca icao tc cat codes l frame Ht L Hc S.
  pose proof S as (_ & F & _).
  destruct (identification_bits tc cat codes L F) as (_ & B1 & B2 & B3).
  destruct (squitter_received _ _ _ _ S) as (Hb & Hl & d & R & C & E).
  generalize dependent (message (identification_payload tc cat codes)). intros me B1 B2 B3 Hb Hl E.
  assert (K : KindOf me KIdentification) by (apply k_ident; rewrite B1; exact Ht).
  pose proof (identification_ok v nicA nicC me Hb Hl K) as Rm.
  eexists. split; [exists d; rewrite E; eauto|]. cbv zeta. cbn -[bits category text char_codes shown List.nth].
  rewrite B3, (shown_of _ _ Hc). split; [reflexivity|]. unfold category. rewrite B1, B2.
  assert (T : tc = 1 \/ tc = 2 \/ tc = 3 \/ tc = 4) by lia. destruct T as [->|[->|[->| ->]]]; reflexivity.
Qed.

(* ---- velocities ---- *)
Lemma velocity_bits : forall sub intent ifr nuc west e south n source down rate below diff,
  let fs := velocity_payload sub intent ifr nuc west e south n source down rate below diff in fits fs ->
  bits 1 5 (message fs) = 19 /\ bits 6 8 (message fs) = sub /\
  bits 14 14 (message fs) = flag west /\ bits 15 24 (message fs) = e /\ bits 25 25 (message fs) = flag south /\ bits 26 35 (message fs) = n /\
  bits 36 36 (message fs) = source /\ bits 37 37 (message fs) = flag down /\ bits 38 46 (message fs) = rate /\
  bits 49 49 (message fs) = flag below /\ bits 50 56 (message fs) = diff.
Proof.
  intros sub intent ifr nuc west e south n source down rate below diff fs F. assert (W : width fs = 8 * 7) by reflexivity. unfold fs in *.
  split; [look 0%nat 1%nat; reflexivity|]. split; [look 1%nat 1%nat; reflexivity|]. split; [look 5%nat 1%nat; reflexivity|].
  split; [look 6%nat 1%nat; reflexivity|]. split; [look 7%nat 1%nat; reflexivity|]. split; [look 8%nat 1%nat; reflexivity|].
  split; [look 9%nat 1%nat; reflexivity|]. split; [look 10%nat 1%nat; reflexivity|]. split; [look 11%nat 1%nat; reflexivity|].
  split; [look 13%nat 1%nat; reflexivity|look 14%nat 1%nat; reflexivity].
Qed.

Lemma velocity_kind : forall ca icao sub intent ifr nuc e n source rate diff frame,
  Squitter ca icao (velocity_of sub intent ifr nuc e n source rate diff) frame ->
  exists me, bytes me /\ len me = 7 /\ bits 1 5 me = 19 /\ bits 6 8 me = sub /\
    bit 14 me = (e <? 0) /\ bits 15 24 me = Z.abs e + 1 /\ bit 25 me = (n <? 0) /\ bits 26 35 me = Z.abs n + 1 /\
    bits 36 36 me = source /\ bit 37 me = (rate <? 0) /\ bits 38 46 me = Z.abs rate + 1 /\
    bit 49 me = (diff <? 0) /\ bits 50 56 me = Z.abs diff + 1 /\
    exists d, ReadMessage frame = Ok (MDF17 d) /\ CheckCRC (MDF17 d) frame [] [] = Ok icao /\
      modes_messages.MessageDF17_MessageExtendedSquitter d = me.
Proof.
  intros ca icao sub intent ifr nuc e n source rate diff frame S.
  pose proof S as (_ & F & _). unfold velocity_of in *.
  destruct (velocity_bits _ _ _ _ _ _ _ _ _ _ _ _ _ F) as (B1 & B2 & B3 & B4 & B5 & B6 & B7 & B8 & B9 & B10 & B11).
  destruct (squitter_received _ _ _ _ S) as (Hb & Hl & D).
  eexists. unfold bit. rewrite B3, B5, B8, B10, !flag_test. repeat (split; [eassumption || reflexivity|]). exact D.
Qed.

Lemma signed_magnitude : forall z k c, 0 <= k -> c = Z.abs z + 1 -> with_sign (z <? 0) (k * (c - 1)) c = k * z.
Proof. intros z k c H ->. unfold with_sign. rewrite (proj2 (Z.eqb_neq _ _)) by lia. destruct (Z.ltb_spec z 0); lia. Qed.

(* ---- such squitters exist ---- *)
Theorem squitter_exists : forall ca icao payload, fits (header ca icao) -> fits payload -> width payload = 56%Z ->
  exists frame, Squitter ca icao payload frame.
Proof.
  intros ca icao payload Fh Fp W.
  assert (L : len (message (header ca icao ++ payload)) = 11).
  { apply message_len; [rewrite fits_app; auto|]. rewrite width_app, W. reflexivity. }
  destruct (CrcCode.computeParity_ok (message (header ca icao ++ payload)) (message_bytes _) ltac:(lia)) as (p & _ & P).
  eexists. split; [exact Fh|]. split; [exact Fp|]. split; [exact W|]. exists p. split; [exact P|reflexivity].
Qed.

(* ---- emergencies ---- *)
Theorem emergency_received : forall v nicA nicC ca icao state code frame,
  Squitter ca icao (emergency_payload state code) frame ->
  exists m, received v nicA nicC frame icao (AStatus m) /\
    adsb_aircraft_status.AircraftStatus_AircraftStatus m = bds61.IAircraftStatus_AircraftStatusEmergency
      {| bds61.AircraftStatusEmergency_FormatTypeCode := 28%Z;
         bds61.AircraftStatusEmergency_Subtype := 1%Z;
         bds61.AircraftStatusEmergency_EmergencyPriorityStatus := state;
         bds61.AircraftStatusEmergency_ModeACode := code |}.
Proof.
  intros v nicA nicC ca icao state code frame S. pose proof S as (_ & F & _).
  assert (W : width (emergency_payload state code) = 8 * 7) by reflexivity.
  assert (B1 : bits 1 5 (message (emergency_payload state code)) = 28) by (look 0%nat 1%nat; reflexivity).
  assert (B2 : bits 6 8 (message (emergency_payload state code)) = 1) by (look 1%nat 1%nat; reflexivity).
  assert (B3 : bits 9 11 (message (emergency_payload state code)) = state) by (look 2%nat 1%nat; reflexivity).
  assert (B4 : bits 12 24 (message (emergency_payload state code)) = code) by (look 3%nat 1%nat; reflexivity).
  assert (B5 : bits 25 56 (message (emergency_payload state code)) = 0) by (look 4%nat 1%nat; reflexivity).
  destruct (squitter_received _ _ _ _ S) as (Hb & Hl & d & R & C & E).
  generalize dependent (message (emergency_payload state code)). intros me B1 B2 B3 B4 B5 Hb Hl E.
  assert (K : KindOf me KStatus) by (apply k_status; exact B1).
  pose proof (status_emergency me B2 B5) as M. rewrite B1, B2, B3, B4 in M.
  apply (status_message_partial v nicA nicC me Hb Hl K) in M; [|lia|lia].
  eexists. split; [exists d; rewrite E; split; [exact R|]; split; [exact C|exact M]|reflexivity].
Qed.

Example emergency_example : exists frame, Squitter 5 0x4840D6 (emergency_payload 1 0x0AAA) frame.
Proof. apply squitter_exists; [repeat (constructor; [cbn; lia|]); constructor|repeat (constructor; [cbn; lia|]); constructor|reflexivity]. Qed.
