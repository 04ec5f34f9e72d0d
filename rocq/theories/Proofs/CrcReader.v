(* C11 to C18: CheckCRC. *)
From Verif.Proofs Require Import Tac ModesFields ModeSReader CrcPoly CrcCode CrcDistance.
From Verif.Spec Require Import ModeS Crc.
From Verif.Gen Require bitutils modes_common modes_fields modes_messages.
From Verif.Model Require Import Crc ModesReader.
Local Open Scope Z_scope.

(* ---- C11 ---- *)

Theorem parity_is_remainder : forall data, bytes data -> 3 <= len data ->
  forall r, computeParity data = Ok r <-> Parity data r.
Proof.
  intros data Hd Hl r. destruct (computeParity_ok data Hd Hl) as (r' & E & P). rewrite E. split.
  - intros H. injection H as <-. exact P.
  - intros P'. f_equal. eapply parity_unique; eassumption.
Qed.

(* ---- C12 ---- *)

Lemma xor_bytes_ok : forall l m, bytes l -> bytes m -> len l = len m ->
  bytes (xor_bytes l m) /\ len (xor_bytes l m) = len l /\ be (xor_bytes l m) = Z.lxor (be l) (be m).
Proof.
  intros l m Hl Hm E. split; [|split].
  - apply Forall_forall. intros x Hx. apply List.in_map_iff in Hx as ((a, b) & <- & I).
    pose proof (List.in_combine_l _ _ _ _ I) as Ia. pose proof (List.in_combine_r _ _ _ _ I) as Ib.
    apply (lxor_range 8); [lia| |].
    + exact (proj1 (Forall_forall byte l) Hl _ Ia).
    + exact (proj1 (Forall_forall byte m) Hm _ Ib).
  - unfold xor_bytes, len in *. rewrite List.map_length, List.combine_length. lia.
  - apply be_lxor; assumption.
Qed.

Theorem parity_linear : forall l m r s, bytes l -> bytes m -> len l = len m -> 3 <= len l ->
  computeParity l = Ok r -> computeParity m = Ok s ->
  computeParity (xor_bytes l m) = Ok (Z.lxor r s).
Proof.
  intros l m r s Hl Hm E L3 Hr Hs.
  destruct (xor_bytes_ok l m Hl Hm E) as (B & Lx & Bx).
  apply parity_is_remainder in Hr; [|assumption..]. apply parity_is_remainder in Hs; [|assumption|lia].
  apply parity_is_remainder; [assumption|lia|]. destruct Hr as [Rr Cr], Hs as [Rs Cs].
  split; [apply lxor_range; lia|]. rewrite Bx.
  pose proof (codeword_lxor _ _ Cr Cs) as C. rewrite lxor_4 in C.
  replace (Z.lxor (be l) (be m) * 2 ^ 24) with (Z.lxor (be l * 2 ^ 24) (be m * 2 ^ 24)); [exact C|].
  rewrite <- !Z.shiftl_mul_pow2 by lia. symmetry. apply Z.shiftl_lxor.
Qed.

(* ---- frames ---- *)

Lemma frame_split : forall frame, bytes frame -> (len frame = 7 \/ len frame = 14) ->
  bytes (body frame) /\ len (body frame) = len frame - 3 /\
  be frame = Z.lxor (be (body frame) * 2 ^ 24) (parity_field frame) /\
  0 <= parity_field frame < 2 ^ 24.
Proof.
  intros frame Hb Hl.
  assert (R : 0 <= parity_field frame < 2 ^ 24).
  { unfold parity_field. pose proof (bits_range (8 * len frame - 23) (8 * len frame) frame ltac:(lia)) as R.
    replace (8 * len frame - (8 * len frame - 23) + 1) with 24 in R by lia. exact R. }
  assert (E : be frame = be (body frame) * 2 ^ 24 + parity_field frame /\ bytes (body frame) /\ len (body frame) = len frame - 3).
  { assert (S : exists tl, frame = body frame ++ tl /\ len tl = 3).
    { unfold body. destruct Hl as [Hl|Hl]; rewrite Hl; split_list frame Hl; ev_oct;
        (eexists; split; [cbn [List.app]; reflexivity|reflexivity]). }
    destruct S as (tl & Ef & Lt).
    assert (Lb : len (body frame) = len frame - 3).
    { rewrite Ef at 2. unfold len in *. rewrite List.app_length. lia. }
    assert (Bs : bytes (body frame) /\ bytes tl).
    { unfold bytes in *. rewrite Ef in Hb. apply Forall_app in Hb. exact Hb. }
    destruct Bs as [Bb Bt]. split; [|auto].
    assert (Et : parity_field frame = be tl).
    { unfold parity_field, bits. rewrite Z.sub_diag, Z.div_1_r. rewrite Ef at 1. rewrite be_app, Lt.
      replace (8 * len frame - (8 * len frame - 23) + 1) with 24 by lia. change (256 ^ 3) with (2 ^ 24).
      rewrite Z.add_comm, Z.mod_add by lia. apply Z.mod_small.
      pose proof (be_range tl Bt) as Rt. rewrite Lt in Rt. exact Rt. }
    rewrite Ef at 1. rewrite be_app, Lt, Et. reflexivity. }
  destruct E as (E & Bb & Lb). split; [exact Bb|]. split; [exact Lb|]. split; [|exact R].
  rewrite E. 
  replace (be (body frame) * 2 ^ 24) with (be (body frame) * 2 ^ 24 + 0) at 2 by lia.
  replace (parity_field frame) with (0 * 2 ^ 24 + parity_field frame) at 2 by lia.
  rewrite lxor_split by lia. rewrite Z.lxor_0_r, Z.lxor_0_l. reflexivity.
Qed.

Lemma other_run : forall frame allowed, bytes frame -> (len frame = 7 \/ len frame = 14) ->
  checkCRCOther frame allowed =
  let* p := computeParity (body frame) in
  let address := Z.lxor p (parity_field frame) in
  if (len allowed >? 0) && negb (hasKey allowed address) then
    Err "the message parity resolves to an unknown Address"%string
  else Ok address.
Proof.
  intros frame allowed Hb Hl. unfold checkCRCOther, parity_field, body.
  destruct Hl as [Hl|Hl]; rewrite Hl; split_list frame Hl; ev_oct; unpack.
  - change (7 - 3) with 4. change (7 - 2) with 5. change (7 - 1) with 6. gostep.
    destruct (computeParity _) as [p|e|]; try reflexivity. cbn [bind].
    normbits Hb. change (8 * 7 - 23) with 33. change (8 * 7) with 56.
    destruct (len allowed >? 0); [|reflexivity]. destruct (hasKey _ _); reflexivity.
  - change (14 - 3) with 11. change (14 - 2) with 12. change (14 - 1) with 13. gostep.
    destruct (computeParity _) as [p|e|]; try reflexivity. cbn [bind].
    normbits Hb. change (8 * 14 - 23) with 89. change (8 * 14) with 112.
    destruct (len allowed >? 0); [|reflexivity]. destruct (hasKey _ _); reflexivity.
Qed.

Lemma df11_run : forall frame allowed, bytes frame -> len frame = 7 ->
  checkCRCDF11 frame allowed =
  let* p := computeParity (body frame) in
  let code := Z.lxor p (parity_field frame) in
  if (len allowed >? 0) && negb (hasKey allowed code) then
    Err "the message parity resolves to an unknown Interrogator Identifier"%string
  else Ok code.
Proof.
  intros frame allowed Hb Hl. unfold checkCRCDF11, parity_field, body.
  rewrite Hl; split_list frame Hl; ev_oct; unpack. gostep.
  destruct (computeParity _) as [p|e|]; try reflexivity. cbn [bind].
  normbits Hb. change (8 * 7 - 23) with 33. change (8 * 7) with 56.
  destruct (len allowed >? 0); [|reflexivity]. destruct (hasKey _ _); reflexivity.
Qed.

Lemma ext_run : forall frame, bytes frame -> len frame = 14 ->
  checkCRCDF17And18 frame =
  let* p := computeParity (body frame) in
  if p =? parity_field frame then Ok (bits 9 32 frame)
  else Err "the message does not have a valid CRC"%string.
Proof.
  intros frame Hb Hl. unfold checkCRCDF17And18, parity_field, body.
  rewrite Hl; split_list frame Hl; ev_oct; unpack. gostep.
  destruct (computeParity _) as [p|e|]; try reflexivity. cbn [bind].
  normbits Hb. change (8 * 14 - 23) with 89. change (8 * 14) with 112.
  destruct (p =? _); reflexivity.
Qed.

Lemma read_len : forall frame m, bytes frame -> ReadMessage frame = Ok m ->
  (GetDownLinkFormat m = 17 \/ GetDownLinkFormat m = 18 -> len frame = 14) /\
  (GetDownLinkFormat m = 11 -> len frame = 7) /\ (len frame = 7 \/ len frame = 14).
Proof.
  intros frame m Hb Hm.
  destruct (proj1 (read_message_accepts frame Hb)) as [F _]; [eauto|].
  destruct (message_kind frame m Hb Hm) as [K _]. unfold short_format, long_format in F.
  destruct (Z.leb_spec 24 (bits 1 5 frame)); rewrite K; lia.
Qed.

(* ---- C13 ---- *)

Theorem extended_squitter_check : forall frame m addresses interrogators,
  bytes frame -> ReadMessage frame = Ok m ->
  (GetDownLinkFormat m = 17 \/ GetDownLinkFormat m = 18) ->
  (forall a, CheckCRC m frame addresses interrogators = Ok a <->
     Parity (octets 1 11 frame) (bits 89 112 frame) /\ a = bits 9 32 frame) /\
  ((exists a, CheckCRC m frame addresses interrogators = Ok a) <-> codeword (be frame)) /\
  CheckCRC m frame addresses interrogators <> Panic.
Proof.
  intros frame m al ai Hb Hm Hdf. destruct (read_len frame m Hb Hm) as (L & _ & _). specialize (L Hdf).
  destruct (frame_split frame Hb ltac:(lia)) as (Bb & Lb & Eb & Rp).
  unfold CheckCRC.
  replace (GetDownLinkFormat m =? 11) with false by (destruct Hdf as [-> | ->]; reflexivity).
  replace ((GetDownLinkFormat m =? 17) || (GetDownLinkFormat m =? 18)) with true by (destruct Hdf as [-> | ->]; reflexivity).
  rewrite ext_run by assumption.
  destruct (computeParity_ok (body frame) Bb ltac:(lia)) as (r & E & P). rewrite E. cbn [bind].
  assert (X : Parity (body frame) (parity_field frame) <-> codeword (be frame)).
  { rewrite Eb. unfold Parity. tauto. }
  assert (Y : octets 1 11 frame = body frame /\ bits 89 112 frame = parity_field frame).
  { unfold body, parity_field. rewrite L. auto. }
  destruct Y as [-> ->].
  assert (D : (r =? parity_field frame) = true <-> Parity (body frame) (parity_field frame)).
  { rewrite Z.eqb_eq. split; [intros <-; exact P|]. intros P'. eapply parity_unique; eassumption. }
  split; [|split].
  - intros a. rewrite <- D. destruct (r =? parity_field frame).
    + split; [intros H; injection H as <-; auto|intros [_ ->]; reflexivity].
    + split; [discriminate|intros [H _]; discriminate].
  - rewrite <- X, <- D. destruct (r =? parity_field frame).
    + split; [reflexivity|intros; eauto].
    + split; [intros [a H]; discriminate|discriminate].
  - destruct (r =? parity_field frame); discriminate.
Qed.

(* ---- C14, C16, C17 ---- *)

Lemma admits_spec : forall allowed code,
  ((len allowed >? 0) && negb (hasKey allowed code)) = false <-> admits allowed code.
Proof.
  intros allowed code. unfold admits. destruct allowed as [|e l].
  - cbn. split; auto.
  - replace (len (e :: l) >? 0) with true by (rewrite len_cons; pose proof (len_nonneg _ l); lia).
    cbn [andb]. rewrite negb_false_iff. unfold hasKey. rewrite List.existsb_exists. split.
    + intros ((k, v) & I & Ek). cbn [fst] in Ek. apply Z.eqb_eq in Ek. subst. right. eauto.
    + intros [H|(v & I)]; [discriminate|]. exists (code, v). split; [exact I|apply Z.eqb_refl].
Qed.

Lemma overlay_core : forall frame, bytes frame -> (len frame = 7 \/ len frame = 14) ->
  exists r, computeParity (body frame) = Ok r /\
   forall a, (0 <= a < 2 ^ 24 /\ codeword (Z.lxor (be frame) a)) <-> a = Z.lxor r (parity_field frame).
Proof.
  intros frame Hb Hl. destruct (frame_split frame Hb Hl) as (Bb & Lb & Eb & Rp).
  destruct (computeParity_ok (body frame) Bb ltac:(lia)) as (r & E & P). exists r. split; [exact E|].
  intros a. rewrite Eb, Z.lxor_assoc. split.
  - intros [Ra C].
    assert (P' : Parity (body frame) (Z.lxor (parity_field frame) a)) by (split; [apply lxor_range; lia|exact C]).
    rewrite (parity_unique _ _ _ P P'). rewrite (Z.lxor_comm (parity_field frame)), lxor_cancel. reflexivity.
  - intros ->. split; [apply lxor_range; destruct P; lia|].
    rewrite (Z.lxor_comm r), <- (Z.lxor_assoc (parity_field frame)), Z.lxor_nilpotent, Z.lxor_0_l. apply P.
Qed.

Theorem overlay_check : forall frame m addresses interrogators,
  bytes frame -> ReadMessage frame = Ok m ->
  GetDownLinkFormat m <> 17 -> GetDownLinkFormat m <> 18 ->
  let allowed := if GetDownLinkFormat m =? 11 then interrogators else addresses in
  (forall a, CheckCRC m frame addresses interrogators = Ok a <->
     (0 <= a < 2 ^ 24 /\ codeword (Z.lxor (be frame) a)) /\ admits allowed a) /\
  (exists a, 0 <= a < 2 ^ 24 /\ codeword (Z.lxor (be frame) a)) /\
  CheckCRC m frame addresses interrogators <> Panic.
Proof.
  intros frame m al ai Hb Hm H17 H18 allowed. destruct (read_len frame m Hb Hm) as (_ & L11 & L).
  destruct (overlay_core frame Hb L) as (r & E & U).
  assert (Rn : exists msg, CheckCRC m frame al ai =
     if (len allowed >? 0) && negb (hasKey allowed (Z.lxor r (parity_field frame)))
     then Err msg else Ok (Z.lxor r (parity_field frame))).
  { unfold CheckCRC, allowed. destruct (Z.eqb_spec (GetDownLinkFormat m) 11) as [E11|N11].
    - rewrite df11_run by auto. rewrite E. cbn [bind]. eexists. reflexivity.
    - replace ((GetDownLinkFormat m =? 17) || (GetDownLinkFormat m =? 18)) with false by lia.
      rewrite other_run by auto. rewrite E. cbn [bind]. eexists. reflexivity. }
  destruct Rn as (msg & Rn). rewrite Rn.
  split; [|split].
  - intros a. rewrite U. 
    destruct ((len allowed >? 0) && negb (hasKey allowed (Z.lxor r (parity_field frame)))) eqn:A.
    + split; [discriminate|]. intros [-> Ad]. apply admits_spec in Ad. congruence.
    + apply admits_spec in A. split; [intros H; injection H as <-; auto|intros [-> _]; reflexivity].
  - eexists. apply U. reflexivity.
  - destruct (_ && _); discriminate.
Qed.

(* In the sender's terms: whoever transmits the body followed by its parity xored with A
   is identified as A. *)
Theorem overlay_roundtrip : forall frame m r A,
  bytes frame -> ReadMessage frame = Ok m ->
  GetDownLinkFormat m <> 17 -> GetDownLinkFormat m <> 18 ->
  0 <= A < 2 ^ 24 -> Parity (body frame) r -> parity_field frame = Z.lxor r A ->
  CheckCRC m frame [] [] = Ok A.
Proof.
  intros frame m r A Hb Hm H17 H18 RA P Ep.
  destruct (overlay_check frame m [] [] Hb Hm H17 H18) as (I & _ & _). apply I.
  split; [|left; destruct (_ =? _); reflexivity]. split; [exact RA|].
  destruct (read_len frame m Hb Hm) as (_ & _ & L).
  destruct (frame_split frame Hb L) as (Bb & Lb & Eb & Rp). rewrite Eb, Ep, Z.lxor_assoc, lxor_cancel. apply P.
Qed.

(* ---- C15 ---- *)

Theorem error_detection : forall f g m n a b al ai al' ai',
  bytes f -> bytes g -> ReadMessage f = Ok m -> ReadMessage g = Ok n ->
  (GetDownLinkFormat m = 17 \/ GetDownLinkFormat m = 18) ->
  (GetDownLinkFormat n = 17 \/ GetDownLinkFormat n = 18) ->
  CheckCRC m f al ai = Ok a -> CheckCRC n g al' ai' = Ok b -> f <> g ->
  6 <= distance 112 f g /\ Z.even (distance 112 f g) = true /\ ~ burst 24 f g.
Proof.
  intros f g m n a b al ai al' ai' Bf Bg Rf Rg Df Dg Cf Cg N.
  destruct (extended_squitter_check f m al ai Bf Rf Df) as (_ & If & _).
  destruct (extended_squitter_check g n al' ai' Bg Rg Dg) as (_ & Ig & _).
  assert (C : codeword (Z.lxor (be f) (be g))) by (apply codeword_lxor; [apply If|apply Ig]; eauto).
  destruct (read_len f m Bf Rf) as (Lf & _). destruct (read_len g n Bg Rg) as (Lg & _).
  specialize (Lf Df). specialize (Lg Dg).
  destruct (min_distance f g Bf Bg ltac:(lia) ltac:(lia) C N) as [D V].
  rewrite Lf in D, V. change (Z.to_nat (8 * 14)) with 112%nat in D, V.
  split; [exact D|]. split; [exact V|].
  intros B. apply N. eapply burst_detected; try eassumption; lia.
Qed.

(* the same protection holds for the other replies, between frames attributed to one address *)
Theorem error_detection_overlay : forall f g m n a,
  bytes f -> bytes g -> len f = len g -> ReadMessage f = Ok m -> ReadMessage g = Ok n ->
  GetDownLinkFormat m <> 17 -> GetDownLinkFormat m <> 18 ->
  GetDownLinkFormat n <> 17 -> GetDownLinkFormat n <> 18 ->
  CheckCRC m f [] [] = Ok a -> CheckCRC n g [] [] = Ok a -> f <> g ->
  6 <= distance (Z.to_nat (8 * len f)) f g /\ ~ burst 24 f g.
Proof.
  intros f g m n a Bf Bg L Rf Rg Df Df' Dg Dg' Cf Cg N.
  destruct (overlay_check f m [] [] Bf Rf Df Df') as (If & _).
  destruct (overlay_check g n [] [] Bg Rg Dg Dg') as (Ig & _).
  apply If in Cf as [[_ Cf] _]. apply Ig in Cg as [[_ Cg] _].
  pose proof (codeword_lxor _ _ Cf Cg) as C. rewrite lxor_4, Z.lxor_nilpotent, Z.lxor_0_r in C.
  destruct (read_len f m Bf Rf) as (_ & _ & Lf).
  destruct (min_distance f g Bf Bg L ltac:(lia) C N) as [D _]. split; [exact D|].
  intros B. apply N. eapply burst_detected; try eassumption; lia.
Qed.

(* ---- C18 ---- *)

Theorem check_crc_total : forall frame m addresses interrogators,
  bytes frame -> ReadMessage frame = Ok m -> CheckCRC m frame addresses interrogators <> Panic.
Proof.
  intros frame m al ai Hb Hm.
  destruct (Z.eq_dec (GetDownLinkFormat m) 17) as [H|H]; [apply extended_squitter_check; auto|].
  destruct (Z.eq_dec (GetDownLinkFormat m) 18) as [H'|H']; [apply extended_squitter_check; auto|].
  apply overlay_check; assumption.
Qed.

(* ---- concrete cases ---- *)

Example frame17_crc : exists m, ReadMessage frame17 = Ok m /\ CheckCRC m frame17 [] [] = Ok 0x4840D6.
Proof. eexists. split; vm_compute; reflexivity. Qed.

Example frame17_codeword : codeword (be frame17).
Proof.
  destruct frame17_crc as (m & R & C).
  assert (D : GetDownLinkFormat m = 17) by (vm_compute in R; injection R as <-; reflexivity).
  apply (extended_squitter_check frame17 m [] [] (proj1 frame17_ok) R (or_introl D)). eauto.
Qed.

(* a DF4 reply: the address recovered from the overlay *)
Example frame4_address : exists m, ReadMessage frame4 = Ok m /\ CheckCRC m frame4 [] [] = Ok 6134596.
Proof. eexists. split; vm_compute; reflexivity. Qed.
