(* C94...: more of what an aircraft sends, told by the library. *)
From Verif.Proofs Require Import Tac.
From Verif.Spec Require Import Altitude Floats Velocity Adsb AdsbMessages Identification CommB CommBMessages Status Acas Squitter Reply Payloads.
From Verif.Gen Require bds09 adsb_airborne_velocity acas_ra acas_ra_fields modes_messages bds30 bds61 adsb_aircraft_status.
From Verif.Model Require Import Crc ModesReader AdsbReader.
From Verif.Model Require Import CommbReader.
From Verif.Proofs Require Import Octets CommB1 CommBApi AdsbApi Squitter AcasReader.
From Verif.Proofs Require Reply.
Local Open Scope Z_scope.

Lemma airspeed_bits : forall sub intent ifr nuc known heading tas airspeed source rate diff,
  let fs := airspeed_of sub intent ifr nuc known heading tas airspeed source rate diff in fits fs ->
  bits 1 5 (message fs) = 19 /\ bits 6 8 (message fs) = sub /\ bits 9 9 (message fs) = intent /\ bits 10 10 (message fs) = ifr /\
  bits 11 13 (message fs) = nuc /\ bits 14 14 (message fs) = flag known /\ bits 15 24 (message fs) = heading /\
  bits 25 25 (message fs) = flag tas /\ bits 26 35 (message fs) = airspeed + 1 /\
  bits 36 36 (message fs) = source /\ bits 37 37 (message fs) = flag (rate <? 0) /\ bits 38 46 (message fs) = Z.abs rate + 1 /\
  bits 49 49 (message fs) = flag (diff <? 0) /\ bits 50 56 (message fs) = Z.abs diff + 1.
Proof.
  intros sub intent ifr nuc known heading tas airspeed source rate diff fs F. assert (W : width fs = 8 * 7) by reflexivity. unfold fs in *.
  split; [look 0%nat 1%nat; reflexivity|]. split; [look 1%nat 1%nat; reflexivity|]. split; [look 2%nat 1%nat; reflexivity|].
  split; [look 3%nat 1%nat; reflexivity|]. split; [look 4%nat 1%nat; reflexivity|]. split; [look 5%nat 1%nat; reflexivity|].
  split; [look 6%nat 1%nat; reflexivity|]. split; [look 7%nat 1%nat; reflexivity|]. split; [look 8%nat 1%nat; reflexivity|].
  split; [look 9%nat 1%nat; reflexivity|]. split; [look 10%nat 1%nat; reflexivity|]. split; [look 11%nat 1%nat; reflexivity|].
  split; [look 13%nat 1%nat; reflexivity|look 14%nat 1%nat; reflexivity].
Qed.

Lemma status_regular : forall top c, c <> 0 -> c <> top -> status top c = 1.
Proof. intros top c H0 H1. unfold status. rewrite !(proj2 (Z.eqb_neq _ _)) by assumption. reflexivity. Qed.

Theorem airspeed_told : forall v nicA nicC ca icao intent ifr nuc known heading tas airspeed source rate difference frame,
  0 <= airspeed <= 1021 -> Z.abs rate <= 509 -> Z.abs difference <= 125 ->
  Squitter ca icao (airspeed_of 3 intent ifr nuc known heading tas airspeed source rate difference) frame ->
  exists m x,
    received v nicA nicC frame icao (AVelocity m) /\
    adsb_airborne_velocity.AirborneVelocity_AirborneVelocity m = bds09.IAirborneVelocity_AirborneVelocityAirSpeedNormal x /\
    bds09.AirborneVelocityAirSpeedNormal_IntentChange x = intent /\
    bds09.AirborneVelocityAirSpeedNormal_IFRCapability x = ifr /\
    bds09.AirborneVelocityAirSpeedNormal_NavigationUncertaintyCategory x = nuc /\
    bds09.AirborneVelocityAirSpeedNormal_MagneticHeadingStatus x = flag known /\
    is_value (bds09.AirborneVelocityAirSpeedNormal_MagneticHeading x) (inject_Z heading * (360 # 1024)) /\
    bds09.AirborneVelocityAirSpeedNormal_AirspeedStatus x = 1 /\
    bds09.AirborneVelocityAirSpeedNormal_Airspeed x = airspeed /\
    bds09.AirborneVelocityAirSpeedNormal_VerticalRateSource x = source /\
    bds09.AirborneVelocityAirSpeedNormal_VerticalRateStatus x = 1 /\
    bds09.AirborneVelocityAirSpeedNormal_VerticalRate x = 64 * rate /\
    bds09.AirborneVelocityAirSpeedNormal_HeightDifferenceFromBaroStatus x = 1 /\
    bds09.AirborneVelocityAirSpeedNormal_HeightDifferenceFromBaro x = 25 * difference.
Proof.
  intros v nicA nicC ca icao intent ifr nuc known heading tas airspeed source rate diff frame Hs Hr Hd S.
  pose proof S as (_ & F & _).
  destruct (airspeed_bits _ _ _ _ _ _ _ _ _ _ _ F) as (B1 & B2 & B3 & B4 & B5 & B6 & B7 & _ & B9 & B10 & B11 & B12 & B13 & B14).
  destruct (squitter_received _ _ _ _ S) as (Hb & Hl & d & R & C & E). clear S F.
  generalize dependent (message (airspeed_of 3 intent ifr nuc known heading tas airspeed source rate diff)). intros me; intros.
  assert (K : KindOf me KVelocity) by (apply k_velocity; exact B1).
  destruct (velocity_ok v nicA nicC me Hb Hl K ltac:(lia)) as (x & V & Rm).
  destruct V as [Q| Q | h Q Hh | h Q Hh]; try (exfalso; lia).
  eexists. eexists. split; [exists d; rewrite E; split; [exact R|]; split; [exact C|exact Rm]|]. split; [reflexivity|].
  split; [exact B3|]. split; [exact B4|]. split; [exact B5|]. split; [exact B6|]. split; [rewrite <- B7; exact Hh|].
  split. { change (status 1023 (bits 26 35 me) = 1). rewrite B9. apply status_regular; lia. }
  split. { change (knots (bits 26 35 me) = airspeed). rewrite B9. unfold knots. rewrite (proj2 (Z.eqb_neq _ 0)), (proj2 (Z.eqb_neq _ 1023)) by lia. lia. }
  split; [exact B10|].
  split. { change (status 511 (bits 38 46 me) = 1). rewrite B12. apply status_regular; lia. }
  split. { change (with_sign (bit 37 me) (64 * (bits 38 46 me - 1)) (bits 38 46 me) = 64 * rate). unfold bit. rewrite B11, flag_test. apply signed_magnitude; lia. }
  split. { change (status 127 (bits 50 56 me) = 1). rewrite B14. apply status_regular; lia. }
  change (with_sign (bit 49 me) (25 * (bits 50 56 me - 1)) (bits 50 56 me) = 25 * diff). unfold bit. rewrite B13, flag_test. apply signed_magnitude; lia.
Qed.

Theorem airspeed_supersonic_told : forall v nicA nicC ca icao intent ifr nuc known heading tas airspeed source rate difference frame,
  0 <= airspeed <= 1021 -> Z.abs rate <= 509 -> Z.abs difference <= 125 ->
  Squitter ca icao (airspeed_of 4 intent ifr nuc known heading tas airspeed source rate difference) frame ->
  exists m x,
    received v nicA nicC frame icao (AVelocity m) /\
    adsb_airborne_velocity.AirborneVelocity_AirborneVelocity m = bds09.IAirborneVelocity_AirborneVelocityAirSpeedSupersonic x /\
    bds09.AirborneVelocityAirSpeedSupersonic_IntentChange x = intent /\
    bds09.AirborneVelocityAirSpeedSupersonic_IFRCapability x = ifr /\
    bds09.AirborneVelocityAirSpeedSupersonic_NavigationUncertaintyCategory x = nuc /\
    bds09.AirborneVelocityAirSpeedSupersonic_MagneticHeadingStatus x = flag known /\
    is_value (bds09.AirborneVelocityAirSpeedSupersonic_MagneticHeading x) (inject_Z heading * (360 # 1024)) /\
    bds09.AirborneVelocityAirSpeedSupersonic_AirspeedStatus x = 1 /\
    bds09.AirborneVelocityAirSpeedSupersonic_Airspeed x = 4 * airspeed /\
    bds09.AirborneVelocityAirSpeedSupersonic_VerticalRateSource x = source /\
    bds09.AirborneVelocityAirSpeedSupersonic_VerticalRateStatus x = 1 /\
    bds09.AirborneVelocityAirSpeedSupersonic_VerticalRate x = 64 * rate /\
    bds09.AirborneVelocityAirSpeedSupersonic_HeightDifferenceFromBaroStatus x = 1 /\
    bds09.AirborneVelocityAirSpeedSupersonic_HeightDifferenceFromBaro x = 25 * difference.
Proof.
  intros v nicA nicC ca icao intent ifr nuc known heading tas airspeed source rate diff frame Hs Hr Hd S.
  pose proof S as (_ & F & _).
  destruct (airspeed_bits _ _ _ _ _ _ _ _ _ _ _ F) as (B1 & B2 & B3 & B4 & B5 & B6 & B7 & _ & B9 & B10 & B11 & B12 & B13 & B14).
  destruct (squitter_received _ _ _ _ S) as (Hb & Hl & d & R & C & E). clear S F.
  generalize dependent (message (airspeed_of 4 intent ifr nuc known heading tas airspeed source rate diff)). intros me; intros.
  assert (K : KindOf me KVelocity) by (apply k_velocity; exact B1).
  destruct (velocity_ok v nicA nicC me Hb Hl K ltac:(lia)) as (x & V & Rm).
  destruct V as [Q| Q | h Q Hh | h Q Hh]; try (exfalso; lia).
  eexists. eexists. split; [exists d; rewrite E; split; [exact R|]; split; [exact C|exact Rm]|]. split; [reflexivity|].
  split; [exact B3|]. split; [exact B4|]. split; [exact B5|]. split; [exact B6|]. split; [rewrite <- B7; exact Hh|].
  split. { change (status 1023 (bits 26 35 me) = 1). rewrite B9. apply status_regular; lia. }
  split. { change (knots_supersonic (bits 26 35 me) = 4 * airspeed). rewrite B9. unfold knots_supersonic. rewrite (proj2 (Z.eqb_neq _ 0)) by lia. lia. }
  split; [exact B10|].
  split. { change (status 511 (bits 38 46 me) = 1). rewrite B12. apply status_regular; lia. }
  split. { change (with_sign (bit 37 me) (64 * (bits 38 46 me - 1)) (bits 38 46 me) = 64 * rate). unfold bit. rewrite B11, flag_test. apply signed_magnitude; lia. }
  split. { change (status 127 (bits 50 56 me) = 1). rewrite B14. apply status_regular; lia. }
  change (with_sign (bit 49 me) (25 * (bits 50 56 me - 1)) (bits 50 56 me) = 25 * diff). unfold bit. rewrite B13, flag_test. apply signed_magnitude; lia.
Qed.


(* ---- resolution advisories ---- *)
Ltac look6 n c := match goal with _ := message ?fs |- bits ?i ?j _ = ?x =>
  apply (bits_field fs n c i j 6 x); [assumption|assumption|reflexivity|reflexivity|try reflexivity] end.

Lemma threat_width : forall t who, threat_fields t who -> width who = 28.
Proof.
  intros t who T. destruct T as [| |feet alt r b A|alt r b A]; try reflexivity; rewrite !width_app, (Reply.altitude13_width _ _ _ A); reflexivity.
Qed.

Lemma advisory_width : forall a, width (advisory_fields a) = 14.
Proof. intros []; reflexivity. Qed.

Lemma report_width : forall a b1 b2 b3 b4 b5 t who, threat_fields t who -> width (report_of a b1 b2 b3 b4 b5 who) = 8 * 6.
Proof. intros. unfold report_of. rewrite !width_app, advisory_width, (threat_width _ _ H). reflexivity. Qed.

Lemma bits_at : forall pre rest k i j n c x, fits (pre ++ rest) -> width (pre ++ rest) = 8 * k ->
  width pre + width (firstn n rest) + 1 = i -> width pre + width (firstn n rest) + width (firstn c (skipn n rest)) = j ->
  packed (firstn c (skipn n rest)) = x -> bits i j (message (pre ++ rest)) = x.
Proof.
  intros pre rest k i j n c x F W <- <- <-. apply (bits_field (pre ++ rest) (Datatypes.length pre + n) c _ _ k); [exact F|exact W| | |].
  - rewrite firstn_app_2, width_app. lia.
  - rewrite firstn_app_2, width_app. rewrite skipn_app, skipn_all2 by lia.
    replace (Datatypes.length pre + n - Datatypes.length pre)%nat with n by lia. reflexivity.
  - rewrite skipn_app, skipn_all2 by lia. replace (Datatypes.length pre + n - Datatypes.length pre)%nat with n by lia. reflexivity.
Qed.

Lemma gillham_c : forall d1 d2 d4 a1 a2 a4 b1 b2 b4 c1 c2 c4 feet, Gillham d1 d2 d4 a1 a2 a4 b1 b2 b4 c1 c2 c4 feet ->
  c1 = true \/ c2 = true \/ c4 = true.
Proof.
  intros d1 d2 d4 a1 a2 a4 b1 b2 b4 c1 c2 c4 feet (k & _ & _ & E). apply (f_equal snd) in E. unfold gillham_pulses in E. cbv zeta in E. unfold snd in E.
  unfold c_pulses in E. set (r := if Z.even (k / 5) then k mod 5 else 4 - k mod 5) in E.
  assert (R : 0 <= r < 5) by (unfold r; pose proof (Z.mod_pos_bound k 5 ltac:(lia)); destruct (Z.even (k / 5)); lia).
  clearbody r. assert (R' : r = 0 \/ r = 1 \/ r = 2 \/ r = 3 \/ r = 4) by lia.
  destruct c1, c2, c4; auto. exfalso. destruct R' as [->|[->|[->|[->| ->]]]]; vm_compute in E; discriminate.
Qed.

Theorem report_meaning : forall a below above left right over t who,
  threat_fields t who -> fits (report_of a below above left right over who) ->
  Reports (message (report_of a below above left right over who)) (said a below above left right over t).
Proof.
  intros a below above left right over t who T F. pose proof (report_width a below above left right over t who T) as W.
  assert (L : len (message (report_of a below above left right over who)) = 6) by (apply message_len; assumption).
  set (data := message _) in *.
  assert (P : forall i j n c x, 14 + width (firstn n ([(1, flag below); (1, flag above); (1, flag left); (1, flag right); (1, flag over); (1, flag (several_threats a))] ++ who)) + 1 = i ->
     14 + width (firstn n ([(1, flag below); (1, flag above); (1, flag left); (1, flag right); (1, flag over); (1, flag (several_threats a))] ++ who)) + width (firstn c (skipn n ([(1, flag below); (1, flag above); (1, flag left); (1, flag right); (1, flag over); (1, flag (several_threats a))] ++ who))) = j ->
     packed (firstn c (skipn n ([(1, flag below); (1, flag above); (1, flag left); (1, flag right); (1, flag over); (1, flag (several_threats a))] ++ who))) = x -> bits i j data = x).
  { intros i j n c x. rewrite <- (advisory_width a). apply (bits_at (advisory_fields a) _ 6); assumption. }
  assert (B15 : bits 15 15 data = flag below) by (apply (P _ _ 0%nat 1%nat); reflexivity).
  assert (B16 : bits 16 16 data = flag above) by (apply (P _ _ 1%nat 1%nat); reflexivity).
  assert (B17 : bits 17 17 data = flag left) by (apply (P _ _ 2%nat 1%nat); reflexivity).
  assert (B18 : bits 18 18 data = flag right) by (apply (P _ _ 3%nat 1%nat); reflexivity).
  assert (B19 : bits 19 19 data = flag over) by (apply (P _ _ 4%nat 1%nat); reflexivity).
  assert (B20 : bits 20 20 data = flag (several_threats a)) by (apply (P _ _ 5%nat 1%nat); reflexivity).
  assert (A : active_ra data = advisory_said a).
  { unfold active_ra, bit. rewrite B20, flag_test. destruct a as [sv co dn ic rv cr po|cu cl cd ds cr rv|].
    - assert (Q1 : bits 1 1 data = 1) by look6 0%nat 1%nat. assert (Q2 : bits 2 2 data = flag co) by look6 1%nat 1%nat.
      assert (Q3 : bits 3 3 data = flag dn) by look6 2%nat 1%nat. assert (Q4 : bits 4 4 data = flag ic) by look6 3%nat 1%nat.
      assert (Q5 : bits 5 5 data = flag rv) by look6 4%nat 1%nat. assert (Q6 : bits 6 6 data = flag cr) by look6 5%nat 1%nat.
      assert (Q7 : bits 7 7 data = flag po) by look6 6%nat 1%nat.
      rewrite Q1, Q2, Q3, Q4, Q5, Q6, Q7, !flag_test. reflexivity.
    - assert (Q1 : bits 1 1 data = 0) by look6 0%nat 1%nat. assert (Q2 : bits 2 2 data = flag cu) by look6 1%nat 1%nat.
      assert (Q3 : bits 3 3 data = flag cl) by look6 2%nat 1%nat. assert (Q4 : bits 4 4 data = flag cd) by look6 3%nat 1%nat.
      assert (Q5 : bits 5 5 data = flag ds) by look6 4%nat 1%nat. assert (Q6 : bits 6 6 data = flag cr) by look6 5%nat 1%nat.
      assert (Q7 : bits 7 7 data = flag rv) by look6 6%nat 1%nat.
      rewrite Q1, Q2, Q3, Q4, Q5, Q6, Q7, !flag_test. reflexivity.
    - assert (Q1 : bits 1 14 data = 0) by look6 0%nat 1%nat.
      rewrite (bits_of_zero 1 14 data 1 1) by (lia || exact Q1). reflexivity. }
  assert (R : forall x al r b, report data x al r b = report data x al r b) by reflexivity.
  assert (G : forall x al r b ty, bits 21 22 data = ty -> report data x al r b =
     {| acas_ra.ResolutionAdvisory_ActiveRA := advisory_said a;
     acas_ra.ResolutionAdvisory_RAComplement :=
       {| acas_ra_fields.RAComplement_DoNotPassBelow := below; acas_ra_fields.RAComplement_DoNotPassAbove := above;
          acas_ra_fields.RAComplement_DoNotTurnLeft := left; acas_ra_fields.RAComplement_DoNotTurnRight := right |};
     acas_ra.ResolutionAdvisory_RATerminatedIndicator := flag over;
     acas_ra.ResolutionAdvisory_MultipleThreatEncounter := flag (several_threats a);
     acas_ra.ResolutionAdvisory_ThreatTypeIndicator := ty;
     acas_ra.ResolutionAdvisory_ThreatIdentityAddress := x;
     acas_ra.ResolutionAdvisory_ThreatIdentityAltitude := al;
     acas_ra.ResolutionAdvisory_ThreatIdentityRange := r;
     acas_ra.ResolutionAdvisory_ThreatIdentityBearing := b |}).
  { intros x al r b ty <-. unfold report, bit. rewrite A, B15, B16, B17, B18, B19, B20, !flag_test. reflexivity. }
  clear R A B15 B16 B17 B18 B19 B20.
  destruct T as [|x|feet alt r b Al|alt r b Al].
  - assert (Q : bits 21 22 data = 0) by (apply (P _ _ 6%nat 1%nat); reflexivity).
    unfold said, threat_kind. rewrite <- (G _ _ _ _ _ Q). apply no_identity. auto.
  - assert (Q : bits 21 22 data = 1) by (apply (P _ _ 6%nat 1%nat); reflexivity).
    assert (Q1 : bits 23 46 data = x) by (apply (P _ _ 7%nat 1%nat); reflexivity).
    unfold said, threat_kind. rewrite <- (G _ _ _ _ _ Q). rewrite <- Q1 at 1. apply mode_s. exact Q.
  - inversion Al as [| |ft d2 d4 a1 a2 a4 b1 b2 b4 c1 c2 c4 Gi E1 E2]; subst.
    assert (Q : bits 21 22 data = 2) by (apply (P _ _ 6%nat 1%nat); reflexivity).
    assert (Q23 : bits 23 23 data = flag c1) by (apply (P _ _ 7%nat 1%nat); reflexivity).
    assert (Q24 : bits 24 24 data = flag a1) by (apply (P _ _ 8%nat 1%nat); reflexivity).
    assert (Q25 : bits 25 25 data = flag c2) by (apply (P _ _ 9%nat 1%nat); reflexivity).
    assert (Q26 : bits 26 26 data = flag a2) by (apply (P _ _ 10%nat 1%nat); reflexivity).
    assert (Q27 : bits 27 27 data = flag c4) by (apply (P _ _ 11%nat 1%nat); reflexivity).
    assert (Q28 : bits 28 28 data = flag a4) by (apply (P _ _ 12%nat 1%nat); reflexivity).
    assert (Q30 : bits 30 30 data = flag b1) by (apply (P _ _ 14%nat 1%nat); reflexivity).
    assert (Q31 : bits 31 31 data = 0) by (apply (P _ _ 15%nat 1%nat); reflexivity).
    assert (Q32 : bits 32 32 data = flag b2) by (apply (P _ _ 16%nat 1%nat); reflexivity).
    assert (Q33 : bits 33 33 data = flag d2) by (apply (P _ _ 17%nat 1%nat); reflexivity).
    assert (Q34 : bits 34 34 data = flag b4) by (apply (P _ _ 18%nat 1%nat); reflexivity).
    assert (Q35 : bits 35 35 data = flag d4) by (apply (P _ _ 19%nat 1%nat); reflexivity).
    assert (Q36 : bits 36 42 data = r) by (apply (P _ _ 20%nat 1%nat); reflexivity).
    assert (Q43 : bits 43 48 data = b) by (apply (P _ _ 21%nat 1%nat); reflexivity).
    unfold said, threat_kind. rewrite <- (G _ _ _ _ _ Q). rewrite <- Q36, <- Q43. apply arb; [exact Q|]. apply altitude.
    + intros [Z0 _]. apply gillham_c in Gi.
      rewrite (bits_of_zero 23 28 data 23 23) in Q23 by (lia || exact Z0). rewrite (bits_of_zero 23 28 data 25 25) in Q25 by (lia || exact Z0).
      rewrite (bits_of_zero 23 28 data 27 27) in Q27 by (lia || exact Z0). destruct Gi as [->|[->| ->]]; discriminate.
    + unfold bit. rewrite Q23, Q24, Q25, Q26, Q27, Q28, Q30, Q31, Q32, Q33, Q34, Q35, !flag_test. exact Gi.
  - inversion Al as [E1 E2| |]; subst.
    assert (Q : bits 21 22 data = 2) by (apply (P _ _ 6%nat 1%nat); reflexivity).
    assert (Q23 : bits 23 35 data = 0) by (apply (P _ _ 7%nat 1%nat); reflexivity).
    assert (Q36 : bits 36 42 data = r) by (apply (P _ _ 8%nat 1%nat); reflexivity).
    assert (Q43 : bits 43 48 data = b) by (apply (P _ _ 9%nat 1%nat); reflexivity).
    unfold said, threat_kind. rewrite <- (G _ _ _ _ _ Q). rewrite <- Q36, <- Q43. apply arb; [exact Q|].
    apply no_altitude; [apply (bits_of_zero 23 35 data)|apply (bits_of_zero 23 35 data)]; (lia || exact Q23).
Qed.

Lemma readable_bits : forall a below above left right over t who,
  threat_fields t who -> readable t who -> fits (report_of a below above left right over who) ->
  let data := message (report_of a below above left right over who) in
  bits 21 22 data = 2 -> bits 23 24 data = 0 /\ bits 42 42 data = 0.
Proof.
  intros a below above left right over t who T Rd F. pose proof (report_width a below above left right over t who T) as W. cbv zeta.
  assert (L : len (message (report_of a below above left right over who)) = 6) by (apply message_len; assumption).
  set (data := message _) in *.
  set (mid := [(1, flag below); (1, flag above); (1, flag left); (1, flag right); (1, flag over); (1, flag (several_threats a))]) in *.
  assert (P : forall i j n c x, 14 + width (firstn n (mid ++ who)) + 1 = i ->
     14 + width (firstn n (mid ++ who)) + width (firstn c (skipn n (mid ++ who))) = j ->
     packed (firstn c (skipn n (mid ++ who))) = x -> bits i j data = x).
  { intros i j n c x. rewrite <- (advisory_width a). apply (bits_at (advisory_fields a) _ 6); assumption. }
  intros Q. destruct T as [|x|feet alt r b Al|alt r b Al].
  - rewrite (P 21 22 6%nat 1%nat 0) in Q by reflexivity. discriminate.
  - rewrite (P 21 22 6%nat 1%nat 1) in Q by reflexivity. discriminate.
  - cbn [readable] in Rd. destruct Rd as [(rest & H) Hr].
    inversion Al as [| |ft d2 d4 a1 a2 a4 b1 b2 b4 c1 c2 c4 Gi E1 E2]; subst.
    assert (c1 = false /\ a1 = false) as [-> ->].
    { destruct H as [H|H]; [|discriminate]. injection H as H1 H2 _. destruct c1, a1; try discriminate; auto. }
    split; [apply (P _ _ 7%nat 2%nat); reflexivity|].
    assert (Q36 : bits 36 42 data = r) by (apply (P _ _ 20%nat 1%nat); reflexivity).
    rewrite (bits_join 36 41 42 data) in Q36 by lia. change (41 + 1) with 42 in Q36. change (2 ^ (42 - 41)) with 2 in Q36.
    pose proof (bits_range 42 42 data ltac:(lia)) as Hbd. change (2 ^ (42 - 42 + 1)) with 2 in Hbd. clear - Hr Q36 Hbd. rewrite <- Q36 in Hr. rewrite Z.add_comm, Z.mod_add in Hr by lia. rewrite Z.mod_small in Hr; lia.
  - cbn [readable] in Rd. destruct Rd as [_ Hr]. inversion Al as [E1 E2| |]; subst.
    assert (Q23 : bits 23 35 data = 0) by (apply (P _ _ 7%nat 1%nat); reflexivity).
    split; [apply (bits_of_zero 23 35 data); (lia || exact Q23)|].
    assert (Q36 : bits 36 42 data = r) by (apply (P _ _ 8%nat 1%nat); reflexivity).
    rewrite (bits_join 36 41 42 data) in Q36 by lia. change (41 + 1) with 42 in Q36. change (2 ^ (42 - 41)) with 2 in Q36.
    pose proof (bits_range 42 42 data ltac:(lia)) as Hbd. change (2 ^ (42 - 42 + 1)) with 2 in Hbd. clear - Hr Q36 Hbd. rewrite <- Q36 in Hr. rewrite Z.add_comm, Z.mod_add in Hr by lia. rewrite Z.mod_small in Hr; lia.
Qed.

Lemma report_read : forall a below above left right over t who,
  threat_fields t who -> readable t who -> fits (report_of a below above left right over who) ->
  acas_ra.ReadResolutionAdvisory (message (report_of a below above left right over who)) = Ok (said a below above left right over t).
Proof.
  intros a below above left right over t who T Rd F. pose proof (report_width a below above left right over t who T) as W.
  assert (L : len (message (report_of a below above left right over who)) = 6) by (apply message_len; assumption).
  apply (resolution_advisory_partial _ (message_bytes _) L (readable_bits _ _ _ _ _ _ _ _ T Rd F)). apply report_meaning; assumption.
Qed.

Lemma after_octet : forall l r, fits l -> fits r -> width l = 8 -> width r = 48 -> octets 2 7 (message (l ++ r)) = message r /\
  skipn 1 (message (l ++ r)) = message r /\ hd 0 (message (l ++ r)) = packed l.
Proof.
  intros l r Fl Fr Wl Wr. rewrite (message_app l r 1 6 Fl Fr Wl Wr).
  pose proof (message_len l 1 Fl Wl) as Ll. pose proof (message_len r 6 Fr Wr) as Lr.
  pose proof (message_be l 1 Fl Wl) as B.
  destruct (message l) as [|x [|]]; try (exfalso; unfold len in Ll; cbn in Ll; lia).
  cbn [app]. split; [|split; [reflexivity|]].
  - unfold octets. change (Z.to_nat (7 - 2 + 1)) with 6%nat. change (Z.to_nat (2 - 1)) with 1%nat. cbn [skipn].
    apply firstn_all2. unfold len in Lr. lia.
  - cbn [hd]. rewrite <- B. cbn. lia.
Qed.

Theorem advisory_reply_told_partial : forall vertical sensitivity information coding feet altitude icao frame
    a below above left right over t who,
  altitude13_fields coding feet altitude -> threat_fields t who -> readable t who ->
  Reply (air_air_long vertical sensitivity information altitude ((8, 0x30) :: report_of a below above left right over who)) icao frame ->
  exists d, answered frame icao (MDF16 d) /\
    modes_messages.MessageDF16_Altitude d = feet /\
    List.hd 0 (modes_messages.MessageDF16_MessageACAS d) = 0x30 /\
    acas_ra.ReadResolutionAdvisory (List.tl (modes_messages.MessageDF16_MessageACAS d)) = Ok (said a below above left right over t).
Proof.
  intros vs sl ri c feet alt icao frame a below above left right over t who A T Rd R.
  pose proof (report_width a below above left right over t who T) as W.
  pose proof R as (F & _). unfold air_air_long in F. rewrite !fits_app in F. destruct F as (_ & _ & F).
  change ((8, 0x30) :: report_of a below above left right over who) with ([(8, 0x30)] ++ report_of a below above left right over who) in *.
  apply fits_app in F as [F1 F2].
  assert (W7 : width ([(8, 0x30)] ++ report_of a below above left right over who) = 56) by (rewrite width_app, W; reflexivity).
  destruct (Reply.air_air_long_told _ _ _ _ _ _ _ _ _ A W7 R) as (d & An & _ & _ & _ & _ & Hf & E).
  destruct (after_octet _ _ F1 F2 eq_refl W) as (_ & E2 & E3).
  exists d. split; [exact An|]. split; [exact Hf|]. rewrite E. split; [exact E3|].
  change (List.tl (message ([(8, 48)] ++ report_of a below above left right over who))) with (skipn 1 (message ([(8, 48)] ++ report_of a below above left right over who))).
  match goal with |- acas_ra.ReadResolutionAdvisory ?x = _ => replace x with (message (report_of a below above left right over who)) by (symmetry; exact E2) end. apply report_read; assumption.
Qed.

Theorem advisory_squitter_told_partial : forall v nicA nicC ca icao a below above left right over t who frame,
  threat_fields t who -> readable t who ->
  Squitter ca icao ([(5, 28); (3, 2)] ++ report_of a below above left right over who) frame ->
  exists m, received v nicA nicC frame icao (AStatus m) /\
    adsb_aircraft_status.AircraftStatus_AircraftStatus m = bds61.IAircraftStatus_AircraftStatusACAS
      {| bds61.AircraftStatusACAS_FormatTypeCode := 28;
         bds61.AircraftStatusACAS_Subtype := 2;
         bds61.AircraftStatusACAS_ResolutionAdvisory := said a below above left right over t |}.
Proof.
  intros v nicA nicC ca icao a below above left right over t who frame T Rd S.
  pose proof (report_width a below above left right over t who T) as W.
  pose proof S as (_ & F & W7 & _). pose proof F as F'. apply fits_app in F' as [F1 F2].
  assert (E : octets 2 7 (message ([(5, 28); (3, 2)] ++ report_of a below above left right over who)) = message (report_of a below above left right over who)) by exact (proj1 (after_octet _ _ F1 F2 eq_refl W)).
  pose proof (report_meaning a below above left right over t who T F2) as M.
  pose proof (readable_bits a below above left right over t who T Rd F2) as N. cbv zeta in N.
  assert (L6 : len (message (report_of a below above left right over who)) = 6) by (apply message_len; assumption).
  assert (B1 : bits 1 5 (message ([(5, 28); (3, 2)] ++ report_of a below above left right over who)) = 28) by (look 0%nat 1%nat; reflexivity).
  assert (B2 : bits 6 8 (message ([(5, 28); (3, 2)] ++ report_of a below above left right over who)) = 2) by (look 1%nat 1%nat; reflexivity).
  destruct (squitter_received _ _ _ _ S) as (Hb & Hl & d & R & C & Ed). rewrite <- E in M, N.
  clear S F F1 F2 W7 W E L6.
  generalize dependent (message ([(5, 28); (3, 2)] ++ report_of a below above left right over who)). intros me; intros.
  assert (K : KindOf me KStatus) by (apply k_status; exact B1).
  pose proof (status_acas me _ B2 M) as St. rewrite B1, B2 in St.
  apply (status_message_partial v nicA nicC me Hb Hl K) in St.
  - eexists. split; [exists d; rewrite Ed; split; [exact R|]; split; [exact C|exact St]|reflexivity].
  - intros Z0. rewrite B2 in Z0. discriminate.
  - intros _ Q. rewrite !bits_octets in N by (assumption || lia).
    apply N. exact Q.
Qed.

Theorem advisory_register_told_partial : forall a below above left right over t who,
  threat_fields t who -> readable t who -> fits (report_of a below above left right over who) ->
  exists l, ReadCommBMessage (message ((8, 0x30) :: report_of a below above left right over who)) = Ok l /\
    forall x, List.In (B30 x) l <->
      x = {| bds30.ACASResolutionAdvisory_ResolutionAdvisory := said a below above left right over t |}.
Proof.
  intros a below above left right over t who T Rd F2.
  pose proof (report_width a below above left right over t who T) as W.
  assert (F1 : fits [(8, 0x30)]) by (constructor; [cbn; lia|constructor]).
  assert (F : fits ((8, 0x30) :: report_of a below above left right over who)) by (apply (proj2 (fits_app [(8, 0x30)] _)); auto).
  assert (W7 : width ((8, 0x30) :: report_of a below above left right over who) = 8 * 7).
  { change (8 + width (report_of a below above left right over who) = 56). rewrite W. reflexivity. }
  assert (E : octets 2 7 (message ((8, 0x30) :: report_of a below above left right over who)) = message (report_of a below above left right over who))
    by exact (proj1 (after_octet [(8, 0x30)] _ F1 F2 eq_refl W)).
  pose proof (report_read a below above left right over t who T Rd F2) as Rr. rewrite <- E in Rr.
  assert (B1 : bits 1 8 (message ((8, 0x30) :: report_of a below above left right over who)) = 48) by (look 0%nat 1%nat; reflexivity).
  assert (Hb : bytes (message ((8, 0x30) :: report_of a below above left right over who))) by apply message_bytes.
  assert (Hl : len (message ((8, 0x30) :: report_of a below above left right over who)) = 7) by (apply message_len; assumption).
  clear F F1 F2 W W7 E.
  generalize dependent (message ((8, 0x30) :: report_of a below above left right over who)). intros me; intros.
  destruct (commb_registers me Hb Hl) as (l & R & H).
  { intros Z0. rewrite (bits_of_zero 1 56 me 1 8) in B1 by (lia || exact Z0). discriminate. }
  { intros [[Z0 _] _]. rewrite (bits_join 1 3 8 me) in B1 by lia. rewrite (bits_join (3 + 1) 6 8 me) in B1 by lia.
    change (3 + 1) with 4 in B1. rewrite Z0 in B1. change (6 + 1) with 7 in B1. bits_bound 7 8 me. change (2 ^ (8 - 3)) with 32 in B1. change (2 ^ (8 - 6)) with 4 in B1. lia. }
  { intros [Z0 _]. unfold recognised_20 in Z0. rewrite B1 in Z0. discriminate. }
  exists l. split; [exact R|]. intros x.
  assert (D : forall y, decodes me (B30 y) <-> y = {| bds30.ACASResolutionAdvisory_ResolutionAdvisory := said a below above left right over t |}).
  { intros y. cbn [decodes]. rewrite (read_bds30 me y Hb Hl). rewrite Rr. split.
    - intros [_ Q]. destruct y. cbn in Q. congruence.
    - intros ->. split; [exact B1|reflexivity]. }
  split.
  - intros I. apply D. exact (proj1 (commb_sound me l _ Hb R I)).
  - intros ->. destruct (proj2 (H 30)) as (m & I & N).
    { unfold plausible. do 2 right. left. split; [reflexivity|]. split; [exact B1|]. eexists; exact Rr. }
    destruct m as [?|?|?|?|?|y|?|?|?|?|?]; try discriminate N.
    rewrite <- (proj1 (D y) (proj1 (commb_sound me l _ Hb R I))). exact I.
Qed.

(* ---- the kind of airspeed is not told ---- *)
Theorem airspeed_kind_refuted : exists a b m,
  Squitter 5 0x400940 (airspeed_of 3 0 0 0 true 694 false 375 1 (-37) 4) a /\
  Squitter 5 0x400940 (airspeed_of 3 0 0 0 true 694 true 375 1 (-37) 4) b /\
  received 2 false false a 0x400940 m /\ received 2 false false b 0x400940 m.
Proof.
  assert (X : forall tas, fits (header 5 0x400940) /\ fits (airspeed_of 3 0 0 0 true 694 tas 375 1 (-37) 4)).
  { intros tas. split; unfold fits; repeat (constructor; [cbn; destruct tas; cbn; lia|]); constructor. }
  destruct (squitter_exists 5 0x400940 _ (proj1 (X false)) (proj2 (X false)) eq_refl) as (a & Sa).
  destruct (squitter_exists 5 0x400940 _ (proj1 (X true)) (proj2 (X true)) eq_refl) as (b & Sb).
  destruct (squitter_received _ _ _ _ Sa) as (_ & _ & d & R & C & E).
  destruct (squitter_received _ _ _ _ Sb) as (_ & _ & d' & R' & C' & E').
  destruct (ReadADSBMessage 2 false false (message (airspeed_of 3 0 0 0 true 694 false 375 1 (-37) 4))) as [m| |] eqn:M; try (vm_compute in M; discriminate M).
  exists a, b, m. split; [exact Sa|]. split; [exact Sb|]. split.
  - exists d. rewrite E. auto.
  - exists d'. rewrite E'. split; [exact R'|]. split; [exact C'|]. rewrite <- M. vm_compute. reflexivity.
Qed.

Example airspeed_told_example : exists frame,
  Squitter 5 0x400940 (airspeed_of 3 0 0 0 true 694 true 375 1 (-37) 4) frame.
Proof.
  apply squitter_exists; [| |reflexivity]; unfold fits; repeat (constructor; [cbn; lia|]); constructor.
Qed.

Example advisory_told_example : exists who frame, threat_fields (at_position (Some 8900) 46 12) who /\
  readable (at_position (Some 8900) 46 12) who /\
  Squitter 5 0x400940 ([(5, 28); (3, 2)] ++ report_of (one_side true true false true false true true) true false false false false who) frame.
Proof.
  exists ([(2, 2)] ++ [(1, flag false); (1, flag false); (1, flag true); (1, flag true); (1, flag true); (1, flag true); (1, 0);
       (1, flag true); (1, 0); (1, flag true); (1, flag false); (1, flag false); (1, flag false)] ++ [(7, 46); (6, 12)]).
  assert (X : forall p, fits p -> width p = 56 -> exists frame, Squitter 5 0x400940 p frame).
  { intros p F W. apply squitter_exists; [|exact F|exact W]. unfold fits; repeat (constructor; [cbn; lia|]); constructor. }
  destruct (X ([(5, 28); (3, 2)] ++ report_of (one_side true true false true false true true) true false false false false
    ([(2, 2)] ++ [(1, flag false); (1, flag false); (1, flag true); (1, flag true); (1, flag true); (1, flag true); (1, 0);
       (1, flag true); (1, 0); (1, flag true); (1, flag false); (1, flag false); (1, flag false)] ++ [(7, 46); (6, 12)]))) as (frame & S); [|reflexivity|].
  { unfold fits; repeat (constructor; [cbn; lia|]); constructor. }
  exists frame. split; [|split; [|exact S]].
  - apply fields_position. apply altitude13_100. exists 101. split; [lia|]. split; [reflexivity|]. vm_compute. reflexivity.
  - split; [|reflexivity]. eexists. left. reflexivity.
Qed.
