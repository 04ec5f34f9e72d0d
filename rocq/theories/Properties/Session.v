(* Property theorems: Session. Generated by tools/mkprops.py; proofs are in theories/Proofs. *)
From Verif Require Import GoBase Bits.
From Verif.Spec Require Import Altitude Floats Adsb AdsbMessages Squitter Statuses Noise Session.
From Verif.Model Require Import Crc ModesReader AdsbReader.
From Verif.Proofs Require Session.
Local Open Scope Z_scope.

Theorem C110_session_learned_partial : forall icao start frames s, session icao start frames s -> learned icao start frames = s.
Proof. exact Session.session_learned. Qed.
Print Assumptions C110_session_learned_partial.

Theorem C110_airborne_integrity_partial : forall icao start frames s ca tc status antenna feet altitude time odd lat lon frame,
  0 <= s_version start <= 2 -> session icao start frames s ->
  9 <= tc <= 18 \/ 20 <= tc <= 22 -> altitude_fields feet altitude ->
  Squitter ca icao (airborne_payload tc status antenna altitude time odd lat lon) frame ->
  let known := learned icao start frames in
  exists m, received (s_version known) (s_nic_a known) (s_nic_c known) frame icao (AAirborne m) /\
    AirborneOf (s_version s) (s_nic_a s) (message (airborne_payload tc status antenna altitude time odd lat lon)) m.
Proof. exact Session.airborne_integrity. Qed.
Print Assumptions C110_airborne_integrity_partial.

Theorem C110_surface_integrity_partial : forall icao start frames s ca tc movement track_valid track time odd lat lon frame,
  0 <= s_version start <= 2 -> session icao start frames s ->
  5 <= tc <= 8 -> ~ (s_version s = 1 /\ tc = 7 /\ s_nic_a s = false) ->
  Squitter ca icao (surface_payload tc movement track_valid track time odd lat lon) frame ->
  let known := learned icao start frames in
  exists m, received (s_version known) (s_nic_a known) (s_nic_c known) frame icao (ASurface m) /\
    SurfaceOf (s_version s) (s_nic_a s) (s_nic_c s) (message (surface_payload tc movement track_valid track time odd lat lon)) m.
Proof. exact Session.surface_integrity_partial. Qed.
Print Assumptions C110_surface_integrity_partial.

Theorem C110_elsewhere_address_partial : forall ca icao icao' payload frame, Squitter ca icao' payload frame -> icao' <> icao -> elsewhere icao frame.
Proof. exact Session.elsewhere_address. Qed.
Print Assumptions C110_elsewhere_address_partial.

Theorem C110_elsewhere_format_partial : forall icao frame, bytes frame -> bits 1 5 frame <> 17 -> elsewhere icao frame.
Proof. exact Session.elsewhere_format. Qed.
Print Assumptions C110_elsewhere_format_partial.

Theorem C110_elsewhere_type_partial : forall icao ca tc rest frame, Squitter ca icao ((5, tc) :: rest) frame -> tc <> 31 -> elsewhere icao frame.
Proof. exact Session.elsewhere_type. Qed.
Print Assumptions C110_elsewhere_type_partial.

Theorem C110_elsewhere_damaged_partial : forall ca icao icao' payload sent frame, Squitter ca icao' payload sent -> damaged sent frame -> elsewhere icao frame.
Proof. exact Session.elsewhere_damaged. Qed.
Print Assumptions C110_elsewhere_damaged_partial.

Example C110_session_example : exists frames, len frames = 4 /\
  session 0x400940 newcomer frames {| s_version := 2; s_nic_a := true; s_nic_c := true |}.
Proof. exact Session.session_example. Qed.
Print Assumptions C110_session_example.

Theorem C110_surface_integrity_refuted : forall icao start frames s ca movement track_valid track time odd lat lon frame,
  0 <= s_version start <= 2 -> session icao start frames s -> s_version s = 1 -> s_nic_a s = false ->
  Squitter ca icao (surface_payload 7 movement track_valid track time odd lat lon) frame ->
  let known := learned icao start frames in
  exists m, received (s_version known) (s_nic_a known) (s_nic_c known) frame icao (ASurface m) /\
    ~ SurfaceOf (s_version s) (s_nic_a s) (s_nic_c s) (message (surface_payload 7 movement track_valid track time odd lat lon)) m.
Proof. exact Session.surface_integrity_refuted. Qed.
Print Assumptions C110_surface_integrity_refuted.

Example C110_surface_session_example : exists frames s frame,
  session 0x400940 newcomer frames s /\ s_version s = 1 /\ s_nic_a s = false /\
  Squitter 5 0x400940 (surface_payload 7 20 true 64 0 false 93000 51372) frame.
Proof. exact Session.surface_session_example. Qed.
Print Assumptions C110_surface_session_example.
