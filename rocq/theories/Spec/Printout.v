(* What the command must print for what an aircraft sends: the transmission is written field by field (Spec/Squitter.v,
   Spec/Reply.v) and given to the command in hexadecimal; the printed lines tell those fields. *)
From Verif Require Import GoBase Bits.
From Verif.Spec Require Import Floats Altitude ModeS Identification Adsb Velocity Squitter Reply.
From Verif.Spec Require Import Text Report Reports Command.
From Verif.Gen Require bds08_fields bds09_fields.
Require Import String.
From Coq Require Import Reals.
From Verif.Spec Require Import Track.
Local Open Scope string_scope.
Local Open Scope list_scope.
Local Open Scope Z_scope.

(* all the lines for a frame: the input, a title, the origin of the frame, the Mode S message, what it contains; two
   empty lines at the end *)
Definition printout (line from : string) (address : Z) (mode_s more : list row) : list row :=
  [("Reading", exactly line); (" -- Mode-S Information --", heading); (from, address_text address)] ++
  mode_s ++ more ++ [("", heading); ("", heading)].

(* a float that is this number, printed by the library *)
Definition float_text (ffmt : spec_float -> string) (q : Q) : string -> Prop := fun v => exists f, is_value f q /\ v = ffmt f.
(* words which contain this text, these texts *)
Definition saying (text : string) : string -> Prop := fun v => says v text.
Definition saying_all (texts : list string) : string -> Prop := fun v => Forall (says v) texts.

(* ---- what an extended squitter contains, for a reader told that the aircraft has this version of ADS-B ---- *)

Definition category_of (tc category : Z) : bds08_fields.AircraftCategory :=
  if tc =? 1 then bds08_fields.IAircraftCategory_AircraftCategorySetD category
  else if tc =? 2 then bds08_fields.IAircraftCategory_AircraftCategorySetC category
  else if tc =? 3 then bds08_fields.IAircraftCategory_AircraftCategorySetB category
  else bds08_fields.IAircraftCategory_AircraftCategorySetA category.

Definition airborne_integrity_rows (version tc antenna : Z) : list row :=
  let v1 := nic_airborne_v1 tc false in
  let v2 := nic_airborne_v2 tc false (antenna =? 1) in
  if version =? 0 then
    [("Horizontal Protection Limit", saying_all (hpl_airborne_v0 tc));
     ("Containment Radius", saying_all (mu_airborne_v0 tc))]
  else if version =? 1 then
    [("Navigation Integrity Code A", yesno false);
     ("Horizontal Containment Radius", saying (snd v1));
     ("Navigation Integrity Category", number (fst v1))]
  else
    [("Navigation Integrity Code A", yesno false);
     ("Navigation Integrity Code B", number antenna);
     ("Horizontal Containment Radius", saying (snd v2));
     ("Navigation Integrity Category", number (fst v2))].

Definition surface_integrity_rows (version tc : Z) : list row :=
  let v1 := nic_surface_v1 tc false in
  let v2 := nic_surface_v2 tc false false in
  if version =? 0 then
    [("Horizontal Protection Limit", saying (hpl_surface_v0 tc));
     ("Containment Radius", saying_all (mu_surface_v0 tc))]
  else if version =? 1 then
    [("Navigation Integrity Code A", yesno false);
     ("Horizontal Containment Limit", saying (snd v1));
     ("Navigation Integrity Category", number (fst v1))]
  else
    [("Navigation Integrity Code A", yesno false);
     ("Navigation Integrity Code C", yesno false);
     ("Horizontal Containment Limit", saying (snd v2));
     ("Navigation Integrity Category", number (fst v2))].

(* the writing of an altitude in steps of 25 ft has three fields (Spec/Squitter.v, altitude_fields) *)
Definition steps_of_25 (altitude : list field) : bool := len altitude =? 3.

(* a speed or a rate is told to be regular *)
Definition regular : string -> Prop := exactly "Regular value".

Inductive squitter_tells (ffmt : spec_float -> string) (matan2 : f64 -> f64 -> f64) (version : Z) : list field -> list row -> Prop :=
| tells_identification tc category codes callsign :
    1 <= tc <= 4 -> len codes = 8 -> List.map ia5 codes = List.map Some callsign ->
    squitter_tells ffmt matan2 version (identification_payload tc category codes)
      [("Message", exactly "BDS 0,8 - Extended squitter aircraft identification and category");
       ("Format Type Code", number tc);
       ("Category", worded bds08_fields.IAircraftCategory_ToString (category_of tc category));
       ("Identification", exactly (text callsign))]
| tells_airborne tc status antenna feet altitude time odd lat lon :
    0 <= version <= 2 -> 9 <= tc <= 18 \/ 20 <= tc <= 22 -> altitude_fields feet altitude ->
    squitter_tells ffmt matan2 version (airborne_payload tc status antenna altitude time odd lat lon)
      ([("Message", exactly "BDS 0,5 - Extended squitter airborne position");
        ("Format Type Code", number tc);
        ("Surveillance Status", coded status);
        ("Single Antenna Flag", coded antenna);
        ("Altitude Source", coded (if 20 <=? tc then 1 else 0));
        ("Altitude Report Method", coded (if steps_of_25 altitude then 1 else 0));
        ("Altitude (feet)", number feet);
        ("Time", coded time);
        ("Compact Position Reporting Format", coded (flag odd));
        ("Encoded Latitude", number lat);
        ("Encoded Longitude", number lon)] ++ airborne_integrity_rows version tc antenna)
| tells_surface tc movement track_valid track time odd lat lon :
    (* for the version 1 and the type 7 the printed radius is wrong: surface_v1_radius_refuted *)
    0 <= version <= 2 -> 5 <= tc <= 8 -> ~ (version = 1 /\ tc = 7) ->
    squitter_tells ffmt matan2 version (surface_payload tc movement track_valid track time odd lat lon)
      ([("Message", exactly "BDS 0,6 - Extended squitter surface position");
        ("Format Type Code", number tc);
        ("Movement Status", coded movement);
        ("Movement Speed (knots)", float_text ffmt (movement_knots movement));
        ("Ground Track Status", yesno track_valid);
        ("Ground Track (degrees)", float_text ffmt (inject_Z track * (360 # 128)));
        ("Time", coded time);
        ("Compact Position Reporting Format", coded (flag odd));
        ("Encoded Latitude", number lat);
        ("Encoded Longitude", number lon)] ++ surface_integrity_rows version tc)
| tells_velocity intent ifr nuc e n source rate difference :
    -1021 <= e <= 1021 -> -1021 <= n <= 1021 -> -509 <= rate <= 509 -> -125 <= difference <= 125 ->
    squitter_tells ffmt matan2 version (velocity_of 1 intent ifr nuc e n source rate difference)
      [("Message", exactly "BDS 0,9 - Extended squitter airborne velocity");
       ("Subtype", coded 1);
       ("Intent Change", coded intent);
       ("IFR Capability", coded ifr);
       ("Navigation Uncertainty Category", worded bds09_fields.NavigationUncertaintyCategory_ToString nuc);
       ("Direction EW", coded (flag (e <? 0)));
       ("Velocity EW Status", regular);
       ("Velocity EW (knots)", number (Z.abs e));
       ("Direction NS", coded (flag (n <? 0)));
       ("Velocity NS Status", regular);
       ("Velocity NS (knots)", number (Z.abs n));
       ("Vertical Rate Source", coded source);
       ("Vertical Rate Status", regular);
       ("Vertical Rate (ft/min)", number (64 * rate));
       ("Difference Alt. GNSS Baro Status", regular);
       ("Difference Alt. GNSS Baro (ft)", number (25 * difference));
       ("Computed Speed", exactly (numeral (Z.sqrt (e ^ 2 + n ^ 2)) ++ " (knots)")%string);
       ("Computed Track", fun v => accurate_atan2 matan2 -> exists f r, v = (ffmt f ++ " (degrees)")%string /\ fl32 f r /\
          (e <> 0 \/ n <> 0 -> (0 <= r < 360)%R /\ exists theta, bearing (IZR e) (IZR n) theta /\ (Rabs (r - theta) <= 1 / 50000)%R))]
| tells_emergency state code :
    squitter_tells ffmt matan2 version (emergency_payload state code)
      [("Message", exactly "BDS 6,1 - Extended squitter emergency/priority status");
       ("Subtype", coded 1);
       ("Emergeny State", coded state)].

(* ---- what the command must print ---- *)

Definition surveillance_rows (status request interrogator designator : Z) : list row :=
  [("FlightStatus", coded status);
   ("DownlinkRequest", coded request);
   ("UtilityMessage", fun v => exists words, coded designator words /\
      v = ("InterrogatorIdentifier: " ++ numeral interrogator ++ ", Reservation: " ++ words)%string)].
Definition altitude_rows (coding : AltitudeCoding) (feet : Z) : list row :=
  [("AltitudeReportMethod", coded (coding_code coding)); ("Altitude", number feet)].
Definition squitter_rows (icao : Z) (payload : list field) : list row :=
  [("AddressAnnounced", address_text icao); ("MessageExtendedSquitter", hex_octets (message payload))].

Inductive tells (ffmt : spec_float -> string) (matan2 : f64 -> f64 -> f64) (version : Z) (line : string) : list row -> Prop :=
(* an extended squitter *)
| tells_squitter ca icao payload frame rows :
    Squitter ca icao payload frame -> hex_text line frame -> squitter_tells ffmt matan2 version payload rows ->
    tells ffmt matan2 version line
      (printout line "From" icao
         ([format_row 17 "Extended squitter"; ("Capability", coded ca)] ++ squitter_rows icao payload)
         ((" -- ADSB Information --", heading) :: rows))
(* an extended squitter of a device which is not a transponder: control field 0 or 1 for ADS-B *)
| tells_device cf icao payload frame rows :
    Reply ([(5, 18); (3, cf); (24, icao)] ++ payload) 0 frame -> hex_text line frame -> width payload = 56 ->
    cf = 0 \/ cf = 1 -> squitter_tells ffmt matan2 version payload rows ->
    tells ffmt matan2 version line
      (printout line "From" icao
         ([format_row 18 "Extended squitter/non transponder"; ("ControlField", coded cf)] ++ squitter_rows icao payload)
         ((" -- ADSB Information --", heading) :: rows))
(* control field 2 to 5: TIS-B *)
| tells_traffic cf icao payload frame :
    Reply ([(5, 18); (3, cf); (24, icao)] ++ payload) 0 frame -> hex_text line frame -> width payload = 56 ->
    2 <= cf <= 5 ->
    tells ffmt matan2 version line
      (printout line "From" icao
         ([format_row 18 "Extended squitter/non transponder"; ("ControlField", coded cf)] ++ squitter_rows icao payload)
         [(" -- TISB Information --", heading); ("Not implemented", heading)])
(* surveillance replies *)
| tells_altitude status request interrogator designator coding feet altitude icao frame :
    altitude13_fields coding feet altitude ->
    Reply (surveillance 4 status request interrogator designator altitude) icao frame -> hex_text line frame ->
    tells ffmt matan2 version line
      (printout line "From" icao
         ([format_row 4 "Surveillance, altitude reply"] ++ surveillance_rows status request interrogator designator ++ altitude_rows coding feet)
         [("", heading)])
| tells_squawk status request interrogator designator a b c d icao frame :
    octal a -> octal b -> octal c -> octal d ->
    Reply (surveillance 5 status request interrogator designator (squawk_fields a b c d)) icao frame -> hex_text line frame ->
    tells ffmt matan2 version line
      (printout line "From" icao
         ([format_row 5 "Surveillance, identify reply"] ++ surveillance_rows status request interrogator designator ++
          [("Identity", identity_value (squawk a b c d))])
         [("", heading)])
(* an all-call reply *)
| tells_all_call capability icao interrogator frame :
    Reply (all_call capability icao) interrogator frame -> hex_text line frame ->
    tells ffmt matan2 version line
      (printout line "In reply to interrogator" interrogator
         [format_row 11 "All-call reply"; ("Capability", coded capability); ("AddressAnnounced", address_text icao)]
         [("", heading)])
(* an air-air reply *)
| tells_air_air vertical crosslink sensitivity information coding feet altitude icao frame :
    altitude13_fields coding feet altitude ->
    Reply (air_air vertical crosslink sensitivity information altitude) icao frame -> hex_text line frame ->
    tells ffmt matan2 version line
      (printout line "From" icao
         ([format_row 0 "Short air-air surveillance (ACAS)"; ("VerticalStatus", coded vertical);
           ("CrossLinkCapability", coded crosslink); ("SensitivityLevel", coded sensitivity);
           ("ReplyInformation", coded information)] ++ altitude_rows coding feet)
         [("", heading)])
(* Comm-B replies with an identification *)
| tells_altitude_callsign status request interrogator designator coding feet altitude codes callsign icao frame :
    altitude13_fields coding feet altitude -> len codes = 8 -> List.map ia5 codes = List.map Some callsign ->
    Reply (surveillance 20 status request interrogator designator altitude ++ identification_register codes) icao frame ->
    hex_text line frame ->
    tells ffmt matan2 version line
      (printout line "From" icao
         ([format_row 20 "Comm-B altitude reply"] ++ surveillance_rows status request interrogator designator ++
          altitude_rows coding feet ++ [("MessageCommB", hex_octets (message (identification_register codes)))])
         [(" -- Comm-B Information --", heading); ("Message", exactly "BDS 2,0 - Aircraft identification");
          ("Identification", exactly (text callsign)); ("", heading)])
| tells_squawk_callsign status request interrogator designator a b c d codes callsign icao frame :
    octal a -> octal b -> octal c -> octal d -> len codes = 8 -> List.map ia5 codes = List.map Some callsign ->
    Reply (surveillance 21 status request interrogator designator (squawk_fields a b c d) ++ identification_register codes) icao frame ->
    hex_text line frame ->
    tells ffmt matan2 version line
      (printout line "From" icao
         ([format_row 21 "Comm-B identify reply"] ++ surveillance_rows status request interrogator designator ++
          [("Identity", identity_value (squawk a b c d)); ("MessageCommB", hex_octets (message (identification_register codes)))])
         [(" -- Comm-B Information --", heading); ("Message", exactly "BDS 2,0 - Aircraft identification");
          ("Identification", exactly (text callsign)); ("", heading)]).
