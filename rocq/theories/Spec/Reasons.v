(* Why an input is refused, and what the error says: the checks made on an input,
   in order, each with what is said when it is the first one that fails. *)
From Verif Require Import GoBase Bits.
From Verif.Spec Require Import Text Report Altitude Acas Command.
Require Import ZArith List String Ascii.
Import ListNotations.
Local Open Scope Z_scope.

(* [first_failed checks e]: some check fails, and [e] is what is said of the first one *)
Fixpoint first_failed (checks : list (Prop * string)) (e : string) : Prop :=
  match checks with
  | [] => False
  | (check, said) :: more => (~ check /\ e = said) \/ (check /\ first_failed more e)
  end.

Notation "a +++ b" := (String.append a b) (at level 60, right associativity).

(* ---- frames ---- *)
Definition mode_s_checks (frame : list Z) : list (Prop * string) :=
  let df := bits 1 5 frame in
  [(len frame = 7 \/ len frame = 14, "a Mode S message must be 7 or 14 bytes long"%string);
   (In df [0; 4; 5; 11; 16; 17; 18; 19; 20; 21] \/ 24 <= df,
    "the downlink format " +++ numeral df +++ " is not supported");
   (In df [0; 4; 5; 11] -> len frame = 7, "DF" +++ numeral df +++ " message must be 7 bytes long");
   (16 <= df <= 21 -> len frame = 14, "DF" +++ numeral df +++ " message must be 14 bytes long");
   (24 <= df -> len frame = 14, "DF24 message must be 14 bytes long"%string);
   (In df [0; 4; 16; 20] -> exists coding altitude, Altitude13 frame coding altitude,
    "the field Altitude is not readable"%string)].

(* ---- extended squitters ---- *)
Definition adsb_checks (version : Z) (data : list Z) : list (Prop * string) :=
  let tc := bits 1 5 data in
  let subtype := bits 6 8 data in
  let announced := bits 41 43 data in (* the version announced by an operational status *)
  let airborne := 9 <= tc <= 18 \/ 20 <= tc <= 22 in
  [(len data = 7, "the data for ADSB message must be 7 bytes long"%string);
   (tc <= 22 \/ In tc [28; 29; 31], "the formatTypeCode " +++ numeral tc +++ " is not supported");
   (* positions *)
   (5 <= tc <= 8 \/ airborne -> 0 <= version <= 2,
    "the ADS-B version " +++ numeral version +++ " does not allow to read AirbornePosition messages");
   (tc = 0 \/ airborne -> exists altitude, Altitude12 data altitude, "the field Altitude is malformed"%string);
   (* velocity *)
   (tc = 19 -> 1 <= subtype <= 4,
    "the field SubType must be comprised between 1 and 4 included, got " +++ numeral subtype);
   (* aircraft status *)
   (tc = 28 -> subtype <= 2,
    "the field SubType must be comprised between 0 and 2 included, got " +++ numeral subtype);
   (tc = 28 /\ subtype = 0 -> bits 12 16 data = 0, "the bits 12 to 16 are expected to be 0"%string);
   (tc = 28 /\ subtype = 0 -> bits 17 56 data = 0, "the bits 17 to 56 are expected to be 0"%string);
   (tc = 28 /\ subtype = 1 -> bits 25 56 data = 0, "the bits 25 to 56 are expected to be 0"%string);
   (tc = 28 /\ subtype = 2 /\ bits 29 30 data = 2 -> exists altitude, ThreatAltitude (octets 2 7 data) altitude,
    "the Altitude field is malformed"%string);
   (* target state *)
   (tc = 29 -> bits 6 7 data <= 1,
    "the field SubType must be comprised between 0 and 1 included, got " +++ numeral (bits 6 7 data));
   (tc = 29 /\ bits 6 7 data = 0 -> bits 47 48 data = 0, "the bits 47 to 48 are expected to be 0"%string);
   (tc = 29 /\ bits 6 7 data = 0 -> bits 49 51 data = 0, "the bits 49 to 51 are expected to be 0"%string);
   (* operational status *)
   (tc = 31 -> announced <= 2,
    "the field VersionNumber must be comprised between 0 and 2 included, got " +++ numeral announced);
   (tc = 31 /\ announced = 0 -> subtype = 0,
    "the data are given for subtype " +++ numeral subtype +++
    " format and can not be read by ReadAircraftOperationalStatusADSB0");
   (tc = 31 /\ announced = 0 -> bits 41 56 data = 0, "the bits 41 to 56 are expected to be 0"%string);
   (tc = 31 /\ 1 <= announced -> subtype <= 1,
    "the field SubType must be comprised between 0 and 1 included, got " +++ numeral subtype);
   (tc = 31 /\ announced = 1 -> 4 * bits 9 10 data + bits 13 14 data = 0,
    "the ServiceLevel (field Capability Class) must be 0 (" +++ numeral (4 * bits 9 10 data + bits 13 14 data) +++ " given)");
   (tc = 31 /\ announced = 2 -> bits 9 10 data = 0,
    "the Capability Content (field Capability Class) must be 0 (" +++ numeral (bits 9 10 data) +++ " given)");
   (tc = 31 /\ 1 <= announced -> bits 25 26 data = 0,
    "the Operational Mode Format (field Operational Mode) must be 0 (" +++ numeral (bits 25 26 data) +++ " given)");
   (tc = 31 /\ announced = 1 -> bits 49 50 data = 0, "the bits 49 and 50 must be 0"%string);
   (tc = 31 /\ announced = 1 -> bits 55 56 data = 0, "the bits 55 and 56 must be 0"%string);
   (tc = 31 /\ announced = 2 -> bits 56 56 data = 0, "the bit 56 must be 0"%string)].

(* ---- advisories ---- *)
Definition advisory_checks (data : list Z) : list (Prop * string) :=
  [(len data = 6, "the data for ACAS ResolutionAdvisory message must be 6 bytes long"%string);
   (bits 21 22 data = 2 -> exists altitude, ThreatAltitude data altitude, "the Altitude field is malformed"%string)].
