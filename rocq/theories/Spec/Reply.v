(* What an aircraft answers to an interrogation: surveillance replies (DF4, DF5), Comm-B replies (DF20, DF21),
   air-air replies (DF0, DF16) and all-call replies (DF11), written field by field
   (Annex 10 vol. IV 3.1.2.5.2.2, 3.1.2.6.5 to 3.1.2.6.8, 3.1.2.8.2, 3.1.2.8.3). *)
From Verif Require Import GoBase Bits.
From Verif.Spec Require Import Altitude ModeS Crc Squitter.
From Verif.Gen Require modes_messages modes_fields.
From Verif.Model Require Import Crc ModesReader.
Local Open Scope Z_scope.

(* a reply: the fields on 32 or 88 bits, then their parity, to which the address of the aircraft is added (for an
   all-call reply, the code of the interrogator) *)
Definition Reply (fields : list field) (overlay : Z) (frame : list Z) : Prop :=
  fits fields /\ (width fields = 32 \/ width fields = 88) /\ 0 <= overlay < 2 ^ 24 /\
  exists p, Parity (message fields) p /\ frame = message (fields ++ [(24, Z.lxor p overlay)]).

(* reading a reply with the library: the frame is read, and the check of the parity gives the address, and no
   other, to the users who expect it *)
Definition answered (frame : list Z) (address : Z) (m : ModeSMessage) : Prop :=
  ReadMessage frame = Ok m /\
  forall addresses interrogators x, CheckCRC m frame addresses interrogators = Ok x <-> x = address /\ admits addresses address.

(* the 13 bits of an altitude: not available, in steps of 25 ft, or by the pulses of Mode C *)
Inductive altitude13_fields : AltitudeCoding -> Z -> list field -> Prop :=
| altitude13_none : altitude13_fields NoAltitude 0 [(13, 0)]
| altitude13_25 k : 0 <= k < 2048 ->
    altitude13_fields Feet25 (25 * k - 1000) [(6, k / 32); (1, 0); (1, k / 16 mod 2); (1, 1); (4, k mod 16)]
| altitude13_100 feet d2 d4 a1 a2 a4 b1 b2 b4 c1 c2 c4 :
    Gillham false d2 d4 a1 a2 a4 b1 b2 b4 c1 c2 c4 feet ->
    altitude13_fields Feet100 feet
      [(1, flag c1); (1, flag a1); (1, flag c2); (1, flag a2); (1, flag c4); (1, flag a4); (1, 0);
       (1, flag b1); (1, 0); (1, flag b2); (1, flag d2); (1, flag b4); (1, flag d4)].

(* the 13 bits of a squawk of four octal digits; each pulse of a digit is worth 1, 2 or 4 *)
Definition pulse (n digit : Z) : field := (1, digit / n mod 2).
Definition squawk_fields (a b c d : Z) : list field :=
  [pulse 1 c; pulse 1 a; pulse 2 c; pulse 2 a; pulse 4 c; pulse 4 a; (1, 0);
   pulse 1 b; pulse 1 d; pulse 2 b; pulse 2 d; pulse 4 b; pulse 4 d].
Definition octal (n : Z) : Prop := 0 <= n < 8.

(* a surveillance reply: format, flight status, downlink request, utility message (interrogator and designator), the
   altitude or the squawk; a Comm-B reply has a register of 56 bits after them *)
Definition surveillance (df status request interrogator designator : Z) (what : list field) : list field :=
  [(5, df); (3, status); (5, request); (4, interrogator); (2, designator)] ++ what.

(* an air-air reply: vertical status, cross-link capability, sensitivity level, reply information, altitude; the
   long one has no cross-link capability and 56 bits more *)
Definition air_air (vertical crosslink sensitivity information : Z) (altitude : list field) : list field :=
  [(5, 0); (1, vertical); (1, crosslink); (1, 0); (3, sensitivity); (2, 0); (4, information); (2, 0)] ++ altitude.
Definition air_air_long (vertical sensitivity information : Z) (altitude mv : list field) : list field :=
  [(5, 16); (1, vertical); (2, 0); (3, sensitivity); (2, 0); (4, information); (2, 0)] ++ altitude ++ mv.

(* an all-call reply: format, capability, address announced *)
Definition all_call (capability icao : Z) : list field := [(5, 11); (3, capability); (24, icao)].

(* ---- registers ---- *)
(* a number with a sign, in two's complement on w bits *)
Definition signed_field (w z : Z) : list field := [(1, flag (z <? 0)); (w - 1, z mod 2 ^ (w - 1))].

(* BDS 5,0, every field with its status bit: roll (45/256 degree), track (90/512 degree), ground speed (2 kt),
   track rate (8/256 degree per second), true airspeed (2 kt) *)
Definition track_register (roll track speed rate airspeed : Z) : list field :=
  [(1, 1)] ++ signed_field 10 roll ++ [(1, 1)] ++ signed_field 11 track ++ [(1, 1); (10, speed); (1, 1)] ++
  signed_field 10 rate ++ [(1, 1); (10, airspeed)].

(* BDS 6,0: magnetic heading (90/512 degree), indicated airspeed (1 kt), Mach number (0.004), barometric and
   inertial vertical rates (32 ft/min) *)
Definition heading_register (heading airspeed mach baro inertial : Z) : list field :=
  [(1, 1)] ++ signed_field 11 heading ++ [(1, 1); (10, airspeed); (1, 1); (10, mach); (1, 1)] ++
  signed_field 10 baro ++ [(1, 1)] ++ signed_field 10 inertial.

(* BDS 2,0: its number, then eight characters *)
Definition identification_register (codes : list Z) : list field := (8, 0x20) :: List.map (fun c => (6, c)) codes.
