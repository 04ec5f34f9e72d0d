(* What an aircraft sends: extended squitters (DF17) written field by field, from the first bit transmitted to
   the last (Annex 10 vol. IV 3.1.2.8.6; Doc 9871 Tables A-2-5, A-2-6, A-2-8, A-2-9). *)
From Verif Require Import GoBase Bits.
From Verif.Spec Require Import Altitude Crc Identification.
From Verif.Gen Require modes_messages adsb_airborne_position bds05.
From Verif.Model Require Import Crc ModesReader AdsbReader.
Local Open Scope Z_scope.

(* a field: its width in bits, and the number it holds *)
Definition field : Type := Z * Z.
Definition width (l : list field) : Z := List.fold_right (fun f acc => fst f + acc) 0 l.
(* the number written by fields one after the other *)
Definition packed (l : list field) : Z := List.fold_left (fun acc f => acc * 2 ^ fst f + snd f) l 0.
(* each number fits in its field *)
Definition fits (l : list field) : Prop := Forall (fun f => 0 <= fst f /\ 0 <= snd f < 2 ^ fst f) l.

(* a number on n bytes, the most significant first *)
Fixpoint octets_of (n : nat) (z : Z) : list Z :=
  match n with O => [] | S k => octets_of k (z / 256) ++ [z mod 256] end.

(* the bytes of a list of fields, when its width is a number of bytes *)
Definition message (l : list field) : list Z := octets_of (Z.to_nat (width l / 8)) (packed l).

(* an extended squitter: the format 17, the capability of the transponder, its address, 56 bits of payload, and
   the parity of what precedes *)
Definition header (capability icao : Z) : list field := [(5, 17); (3, capability); (24, icao)].
Definition Squitter (capability icao : Z) (payload : list field) (frame : list Z) : Prop :=
  fits (header capability icao) /\ fits payload /\ width payload = 56 /\
  exists p, Parity (message (header capability icao ++ payload)) p /\
    frame = message (header capability icao ++ payload ++ [(24, p)]).

(* reading a squitter with the library: the frame is read, its parity is right and gives the address, and its
   payload is read *)
Definition received (version : Z) (nicA nicC : bool) (frame : list Z) (icao : Z) (m : AdsbReader.Message) : Prop :=
  exists d, ReadMessage frame = Ok (MDF17 d) /\ CheckCRC (MDF17 d) frame [] [] = Ok icao /\
    ReadADSBMessage version nicA nicC (modes_messages.MessageDF17_MessageExtendedSquitter d) = Ok m.

(* ---- payloads ---- *)
Definition flag (b : bool) : Z := if b then 1 else 0.

(* the 12 bits of an altitude: in steps of 25 ft, or by the pulses of Mode C *)
Inductive altitude_fields : Z -> list field -> Prop :=
| altitude_25 k : 0 <= k < 2048 -> altitude_fields (25 * k - 1000) [(7, k / 16); (1, 1); (4, k mod 16)]
| altitude_100 feet d2 d4 a1 a2 a4 b1 b2 b4 c1 c2 c4 :
    Gillham false d2 d4 a1 a2 a4 b1 b2 b4 c1 c2 c4 feet ->
    altitude_fields feet [(1, flag c1); (1, flag a1); (1, flag c2); (1, flag a2); (1, flag c4); (1, flag a4);
                          (1, flag b1); (1, 0); (1, flag b2); (1, flag d2); (1, flag b4); (1, flag d4)].

(* an airborne position: type code, surveillance status, antenna flag, altitude, time, format and coordinates *)
Definition airborne_payload (tc status antenna : Z) (altitude : list field) (time : Z) (odd : bool) (lat lon : Z) : list field :=
  [(5, tc); (2, status); (1, antenna)] ++ altitude ++ [(1, time); (1, flag odd); (17, lat); (17, lon)].

(* a surface position: type code, movement, track and its status, time, format and coordinates *)
Definition surface_payload (tc movement : Z) (track_valid : bool) (track time : Z) (odd : bool) (lat lon : Z) : list field :=
  [(5, tc); (7, movement); (1, flag track_valid); (7, track); (1, time); (1, flag odd); (17, lat); (17, lon)].

(* an identification: type code, category, eight characters *)
Definition identification_payload (tc category : Z) (codes : list Z) : list field :=
  [(5, tc); (3, category)] ++ List.map (fun c => (6, c)) codes.

(* ---- what the library tells ---- *)
Definition airborne_part (m : adsb_airborne_position.Message) : bds05.AirbornePosition :=
  match m with
  | adsb_airborne_position.IMessage_AirbornePositionType0 x => adsb_airborne_position.AirbornePositionType0_AirbornePosition x
  | adsb_airborne_position.IMessage_AirbornePositionV0 x => adsb_airborne_position.AirbornePositionV0_AirbornePosition x
  | adsb_airborne_position.IMessage_AirbornePositionV1 x => adsb_airborne_position.AirbornePositionV1_AirbornePosition x
  | adsb_airborne_position.IMessage_AirbornePositionV2 x => adsb_airborne_position.AirbornePositionV2_AirbornePosition x
  end.

(* a ground speed: subtype, intent change, IFR capability, navigation uncertainty; components to the west or east and
   to the south or north; source, direction and magnitude of the vertical rate; difference from the barometric altitude *)
Definition velocity_payload (subtype intent ifr nuc : Z) (west : bool) (ew : Z) (south : bool) (ns : Z)
  (source : Z) (down : bool) (rate : Z) (below : bool) (difference : Z) : list field :=
  [(5, 19); (3, subtype); (1, intent); (1, ifr); (3, nuc); (1, flag west); (10, ew); (1, flag south); (10, ns);
   (1, source); (1, flag down); (9, rate); (2, 0); (1, flag below); (7, difference)].

(* the velocity of an aircraft that moves by e steps of speed to the east and n to the north (to the west and to the
   south when negative), climbs by rate steps of 64 ft/min, and whose geometric altitude is difference steps of
   25 ft above its barometric altitude *)
Definition velocity_of (subtype intent ifr nuc e n source rate difference : Z) : list field :=
  velocity_payload subtype intent ifr nuc (e <? 0) (Z.abs e + 1) (n <? 0) (Z.abs n + 1)
    source (rate <? 0) (Z.abs rate + 1) (difference <? 0) (Z.abs difference + 1).

(* an emergency: type 28, subtype 1, the state and the 13 bits of the Mode A code *)
Definition emergency_payload (state code : Z) : list field := [(5, 28); (3, 1); (3, state); (13, code); (32, 0)].
