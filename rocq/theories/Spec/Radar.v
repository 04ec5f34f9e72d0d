(* A receiver of replies: it learns the addresses of the aircraft from their squitters, and keeps the altitude and the
   squawk that each of them answered last. *)
From Verif Require Import GoBase Bits.
From Verif.Spec Require Import Altitude ModeS Crc Squitter Reply.
From Verif.Gen Require modes_messages modes_fields.
From Verif.Model Require Import Crc ModesReader.
From Coq Require Import List.
Local Open Scope Z_scope.

(* ---- what an aircraft tells ---- *)

(* the replies with an altitude, and those with a squawk *)
Definition altitude_reply (frame : list Z) : Prop :=
  len frame = 7 /\ (bits 1 5 frame = 0 \/ bits 1 5 frame = 4) \/ len frame = 14 /\ (bits 1 5 frame = 16 \/ bits 1 5 frame = 20).
Definition squawk_reply (frame : list Z) : Prop :=
  len frame = 7 /\ bits 1 5 frame = 5 \/ len frame = 14 /\ bits 1 5 frame = 21.

(* any other frame, for this aircraft: neither its squitter, nor its reply with an altitude that means one, or a squawk *)
Definition foreign (icao : Z) (frame : list Z) : Prop :=
  bytes frame /\
  (forall capability payload, ~ Squitter capability icao payload frame) /\
  (forall fields, Reply fields icao frame ->
    ~ squawk_reply frame /\ (altitude_reply frame -> forall coding feet, ~ Altitude13 frame coding feet)).

(* After these frames: whether the aircraft is known (it was at the start, or a squitter told its address), and the last
   altitude and squawk it answered since then *)
Inductive told (icao : Z) (start : bool) : list (list Z) -> bool -> option (AltitudeCoding * Z) -> option string -> Prop :=
| told_nothing : told icao start [] start None None
| told_address frames frame known altitude squawk capability payload :
    told icao start frames known altitude squawk -> Squitter capability icao payload frame ->
    told icao start (frames ++ [frame]) true altitude squawk
| told_altitude frames frame known altitude squawk fields coding feet :
    told icao start frames known altitude squawk ->
    Reply fields icao frame -> altitude_reply frame -> Altitude13 frame coding feet ->
    told icao start (frames ++ [frame]) known (if known then Some (coding, feet) else altitude) squawk
| told_squawk frames frame known altitude squawk fields :
    told icao start frames known altitude squawk -> Reply fields icao frame -> squawk_reply frame ->
    told icao start (frames ++ [frame]) known altitude (if known then Some (identity13 frame) else squawk)
| told_foreign frames frame known altitude squawk :
    told icao start frames known altitude squawk -> foreign icao frame ->
    told icao start (frames ++ [frame]) known altitude squawk.

(* ---- the receiver ---- *)

Record radar := { known : list (Z * bool); altitudes : Z -> option (Z * Z); squawks : Z -> option string }.

Definition at_address {A : Type} (address : Z) (x : A) (table : Z -> option A) : Z -> option A :=
  fun icao => if icao =? address then Some x else table icao.
Definition keep_altitude (r : radar) (address method feet : Z) : radar :=
  {| known := known r; altitudes := at_address address (method, feet) (altitudes r); squawks := squawks r |}.
Definition keep_squawk (r : radar) (address : Z) (identity : modes_fields.Identity) : radar :=
  {| known := known r; altitudes := altitudes r; squawks := at_address address (modes_fields.Identity_Identity identity) (squawks r) |}.

(* on each frame: it is read, and its parity checked with the addresses known so far *)
Definition scan (r : radar) (frame : list Z) : radar :=
  match ReadMessage frame with
  | Ok m =>
      match CheckCRC m frame (known r) [] with
      | Ok address =>
          match m with
          | MDF17 _ => {| known := (address, true) :: known r; altitudes := altitudes r; squawks := squawks r |}
          | MDF0 d => keep_altitude r address (modes_messages.MessageDF0_AltitudeReportMethod d) (modes_messages.MessageDF0_Altitude d)
          | MDF4 d => keep_altitude r address (modes_messages.MessageDF4_AltitudeReportMethod d) (modes_messages.MessageDF4_Altitude d)
          | MDF16 d => keep_altitude r address (modes_messages.MessageDF16_AltitudeReportMethod d) (modes_messages.MessageDF16_Altitude d)
          | MDF20 d => keep_altitude r address (modes_messages.MessageDF20_AltitudeReportMethod d) (modes_messages.MessageDF20_Altitude d)
          | MDF5 d => keep_squawk r address (modes_messages.MessageDF5_Identity d)
          | MDF21 d => keep_squawk r address (modes_messages.MessageDF21_Identity d)
          | _ => r
          end
      | _ => r
      end
  | _ => r
  end.

Definition radar_start (addresses : list (Z * bool)) : radar :=
  {| known := addresses; altitudes := fun _ => None; squawks := fun _ => None |}.
Definition scanned (addresses : list (Z * bool)) (frames : list (list Z)) : radar := fold_left scan frames (radar_start addresses).

Definition has (icao : Z) (addresses : list (Z * bool)) : bool := existsb (fun e => fst e =? icao) addresses.
