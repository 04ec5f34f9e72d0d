(* What the command prints for one input line, in terms of the API functions
   (ReadMessage, CheckCRC, ReadADSBMessage, ReadCommBMessage,
   ReadResolutionAdvisory) and of the bits of the frame. *)
From Verif Require Import GoBase Bits.
From Verif.Spec Require Import Text Report.
From Verif.Gen Require acas_ra modes_common.
From Verif.Model Require Import Crc ModesReader.
From Verif.Model Require AdsbReader CommbReader.
Require Import String Ascii.
Local Open Scope Z_scope.

(* ---- hexadecimal text ---- *)

Definition hex_char (c : ascii) : option Z :=
  match c with
  | "0" => Some 0 | "1" => Some 1 | "2" => Some 2 | "3" => Some 3
  | "4" => Some 4 | "5" => Some 5 | "6" => Some 6 | "7" => Some 7
  | "8" => Some 8 | "9" => Some 9
  | "A" | "a" => Some 10 | "B" | "b" => Some 11 | "C" | "c" => Some 12
  | "D" | "d" => Some 13 | "E" | "e" => Some 14 | "F" | "f" => Some 15
  | _ => None
  end%char.

(* [hex_text s l]: [s] is the hexadecimal writing of the octets [l], two digits each *)
Inductive hex_text : string -> list Z -> Prop :=
| hex_text_nil : hex_text EmptyString []
| hex_text_cons : forall a b x y s l, hex_char a = Some x -> hex_char b = Some y -> hex_text s l ->
    hex_text (String a (String b s)) (16 * x + y :: l).

(* only hexadecimal digits *)
Fixpoint hex_only (s : string) : Prop :=
  match s with
  | EmptyString => True
  | String c r => hex_char c <> None /\ hex_only r
  end.

(* [not_hex s why]: [s] is not the writing of octets, because of its first character that
   is not a digit, named by its code and, if it is printable, by itself; or because a
   digit is missing at the end *)
Inductive not_hex : string -> string -> Prop :=
| not_hex_char : forall before c after code quoted, hex_only before -> hex_char c = None ->
    hex_octet (Z.of_nat (nat_of_ascii c)) code ->
    (32 <= Z.of_nat (nat_of_ascii c) <= 126 -> quoted = (" '" ++ String c "'")%string) ->
    (Z.of_nat (nat_of_ascii c) < 32 -> quoted = EmptyString) ->
    not_hex (before ++ String c after) ("encoding/hex: invalid byte: U+00" ++ code ++ quoted)%string
| not_hex_odd : forall s, hex_only s -> Nat.Odd (String.length s) ->
    not_hex s "encoding/hex: odd length hex string"%string.

(* ---- the printed text ---- *)

Definition endl (s : string) : string := (s ++ String newline EmptyString)%string.

(* what is shown for the result of a reader: the error, or the text of the message *)
Inductive shown {A : Type} (render : A -> res string) : res A -> string -> Prop :=
| shown_err : forall e, shown render (Err e) e
| shown_ok : forall x t, render x = Ok t -> shown render (Ok x) t.

(* the Comm-B messages one after the other, with a separator between them *)
Inductive listed (ffmt : spec_float -> string) : list CommbReader.Message -> string -> Prop :=
| listed_one : forall m t, CommbReader.Message_ToString ffmt m = Ok t -> listed ffmt [m] (endl t)
| listed_more : forall m n ms t r, CommbReader.Message_ToString ffmt m = Ok t -> listed ffmt (n :: ms) r ->
    listed ffmt (m :: n :: ms) (endl t ++ endl "-------------------------------" ++ r)%string.

(* the part of the text that comes from the body of the frame *)
Inductive details (ffmt : spec_float -> string) (matan2 : f64 -> f64 -> f64) (level : Z) (frame : list Z)
  : string -> Prop :=
| details_acas : forall t, bits 1 5 frame = 16 -> bits 33 40 frame = 0x30 ->
    shown (acas_ra.ResolutionAdvisory_ToString ffmt) (acas_ra.ReadResolutionAdvisory (octets 6 11 frame)) t ->
    details ffmt matan2 level frame (endl " -- ACAS Information --" ++ endl t)%string
| details_acas_unknown : bits 1 5 frame = 16 -> bits 33 40 frame <> 0x30 ->
    details ffmt matan2 level frame
      (endl " -- ACAS Information --" ++
       endl ("Unknown message type: [" ++ String (hex_digit (bits 33 36 frame)) EmptyString ++ ":" ++
             String (hex_digit (bits 37 40 frame)) EmptyString ++ "]"))%string
| details_adsb : forall t,
    (bits 1 5 frame = 17 \/ bits 1 5 frame = 18 /\ (bits 6 8 frame = 0 \/ bits 6 8 frame = 1)) ->
    shown (AdsbReader.Message_ToString ffmt matan2) (AdsbReader.ReadADSBMessage level false false (octets 5 11 frame)) t ->
    details ffmt matan2 level frame (endl " -- ADSB Information --" ++ endl t)%string
| details_tisb : bits 1 5 frame = 18 -> 2 <= bits 6 8 frame <= 5 ->
    details ffmt matan2 level frame (endl " -- TISB Information --" ++ endl "Not implemented")%string
| details_none : bits 1 5 frame = 18 -> 6 <= bits 6 8 frame ->
    details ffmt matan2 level frame EmptyString
| details_commb : forall l t, (bits 1 5 frame = 20 \/ bits 1 5 frame = 21) ->
    CommbReader.ReadCommBMessage (octets 5 11 frame) = Ok l -> listed ffmt l t ->
    details ffmt matan2 level frame (endl " -- Comm-B Information --" ++ t)%string
| details_commb_unknown : (bits 1 5 frame = 20 \/ bits 1 5 frame = 21) ->
    CommbReader.ReadCommBMessage (octets 5 11 frame) = Ok [] ->
    details ffmt matan2 level frame (endl " -- Comm-B Information --" ++ endl "Unknown message format")%string
| details_other : (bits 1 5 frame < 16 \/ bits 1 5 frame = 19 \/ 24 <= bits 1 5 frame) ->
    details ffmt matan2 level frame (endl EmptyString).

(* the whole text for a line *)
Inductive report (ffmt : spec_float -> string) (matan2 : f64 -> f64 -> f64) (level : Z) (line : string)
  : string -> Prop :=
| report_not_hex : forall e, (forall frame, ~ hex_text line frame) -> not_hex line e ->
    report ffmt matan2 level line
      (endl ("Reading: " ++ line) ++ "unable to convert the given text to hexadecimal values due to: " ++ e)%string
| report_unreadable : forall frame e, hex_text line frame -> ReadMessage frame = Err e ->
    report ffmt matan2 level line (endl ("Reading: " ++ line) ++ endl e)%string
| report_bad_parity : forall frame m e, hex_text line frame -> ReadMessage frame = Ok m ->
    CheckCRC m frame [] [] = Err e ->
    report ffmt matan2 level line (endl ("Reading: " ++ line) ++ endl e)%string
| report_message : forall frame m address text more, hex_text line frame -> ReadMessage frame = Ok m ->
    CheckCRC m frame [] [] = Ok address -> ModeSMessage_ToString m = Ok text ->
    details ffmt matan2 level frame more ->
    report ffmt matan2 level line
      (endl ("Reading: " ++ line) ++ endl " -- Mode-S Information --" ++
       (if (bits 1 5 frame =? 11)%Z then "In reply to interrogator: " else "From: ") ++
       endl (modes_common.ICAOAddress_ToString address) ++ endl text ++ endl more)%string.
