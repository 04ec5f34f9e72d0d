(* What the command must print for a frame, in terms of what the library reads in it: the Mode S message, then what the frame
   contains (an advisory, an ADS-B message, the Comm-B registers it may be). *)
From Verif Require Import GoBase Bits.
From Verif.Spec Require Import Text Report Reports Command Printout.
From Verif.Gen Require acas_ra bds10.
From Verif.Model Require Import Crc ModesReader.
From Verif.Model Require AdsbReader CommbReader.
Require Import String List.
Local Open Scope string_scope.
Local Open Scope list_scope.
Local Open Scope Z_scope.

(* a register that is printed as it is: the advisories as in Spec/Reports.v; the continuation flag of 1,0 is printed from
   another field (C70) *)
Definition printable_register (m : CommbReader.Message) : Prop :=
  (forall ra, commb_advisory m = Some ra -> printable_advisory ra) /\
  (forall x, m = CommbReader.B10 x -> bds10.DataLinkCapabilityReport_ContinuationFlag x = bds10.DataLinkCapabilityReport_OverlayCommandCapability x).

(* the registers one after the other, with a line between two of them *)
Fixpoint registers_rows (ffmt : spec_float -> string) (l : list CommbReader.Message) : list row :=
  match l with
  | [] => []
  | m :: [] => commb_rows ffmt m
  | m :: l' => commb_rows ffmt m ++ [("-------------------------------", heading)] ++ registers_rows ffmt l'
  end.

(* the registers in a Comm-B reply *)
Definition register_content (ffmt : spec_float -> string) (l : list CommbReader.Message) : list row :=
  match l with [] => [("Unknown message format", heading)] | _ => registers_rows ffmt l end.

Inductive content (ffmt : spec_float -> string) (matan2 : f64 -> f64 -> f64) (level : Z) (frame : list Z) : list row -> Prop :=
| content_advisory ra : bits 1 5 frame = 16 -> bits 33 40 frame = 0x30 ->
    acas_ra.ReadResolutionAdvisory (octets 6 11 frame) = Ok ra -> printable_advisory ra ->
    content ffmt matan2 level frame ((" -- ACAS Information --", heading) :: resolution_advisory_rows ffmt ra)
| content_adsb m : bits 1 5 frame = 17 \/ bits 1 5 frame = 18 /\ (bits 6 8 frame = 0 \/ bits 6 8 frame = 1) ->
    AdsbReader.ReadADSBMessage level false false (octets 5 11 frame) = Ok m ->
    (forall ra, adsb_advisory m = Some ra -> printable_advisory ra) ->
    content ffmt matan2 level frame ((" -- ADSB Information --", heading) :: adsb_rows ffmt matan2 m)
| content_tisb : bits 1 5 frame = 18 -> 2 <= bits 6 8 frame <= 5 ->
    content ffmt matan2 level frame [(" -- TISB Information --", heading); ("Not implemented", heading)]
| content_reserved : bits 1 5 frame = 18 -> 6 <= bits 6 8 frame -> content ffmt matan2 level frame []
| content_registers l : bits 1 5 frame = 20 \/ bits 1 5 frame = 21 ->
    CommbReader.ReadCommBMessage (octets 5 11 frame) = Ok l -> l <> [] -> Forall printable_register l ->
    content ffmt matan2 level frame ((" -- Comm-B Information --", heading) :: registers_rows ffmt l)
| content_unknown : bits 1 5 frame = 20 \/ bits 1 5 frame = 21 -> CommbReader.ReadCommBMessage (octets 5 11 frame) = Ok [] ->
    content ffmt matan2 level frame [(" -- Comm-B Information --", heading); ("Unknown message format", heading)]
| content_none : bits 1 5 frame < 16 \/ bits 1 5 frame = 19 \/ 24 <= bits 1 5 frame ->
    content ffmt matan2 level frame [("", heading)].

(* the words before the address: an all-call reply names the interrogator *)
Definition origin (frame : list Z) : string := if bits 1 5 frame =? 11 then "In reply to interrogator" else "From".

(* the rows for a line of input with a frame that the library reads and checks *)
Definition frame_rows (ffmt : spec_float -> string) (matan2 : f64 -> f64 -> f64) (level : Z) (line : string) (rows : list row) : Prop :=
  exists frame m a more, hex_text line frame /\ ReadMessage frame = Ok m /\ CheckCRC m frame [] [] = Ok a /\
    content ffmt matan2 level frame more /\ rows = printout line (origin frame) a (modes_rows m) more.
