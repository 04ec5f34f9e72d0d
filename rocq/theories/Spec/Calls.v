(* Calls of the library made by several goroutines on shared buffers. *)
From Verif Require Import GoBase Bits.
From Verif.Gen Require modes_common modes_messages.
From Verif.Model Require Import Crc Memory MemoryCode.
From Verif.Model Require ModesReader AdsbReader CommbReader.
Local Open Scope Z_scope.

(* the memory before the calls: the tables of the packages, and the buffers of the caller *)
Definition memory_of (buffers : list (list Z)) : memory := (globals ++ buffers)%list.

(* the slice given to a call *)
Definition argument (c : call) : slice :=
  match c with
  | CallReadMessage s => s
  | CallCheckCRC _ s _ _ => s
  | CallReadADSB _ _ _ s => s
  | CallReadCommB s => s
  end.

(* a call of a Go program: the slice is a window of an array that exists, and holds bytes; the parity is
   checked of a frame that has been read *)
Definition valid (m : memory) (c : call) : Prop :=
  (array (argument c) < List.length m)%nat /\
  (start (argument c) + size (argument c) <= List.length (List.nth (array (argument c)) m []))%nat /\
  bytes (content m (argument c)) /\
  match c with
  | CallCheckCRC message s _ _ => ModesReader.ReadMessage (content m s) = Ok message
  | _ => True
  end.

(* the answer to a call, as one sees it in the memory [now], is that of a call made alone on the memory [before] *)
Definition answers (before now : memory) (c : call) (a : answer) : Prop :=
  match c, a with
  | CallReadMessage s, AnswerMessage r => rmap (seen now) r = ModesReader.ReadMessage (content before s)
  | CallCheckCRC message s al ai, AnswerCRC r => r = Crc.CheckCRC message (content before s) al ai
  | CallReadADSB v sa sc s, AnswerADSB r => r = AdsbReader.ReadADSBMessage v sa sc (content before s)
  | CallReadCommB s, AnswerCommB r => r = CommbReader.ReadCommBMessage (content before s)
  | _, _ => False
  end.

(* the calls on these buffers can come to this state *)
Definition execution (buffers : list (list Z)) (calls : list call) (m : memory) (ps : list (prog answer)) : Prop :=
  reaches (memory_of buffers) (List.map program calls) m ps.

(* two goroutines are about to touch the same array, and one of them to write it *)
Definition race {A : Type} (ps : list (prog A)) : Prop :=
  exists i j p q a, i <> j /\ nth_error ps i = Some p /\ nth_error ps j = Some q /\
    writes p a /\ (reads q a \/ writes q a).

(* the content of a message: MessageACAS, MessageExtendedSquitter, MessageCommB or MessageCommD *)
Definition content_of (m : ModeSMessage) : list Z :=
  match m with
  | MDF16 m => modes_messages.MessageDF16_MessageACAS m
  | MDF17 m => modes_messages.MessageDF17_MessageExtendedSquitter m
  | MDF18 m => modes_messages.MessageDF18_MessageExtendedSquitter m
  | MDF20 m => modes_messages.MessageDF20_MessageCommB m
  | MDF21 m => modes_messages.MessageDF21_MessageCommB m
  | MDF24 m => modes_messages.MessageDF24_MessageCommD m
  | _ => []
  end.

(* a real squitter (identification, KLM1023), and its content as a part of the same buffer *)
Definition klm1023 : list Z := [0x8D; 0x48; 0x40; 0xD6; 0x20; 0x2C; 0xC3; 0x71; 0xC3; 0x2C; 0xE0; 0x57; 0x60; 0x98].
Definition whole : slice := mkSlice 2 0 14.
Definition part : slice := mkSlice 2 4 7.

Definition klm1023_message : ModeSMessage :=
  match ModesReader.ReadMessage klm1023 with Ok m => m | _ => MDF19 (modes_messages.mkMessageDF19 (modes_common.mkMessageData 0 0 [] []) 0) end.

Definition four_calls : list call :=
  [CallReadMessage whole; CallCheckCRC klm1023_message whole [] []; CallReadADSB 0 false false part; CallReadCommB part].

