(* Property theorems: Concurrent. Generated by tools/mkprops.py; proofs are in theories/Proofs. *)
From Verif Require Import GoBase Bits.
From Verif.Model Require Import Crc ModesReader Memory MemoryCode.
From Verif.Spec Require Import Calls.
Require Import List.
From Verif.Proofs Require Concurrent.
Local Open Scope Z_scope.

Theorem C88_concurrent_answers : forall buffers calls m ps, List.Forall (valid (memory_of buffers)) calls ->
  execution buffers calls m ps ->
  (exists private, m = (memory_of buffers ++ private)%list) /\ ~ race ps /\
  forall i c p, nth_error calls i = Some c -> nth_error ps i = Some p ->
    p <> Panics /\ (forall a, p = Ret a -> answers (memory_of buffers) m c a).
Proof. exact Concurrent.concurrent_answers. Qed.
Print Assumptions C88_concurrent_answers.

Theorem C88_concurrent_end : forall buffers calls, List.Forall (valid (memory_of buffers)) calls ->
  (forall states : nat -> memory * list (prog answer), states O = (memory_of buffers, List.map program calls) ->
     ~ (forall n, schedule (fst (states n)) (snd (states n)) (fst (states (S n))) (snd (states (S n))))) /\
  (forall m ps, execution buffers calls m ps ->
     (forall i c, nth_error calls i = Some c -> exists a, nth_error ps i = Some (Ret a)) \/
     exists m' ps', schedule m ps m' ps').
Proof. exact Concurrent.concurrent_end. Qed.
Print Assumptions C88_concurrent_end.

Theorem C88_four_calls_valid : List.Forall (valid (memory_of [klm1023])) four_calls.
Proof. exact Concurrent.four_calls_valid. Qed.
Print Assumptions C88_four_calls_valid.

Example C88_four_calls_answer : exists m a1 a2 a3 a4,
  execution [klm1023] four_calls m [Ret a1; Ret a2; Ret a3; Ret a4] /\
  answers (memory_of [klm1023]) m (CallReadMessage whole) a1 /\ a2 = AnswerCRC (Ok 0x4840D6).
Proof. exact Concurrent.four_calls_answer. Qed.
Print Assumptions C88_four_calls_answer.

Theorem C89_content_private : forall buffers calls m ps i s x b, List.Forall (valid (memory_of buffers)) calls ->
  execution buffers calls m ps ->
  nth_error calls i = Some (CallReadMessage s) -> nth_error ps i = Some (Ret (AnswerMessage (Ok x))) -> body x = Some b ->
  (List.length (memory_of buffers) <= array b)%nat /\
  forall j p, j <> i -> nth_error ps j = Some p ->
    ~ reads p (array b) /\ ~ writes p (array b) /\
    forall y b', p = Ret (AnswerMessage (Ok y)) -> body y = Some b' -> array b' <> array b.
Proof. exact Concurrent.content_private. Qed.
Print Assumptions C89_content_private.

Theorem C89_four_calls_valid : List.Forall (valid (memory_of [klm1023])) four_calls.
Proof. exact Concurrent.four_calls_valid. Qed.
Print Assumptions C89_four_calls_valid.

Example C89_four_calls_answer : exists m a1 a2 a3 a4,
  execution [klm1023] four_calls m [Ret a1; Ret a2; Ret a3; Ret a4] /\
  answers (memory_of [klm1023]) m (CallReadMessage whole) a1 /\ a2 = AnswerCRC (Ok 0x4840D6).
Proof. exact Concurrent.four_calls_answer. Qed.
Print Assumptions C89_four_calls_answer.

Theorem C90_reused_buffer_partial : forall buffers calls m ps i s x, List.Forall (valid (memory_of buffers)) calls ->
  execution buffers calls m ps ->
  nth_error calls i = Some (CallReadMessage s) -> nth_error ps i = Some (Ret (AnswerMessage (Ok x))) ->
  exists message, ModesReader.ReadMessage (content (memory_of buffers) s) = Ok message /\
  forall m', (forall a, (List.length (memory_of buffers) <= a)%nat -> List.nth a m' [] = List.nth a m []) ->
    List.length (List.nth (array s) m' []) = List.length (List.nth (array s) m []) ->
    let now := content m' s in
    seen m' x = withBytes message (octets 2 (len now - 3) now) (octets (len now - 2) (len now) now) (content_of message).
Proof. exact Concurrent.reused_buffer_partial. Qed.
Print Assumptions C90_reused_buffer_partial.

Theorem C90_reused_buffer_text_partial : forall buffers calls m ps i s x, List.Forall (valid (memory_of buffers)) calls ->
  execution buffers calls m ps ->
  nth_error calls i = Some (CallReadMessage s) -> nth_error ps i = Some (Ret (AnswerMessage (Ok x))) ->
  forall m', (forall a, (List.length (memory_of buffers) <= a)%nat -> List.nth a m' [] = List.nth a m []) ->
    List.length (List.nth (array s) m' []) = List.length (List.nth (array s) m []) ->
    ModesReader.ModeSMessage_ToString (seen m' x) = ModesReader.ModeSMessage_ToString (seen m x) /\
    GetDownLinkFormat (seen m' x) = GetDownLinkFormat (seen m x) /\
    content_of (seen m' x) = content_of (seen m x).
Proof. exact Concurrent.reused_buffer_text_partial. Qed.
Print Assumptions C90_reused_buffer_text_partial.

Theorem C90_reused_buffer_refuted : exists buffers calls m ps i s x m',
  List.Forall (valid (memory_of buffers)) calls /\ execution buffers calls m ps /\
  nth_error calls i = Some (CallReadMessage s) /\ nth_error ps i = Some (Ret (AnswerMessage (Ok x))) /\
  (forall a, (List.length (memory_of buffers) <= a)%nat -> List.nth a m' [] = List.nth a m []) /\
  List.length (List.nth (array s) m' []) = List.length (List.nth (array s) m []) /\
  seen m' x <> seen m x.
Proof. exact Concurrent.reused_buffer_refuted. Qed.
Print Assumptions C90_reused_buffer_refuted.
