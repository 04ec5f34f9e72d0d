(* Model of pkg/modes/reader/reader.go. *)
From Verif Require Import GoBase.
From Verif.Gen Require modes_common modes_messages.
From Verif.Model Require Import Crc.
Local Open Scope Z_scope.

(* pkg/modes/reader/reader.go:16-67 ReadMessage *)
Definition ReadMessage (message : list Z) : res ModeSMessage :=
  if negb (len message =? 7) && negb (len message =? 14) then
    Err "a Mode S message must be 7 or 14 bytes long"%string
  else
    let* m0 := idx message 0 in
    let* payload := slice message 1 (len message - 3) in
    let* parity := slice message (len message - 3) (len message) in
    let messageData :=
      {| modes_common.MessageData_DownLinkFormat := Z.shiftr (Z.land m0 0xF8) 3;
         modes_common.MessageData_FirstField := Z.land m0 0x07;
         modes_common.MessageData_Payload := payload;
         modes_common.MessageData_Parity := parity |} in
    let df := modes_common.MessageData_DownLinkFormat messageData in
    if df =? 0 then rmap MDF0 (modes_messages.ParseDF0 messageData)
    else if df =? 4 then rmap MDF4 (modes_messages.ParseDF4 messageData)
    else if df =? 5 then rmap MDF5 (modes_messages.ParseDF5 messageData)
    else if df =? 11 then rmap MDF11 (modes_messages.ParseDF11 messageData)
    else if df =? 16 then rmap MDF16 (modes_messages.ParseDF16 messageData)
    else if df =? 17 then rmap MDF17 (modes_messages.ParseDF17 messageData)
    else if df =? 18 then rmap MDF18 (modes_messages.ParseDF18 messageData)
    else if df =? 19 then rmap MDF19 (modes_messages.ParseDF19 messageData)
    else if df =? 20 then rmap MDF20 (modes_messages.ParseDF20 messageData)
    else if df =? 21 then rmap MDF21 (modes_messages.ParseDF21 messageData)
    else if (df =? 24) || (df =? 25) || (df =? 26) || (df =? 27) ||
            (df =? 28) || (df =? 29) || (df =? 30) || (df =? 31)
    then rmap MDF24 (modes_messages.ParseDF24 messageData)
    else Err ("the downlink format " ++ dec df ++ " is not supported")%string.

(* dynamic dispatch of GetName and ToString: pkg/modes/messages/df*.go *)
Definition ModeSMessage_GetName (message : ModeSMessage) : string :=
  match message with
  | MDF0 m => modes_messages.MessageDF0_GetName m
  | MDF4 m => modes_messages.MessageDF4_GetName m
  | MDF5 m => modes_messages.MessageDF5_GetName m
  | MDF11 m => modes_messages.MessageDF11_GetName m
  | MDF16 m => modes_messages.MessageDF16_GetName m
  | MDF17 m => modes_messages.MessageDF17_GetName m
  | MDF18 m => modes_messages.MessageDF18_GetName m
  | MDF19 m => modes_messages.MessageDF19_GetName m
  | MDF20 m => modes_messages.MessageDF20_GetName m
  | MDF21 m => modes_messages.MessageDF21_GetName m
  | MDF24 m => modes_messages.MessageDF24_GetName m
  end.

Definition ModeSMessage_ToString (message : ModeSMessage) : res string :=
  match message with
  | MDF0 m => Ok (modes_messages.MessageDF0_ToString m)
  | MDF4 m => Ok (modes_messages.MessageDF4_ToString m)
  | MDF5 m => Ok (modes_messages.MessageDF5_ToString m)
  | MDF11 m => Ok (modes_messages.MessageDF11_ToString m)
  | MDF16 m => Ok (modes_messages.MessageDF16_ToString m)
  | MDF17 m => modes_messages.MessageDF17_ToString m
  | MDF18 m => modes_messages.MessageDF18_ToString m
  | MDF19 m => Ok (modes_messages.MessageDF19_ToString m)
  | MDF20 m => modes_messages.MessageDF20_ToString m
  | MDF21 m => modes_messages.MessageDF21_ToString m
  | MDF24 m => modes_messages.MessageDF24_ToString m
  end.
