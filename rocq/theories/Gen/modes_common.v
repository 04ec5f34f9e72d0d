(* GENERATED by tools/go2coq.py from /repo/pkg/modes/common -- do not edit by hand.
   One Gallina definition per Go declaration; each is preceded by the file and lines it models.
   Error values are represented by their text, see DESIGN.md.
*)
From Verif Require Import GoBase.
Local Open Scope Z_scope.

(* pkg/modes/common/address.go:7 *)
Definition ICAOAddress := Z.

(* pkg/modes/common/message_data.go:4-9 *)
Record MessageData := mkMessageData {
  MessageData_DownLinkFormat : Z;
  MessageData_FirstField : Z;
  MessageData_Payload : list Z;
  MessageData_Parity : list Z }.

(* pkg/modes/common/address.go:10-15 *)
Definition ICAOAddress_ToString (address : ICAOAddress) : string :=
  (hex2 (u8 (Z.shiftr (Z.land address 0xff0000) 16)) ++ " "%string ++ hex2 (u8 (Z.shiftr (Z.land address 0xff00) 8)) ++ " "%string ++ hex2 (u8 (Z.land address 0xff)) ++ " "%string)%string.
