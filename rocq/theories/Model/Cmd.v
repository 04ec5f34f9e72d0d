(* Model of cmd/main.go from processSingleLine down.  What is printed is a
   string; a step of printing that panics is [Panic].  main and
   readFile are in Main.v. *)
From Verif Require Import GoBase.
From Verif.Gen Require adsb acas_ra modes_common modes_fields modes_messages.
From Verif.Model Require Import Crc ModesReader.
From Verif.Model Require AdsbReader CommbReader.
Local Open Scope Z_scope.

(* encoding/hex.fromHexChar *)
Definition fromHexChar (c : ascii) : option Z :=
  let n := Z.of_nat (Ascii.nat_of_ascii c) in
  if (48 <=? n) && (n <=? 57) then Some (n - 48)
  else if (97 <=? n) && (n <=? 102) then Some (n - 87)
  else if (65 <=? n) && (n <=? 70) then Some (n - 55)
  else None.

(* encoding/hex.InvalidByteError.Error: the verb %#U of fmt (fmt.fmtUnicode) prints
   U+, the code on four hexadecimal digits and, if strconv.IsPrint, the character
   between quotes, in UTF-8 (utf8.AppendRune) *)
Definition isPrint (n : Z) : bool :=
  ((32 <=? n) && (n <? 127)) || ((161 <=? n) && (n <=? 255) && negb (n =? 173)).
Definition charOfZ (n : Z) : ascii := Ascii.ascii_of_nat (Z.to_nat n).
Definition utf8OfByte (n : Z) : string :=
  if n <? 128 then String (charOfZ n) EmptyString
  else String (charOfZ (Z.lor 0xC0 (Z.shiftr n 6))) (String (charOfZ (Z.lor 0x80 (Z.land n 0x3F))) EmptyString).
Definition invalidByte (c : ascii) : string :=
  let n := Z.of_nat (Ascii.nat_of_ascii c) in
  ("encoding/hex: invalid byte: U+00" ++ hex2 n ++ (if isPrint n then " '" ++ utf8OfByte n ++ "'" else ""))%string.

(* encoding/hex.DecodeString: pairs of digits, an error on the first bad
   character, or if one digit is left over *)
Fixpoint DecodeString (s : string) : res (list Z) :=
  match s with
  | EmptyString => Ok []
  | String c EmptyString =>
      match fromHexChar c with
      | None => Err (invalidByte c)
      | Some _ => Err "encoding/hex: odd length hex string"%string
      end
  | String c (String d s') =>
      match fromHexChar c, fromHexChar d with
      | Some a, Some b => let* r := DecodeString s' in Ok (Z.lor (Z.shiftl a 4) b :: r)
      | None, _ => Err (invalidByte c)
      | _, None => Err (invalidByte d)
      end
  end.

Definition line (s : string) : string := (s ++ nl)%string.

Section Process.
Variable ffmt : spec_float -> string.
Variable matan2 : f64 -> f64 -> f64.

(* cmd/main.go:210-231 processCommBMessage; the loop of lines 224-229 *)
Fixpoint printCommB (i : Z) (messages : list CommbReader.Message) : res string :=
  match messages with
  | [] => Ok EmptyString
  | m :: rest =>
      let sep := if i >? 0 then line "-------------------------------"%string else EmptyString in
      let* s := CommbReader.Message_ToString ffmt m in
      let* r := printCommB (i + 1) rest in
      Ok (sep ++ line s ++ r)%string
  end.

Definition processCommBMessage (data : list Z) : res string :=
  let head := line " -- Comm-B Information --"%string in
  match CommbReader.ReadCommBMessage data with
  | Err e => Ok (head ++ line e)%string
  | Panic => Panic
  | Ok messages =>
      if len messages =? 0 then Ok (head ++ line "Unknown message format"%string)%string
      else let* r := printCommB 0 messages in Ok (head ++ r)%string
  end.

(* cmd/main.go:186-198 processADSBMessage *)
Definition processADSBMessage (data : list Z) (adsbVersion : adsb.ADSBVersion) : res string :=
  let head := line " -- ADSB Information --"%string in
  match AdsbReader.ReadADSBMessage adsbVersion false false data with
  | Err e => Ok (head ++ line e)%string
  | Panic => Panic
  | Ok m => let* s := AdsbReader.Message_ToString ffmt matan2 m in Ok (head ++ line s)%string
  end.

(* cmd/main.go:143-164 postProcessMessage16 *)
Definition postProcessMessage16 (m : modes_messages.MessageDF16) : res string :=
  let head := line " -- ACAS Information --"%string in
  let acas := modes_messages.MessageDF16_MessageACAS m in
  let* b := idx acas 0 in
  let vds1 := Z.shiftr (Z.land b 0xF0) 4 in
  let vds2 := Z.land b 0x0F in
  if (vds1 =? 3) && (vds2 =? 0) then
    let* body := slice acas 1 (len acas) in
    match acas_ra.ReadResolutionAdvisory body with
    | Err e => Ok (head ++ line e)%string
    | Panic => Panic
    | Ok ra => let* s := acas_ra.ResolutionAdvisory_ToString ffmt ra in Ok (head ++ line s)%string
    end
  else
    Ok (head ++ "Unknown message type: [" ++ String (hex_digit vds1) EmptyString ++ ":" ++
        String (hex_digit vds2) EmptyString ++ "]" ++ nl)%string.

(* cmd/main.go:166-169 postProcessMessage17 *)
Definition postProcessMessage17 (m : modes_messages.MessageDF17) (v : adsb.ADSBVersion) : res string :=
  processADSBMessage (modes_messages.MessageDF17_MessageExtendedSquitter m) v.

(* cmd/main.go:171-184 postProcessMessage18 *)
Definition postProcessMessage18 (m : modes_messages.MessageDF18) (v : adsb.ADSBVersion) : res string :=
  let cf := modes_messages.MessageDF18_ControlField m in
  if (cf =? modes_fields.ControlFieldADSB) || (cf =? modes_fields.ControlFieldADSBReserved) then
    processADSBMessage (modes_messages.MessageDF18_MessageExtendedSquitter m) v
  else if (cf =? modes_fields.ControlFieldTISBFineFormat)
       || (cf =? modes_fields.ControlFieldTISBCoarseFormat)
       || (cf =? modes_fields.ControlFieldTISBReservedManagement)
       || (cf =? modes_fields.ControlFieldTISBRelayADSB) then
    Ok (line " -- TISB Information --" ++ line "Not implemented")%string
  else Ok EmptyString.

(* cmd/main.go:200-203, 205-208 postProcessMessage20, postProcessMessage21 *)
Definition postProcessMessage20 (m : modes_messages.MessageDF20) : res string :=
  processCommBMessage (modes_messages.MessageDF20_MessageCommB m).
Definition postProcessMessage21 (m : modes_messages.MessageDF21) : res string :=
  processCommBMessage (modes_messages.MessageDF21_MessageCommB m).

(* a failed type assertion x.(T) panics; cmd/main.go:119, 128-137: the
   switch on the downlink format followed by the assertion *)
Definition postProcess (m : ModeSMessage) (v : adsb.ADSBVersion) : res string :=
  let df := GetDownLinkFormat m in
  if df =? 16 then match m with MDF16 x => postProcessMessage16 x | _ => Panic end
  else if df =? 17 then match m with MDF17 x => postProcessMessage17 x v | _ => Panic end
  else if df =? 18 then match m with MDF18 x => postProcessMessage18 x v | _ => Panic end
  else if df =? 20 then match m with MDF20 x => postProcessMessage20 x | _ => Panic end
  else if df =? 21 then match m with MDF21 x => postProcessMessage21 x | _ => Panic end
  else Ok nl.

(* cmd/main.go:114-122: the line naming the interrogator or the emitter *)
Definition origin (m : ModeSMessage) (address : Z) : res string :=
  if GetDownLinkFormat m =? 11 then
    match m with
    | MDF11 _ => Ok ("In reply to interrogator: " ++ line (modes_common.ICAOAddress_ToString address))%string
    | _ => Panic
    end
  else Ok ("From: " ++ line (modes_common.ICAOAddress_ToString address))%string.

(* cmd/main.go:86-141 processSingleLine *)
Definition processSingleLine (str : string) (readerLevel : adsb.ADSBVersion) : res string :=
  let out := ("Reading: " ++ line str)%string in
  match DecodeString str with
  | Err e => Ok (out ++ "unable to convert the given text to hexadecimal values due to: " ++ e)%string
  | Panic => Panic
  | Ok binaryData =>
      match ReadMessage binaryData with
      | Err e => Ok (out ++ line e)%string
      | Panic => Panic
      | Ok messageModeS =>
          match CheckCRC messageModeS binaryData [] [] with
          | Err e => Ok (out ++ line e)%string
          | Panic => Panic
          | Ok address =>
              let* from := origin messageModeS address in
              let* text := ModeSMessage_ToString messageModeS in
              let* more := postProcess messageModeS readerLevel in
              Ok (out ++ line " -- Mode-S Information --" ++ from ++ line text ++ more ++ nl)%string
          end
      end
  end.
End Process.
