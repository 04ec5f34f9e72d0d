(* The four entry points of the library as programs on a shared memory: ReadMessage and CheckCRC
   (pkg/modes/reader), ReadADSBMessage (pkg/adsb/reader), ReadCommBMessage (pkg/commb), with every
   function below them that allocates or writes bytes: computeParity, ReadMessageACAS, ReadMessageCommB,
   ReadMessageCommD, ReadMessageExtendedSquitter, the readers of BDS 0,8 and 2,0, and the two readers of
   positions of type 0.  The functions that only read their data are their models of Gen applied to the
   bytes, which are all read first. *)
From Verif Require Import GoBase.
From Verif.Gen Require bitutils adsb modes_common modes_fields modes_messages bds_encoding bds00 bds05 bds07 bds08 bds08_fields bds10 bds17
  bds20 bds30 bds40 bds44 bds45 bds50 bds60 adsb_airborne_position adsb_airborne_velocity
  adsb_aircraft_identification_and_category adsb_aircraft_operational_status
  adsb_aircraft_status adsb_no_position_information adsb_surface_position
  adsb_target_state_and_status.
From Verif.Model Require Import Crc ModesReader Memory.
From Verif.Model Require AdsbReader CommbReader.
Local Open Scope Z_scope.

(* the package variables that are slices: pkg/modes/reader/crc.go:106 and pkg/bds/encoding/identification.go:3 *)
Definition globals : memory := [crcPolynomial; bds_encoding.IdentificationCharacterCoding].
Definition polynomial : slice := mkSlice 0 0 3.
Definition characterCoding : slice := mkSlice 1 0 64.

Definition slen (s : slice) : Z := Z.of_nat (size s).

(* for i := from; n times: body i *)
Fixpoint repeatFrom (n : nat) (from : Z) (body : Z -> prog unit) : prog unit :=
  match n with
  | O => Ret tt
  | S n => _ <- body from ;; repeatFrom n (from + 1) body
  end.

(* all the bytes of a slice *)
Fixpoint bytesFrom (s : slice) (i : Z) (n : nat) : prog (list Z) :=
  match n with
  | O => Ret []
  | S n => v <- load s i ;; r <- bytesFrom s (i + 1) n ;; Ret (v :: r)
  end.
Definition allBytes (s : slice) : prog (list Z) := bytesFrom s 0 (size s).

(* a result of the models: (value, nil), (nil, err) or a panic *)
Definition returns {A : Type} (r : res A) : prog (res A) :=
  match r with Panic => Panics | _ => Ret r end.

(* a function that only reads [s] *)
Definition reading {A : Type} (f : list Z -> res A) (s : slice) : prog (res A) :=
  l <- allBytes s ;; returns (f l).

(* if err != nil { return nil, err } *)
Definition check {A B : Type} (r : res A) (k : A -> prog (res B)) : prog (res B) :=
  match r with Ok a => k a | Err e => Ret (Err e) | Panic => Panics end.

Definition pmap {A B : Type} (f : A -> B) (p : prog (res A)) : prog (res B) :=
  r <- p ;; match r with Ok a => Ret (Ok (f a)) | Err e => Ret (Err e) | Panic => Panics end.

(* ---- pkg/modes/reader/crc.go ---- *)

(* crc.go:126-151: the body of the loop on bit i *)
Definition parityBody (data crc : slice) (i : Z) : prog unit :=
  c <- load crc 0 ;;
  let invert := negb (Z.land c 0x80 =? 0) in
  c <- load crc 0 ;;
  _ <- store crc 0 (u8 (Z.shiftl c 1)) ;;
  _ <- repeatFrom 2 1 (fun b =>
         x <- load crc (b - 1) ;;
         y <- load crc b ;;
         _ <- store crc (b - 1) (Z.lor x (Z.land (Z.shiftr y 7) 0x1)) ;;
         y <- load crc b ;;
         store crc b (u8 (Z.shiftl y 1))) ;;
  let byteIdx := Z.quot (slen polynomial * 8 + i) 8 in
  let bitShift := 7 - Z.rem i 8 in
  _ <- (if byteIdx <? slen data then
          x <- load crc (slen crc - 1) ;;
          d <- load data byteIdx ;;
          store crc (slen crc - 1) (Z.lor x (Z.land (Z.shiftr d bitShift) 0x1))
        else Ret tt) ;;
  if invert then
    repeatFrom 3 0 (fun b =>
      x <- load crc b ;;
      p <- load polynomial b ;;
      store crc b (Z.lxor x p))
  else Ret tt.

(* crc.go:115-154 computeParity *)
Definition computeParity (data : slice) : prog Z :=
  crc <- make (size polynomial) ;;
  _ <- repeatFrom 3 0 (fun i => v <- load data i ;; store crc i v) ;;
  _ <- repeatFrom (Z.to_nat (slen data * 8)) 0 (parityBody data crc) ;;
  c0 <- load crc 0 ;;
  c1 <- load crc 1 ;;
  c2 <- load crc 2 ;;
  Ret (bitutils.Pack3Bytes c0 c1 c2).

(* crc.go:43-62 checkCRCDF11 *)
Definition checkCRCDF11 (data : slice) (allowed : AddressMap) : prog (res Z) :=
  body <- cut data 0 4 ;;
  contentParity <- computeParity body ;;
  d4 <- load data 4 ;;
  d5 <- load data 5 ;;
  d6 <- load data 6 ;;
  let interrogatorIdentifier := Z.lxor contentParity (bitutils.Pack3Bytes d4 d5 d6) in
  Ret (if (len allowed >? 0) then
         if negb (hasKey allowed interrogatorIdentifier) then
           Err "the message parity resolves to an unknown Interrogator Identifier"%string
         else Ok interrogatorIdentifier
       else Ok interrogatorIdentifier).

(* crc.go:64-78 checkCRCDF17And18 *)
Definition checkCRCDF17And18 (data : slice) : prog (res Z) :=
  d1 <- load data 1 ;;
  d2 <- load data 2 ;;
  d3 <- load data 3 ;;
  let messageICAO := bitutils.Pack3Bytes d1 d2 d3 in
  body <- cut data 0 11 ;;
  contentParity <- computeParity body ;;
  d11 <- load data 11 ;;
  d12 <- load data 12 ;;
  d13 <- load data 13 ;;
  Ret (if negb (contentParity =? bitutils.Pack3Bytes d11 d12 d13) then
         Err "the message does not have a valid CRC"%string
       else Ok messageICAO).

(* crc.go:80-100 checkCRCOther *)
Definition checkCRCOther (data : slice) (allowed : AddressMap) : prog (res Z) :=
  let messageLength := slen data in
  body <- cut data 0 (messageLength - 3) ;;
  contentParity <- computeParity body ;;
  p0 <- load data (messageLength - 3) ;;
  p1 <- load data (messageLength - 2) ;;
  p2 <- load data (messageLength - 1) ;;
  let address := Z.lxor contentParity (bitutils.Pack3Bytes p0 p1 p2) in
  Ret (if (len allowed >? 0) then
         if negb (hasKey allowed address) then
           Err "the message parity resolves to an unknown Address"%string
         else Ok address
       else Ok address).

(* crc.go:27-41 CheckCRC *)
Definition CheckCRC (message : ModeSMessage) (data : slice)
    (allowedAddresses allowedInterrogatorIdentifiers : AddressMap) : prog (res Z) :=
  let df := GetDownLinkFormat message in
  if df =? 11 then checkCRCDF11 data allowedInterrogatorIdentifiers
  else if (df =? 17) || (df =? 18) then checkCRCDF17And18 data
  else checkCRCOther data allowedAddresses.

(* ---- pkg/modes/reader/reader.go ---- *)

(* A message in memory: its fields that are slices (those of the embedded MessageData, and the content
   of the messages that have one), and the other ones, kept in a message whose slices are empty. *)
Record stored := mkStored {
  others : ModeSMessage;
  payload : slice;
  parity : slice;
  body : option slice }.

Definition withData (d : modes_common.MessageData) (payload parity : list Z) : modes_common.MessageData :=
  {| modes_common.MessageData_DownLinkFormat := modes_common.MessageData_DownLinkFormat d;
     modes_common.MessageData_FirstField := modes_common.MessageData_FirstField d;
     modes_common.MessageData_Payload := payload;
     modes_common.MessageData_Parity := parity |}.

(* the message with these slices *)
Definition withBytes (m : ModeSMessage) (payload parity body : list Z) : ModeSMessage :=
  match m with
  | MDF0 (modes_messages.mkMessageDF0 d a b c e f g) =>
      MDF0 (modes_messages.mkMessageDF0 (withData d payload parity) a b c e f g)
  | MDF4 (modes_messages.mkMessageDF4 d a b c e f) =>
      MDF4 (modes_messages.mkMessageDF4 (withData d payload parity) a b c e f)
  | MDF5 (modes_messages.mkMessageDF5 d a b c e) =>
      MDF5 (modes_messages.mkMessageDF5 (withData d payload parity) a b c e)
  | MDF11 (modes_messages.mkMessageDF11 d a b) =>
      MDF11 (modes_messages.mkMessageDF11 (withData d payload parity) a b)
  | MDF16 (modes_messages.mkMessageDF16 d a b c e f _) =>
      MDF16 (modes_messages.mkMessageDF16 (withData d payload parity) a b c e f body)
  | MDF17 (modes_messages.mkMessageDF17 d a b _) =>
      MDF17 (modes_messages.mkMessageDF17 (withData d payload parity) a b body)
  | MDF18 (modes_messages.mkMessageDF18 d a b _) =>
      MDF18 (modes_messages.mkMessageDF18 (withData d payload parity) a b body)
  | MDF19 (modes_messages.mkMessageDF19 d a) =>
      MDF19 (modes_messages.mkMessageDF19 (withData d payload parity) a)
  | MDF20 (modes_messages.mkMessageDF20 d a b c e f _) =>
      MDF20 (modes_messages.mkMessageDF20 (withData d payload parity) a b c e f body)
  | MDF21 (modes_messages.mkMessageDF21 d a b c e _) =>
      MDF21 (modes_messages.mkMessageDF21 (withData d payload parity) a b c e body)
  | MDF24 (modes_messages.mkMessageDF24 d a b _) =>
      MDF24 (modes_messages.mkMessageDF24 (withData d payload parity) a b body)
  end.

(* the message that a user sees in the memory *)
Definition seen (m : memory) (x : stored) : ModeSMessage :=
  withBytes (others x) (content m (payload x)) (content m (parity x))
            (match body x with Some s => content m s | None => [] end).

(* message_acas.go:19-36, message_comm_b.go:20-29, message_extended_squitter.go:22-31 (from 3, 7 bytes) and
   message_comm_d.go:22-31 (from 0, 10 bytes): the content is copied to a new slice *)
Definition copyBody (from : Z) (n : nat) (payload : slice) : prog slice :=
  data <- make n ;;
  _ <- repeatFrom n 0 (fun i => v <- load payload (i + from) ;; store data i v) ;;
  Ret data.

(* which content the messages of a format have *)
Definition readBody (m : ModeSMessage) (payload : slice) : prog (option slice) :=
  match m with
  | MDF16 _ | MDF17 _ | MDF18 _ | MDF20 _ | MDF21 _ => b <- copyBody 3 7 payload ;; Ret (Some b)
  | MDF24 _ => b <- copyBody 0 10 payload ;; Ret (Some b)
  | _ => Ret None
  end.

(* pkg/modes/messages/df*.go Parse*: the checks and the other fields are those of the model of Gen *)
Definition parse (df firstField : Z) (payload parity : slice)
    (f : modes_common.MessageData -> res ModeSMessage) : prog (res stored) :=
  p <- allBytes payload ;;
  q <- allBytes parity ;;
  match f {| modes_common.MessageData_DownLinkFormat := df; modes_common.MessageData_FirstField := firstField;
             modes_common.MessageData_Payload := p; modes_common.MessageData_Parity := q |} with
  | Ok m => b <- readBody m payload ;; Ret (Ok (mkStored (withBytes m [] [] []) payload parity b))
  | Err e => Ret (Err e)
  | Panic => Panics
  end.

(* pkg/modes/reader/reader.go:16-67 ReadMessage *)
Definition ReadMessage (message : slice) : prog (res stored) :=
  if negb (slen message =? 7) && negb (slen message =? 14) then
    Ret (Err "a Mode S message must be 7 or 14 bytes long"%string)
  else
    m0 <- load message 0 ;;
    payload <- cut message 1 (slen message - 3) ;;
    parity <- cut message (slen message - 3) (slen message) ;;
    let df := Z.shiftr (Z.land m0 0xF8) 3 in
    let parse := parse df (Z.land m0 0x07) payload parity in
    if df =? 0 then parse (fun d => rmap MDF0 (modes_messages.ParseDF0 d))
    else if df =? 4 then parse (fun d => rmap MDF4 (modes_messages.ParseDF4 d))
    else if df =? 5 then parse (fun d => rmap MDF5 (modes_messages.ParseDF5 d))
    else if df =? 11 then parse (fun d => rmap MDF11 (modes_messages.ParseDF11 d))
    else if df =? 16 then parse (fun d => rmap MDF16 (modes_messages.ParseDF16 d))
    else if df =? 17 then parse (fun d => rmap MDF17 (modes_messages.ParseDF17 d))
    else if df =? 18 then parse (fun d => rmap MDF18 (modes_messages.ParseDF18 d))
    else if df =? 19 then parse (fun d => rmap MDF19 (modes_messages.ParseDF19 d))
    else if df =? 20 then parse (fun d => rmap MDF20 (modes_messages.ParseDF20 d))
    else if df =? 21 then parse (fun d => rmap MDF21 (modes_messages.ParseDF21 d))
    else if (df =? 24) || (df =? 25) || (df =? 26) || (df =? 27) ||
            (df =? 28) || (df =? 29) || (df =? 30) || (df =? 31)
    then parse (fun d => rmap MDF24 (modes_messages.ParseDF24 d))
    else Ret (Err ("the downlink format " ++ dec df ++ " is not supported")%string).

(* ---- readers of registers that allocate ---- *)

(* bds08/aircraft_identification_and_category.go:80-96 and bds20/aircraft_identification.go:54-70: the text *)
Definition readIdentification (data : slice) : prog string :=
  codes <- make 8 ;;
  d1 <- load data 1 ;;
  _ <- store codes 0 (Z.shiftr (Z.land d1 0xfc) 2) ;;
  d1 <- load data 1 ;; d2 <- load data 2 ;;
  _ <- store codes 1 (u8 ((u8 (Z.shiftl (Z.land d1 3) 4)) + (Z.shiftr (Z.land d2 0xf0) 4))) ;;
  d2 <- load data 2 ;; d3 <- load data 3 ;;
  _ <- store codes 2 (u8 ((u8 (Z.shiftl (Z.land d2 0xf) 2)) + (Z.shiftr (Z.land d3 0xc0) 6))) ;;
  d3 <- load data 3 ;;
  _ <- store codes 3 (Z.land d3 0x3f) ;;
  d4 <- load data 4 ;;
  _ <- store codes 4 (Z.shiftr (Z.land d4 0xfc) 2) ;;
  d4 <- load data 4 ;; d5 <- load data 5 ;;
  _ <- store codes 5 (u8 ((u8 (Z.shiftl (Z.land d4 3) 4)) + (Z.shiftr (Z.land d5 0xf0) 4))) ;;
  d5 <- load data 5 ;; d6 <- load data 6 ;;
  _ <- store codes 6 (u8 ((u8 (Z.shiftl (Z.land d5 0xf) 2)) + (Z.shiftr (Z.land d6 0xc0) 6))) ;;
  d6 <- load data 6 ;;
  _ <- store codes 7 (Z.land d6 0x3f) ;;
  chars <- make 8 ;;
  _ <- repeatFrom 8 0 (fun i => code <- load codes i ;; c <- load characterCoding code ;; store chars i c) ;;
  l <- allBytes chars ;;
  Ret (string_of_bytes l).

(* pkg/bds/bds20/aircraft_identification.go:43-74 *)
Definition readBDS20 (data : slice) : prog (res bds20.AircraftIdentification) :=
  if negb (slen data =? 7) then
    Ret (Err "the data for Comm-B AircraftIdentification message must be 7 bytes long"%string)
  else
    d0 <- load data 0 ;;
    if negb (d0 =? 32) then Ret (Err "the first byte of data is not 0x20"%string)
    else
      text <- readIdentification data ;;
      Ret (Ok {| bds20.AircraftIdentification_Identification := text |}).

(* []byte{...} *)
Fixpoint literalFrom (s : slice) (i : Z) (l : list Z) : prog unit :=
  match l with
  | [] => Ret tt
  | v :: l => _ <- store s i v ;; literalFrom s (i + 1) l
  end.
Definition literal (l : list Z) : prog slice :=
  s <- make (List.length l) ;; _ <- literalFrom s 0 l ;; Ret s.

(* pkg/bds/bds08/aircraft_identification_and_category.go:53-102 *)
Definition readBDS08 (data : slice) : prog (res bds08.AircraftIdentificationAndCategory) :=
  if negb (slen data =? 7) then
    Ret (Err ("the data must be 7 bytes long (" ++ dec (slen data) ++ " given)")%string)
  else
    d0 <- load data 0 ;;
    let formatTypeCode := Z.shiftr (Z.land d0 0xf8) 3 in
    if (formatTypeCode <? 1) || (formatTypeCode >? 4) then
      Ret (Err ("the field FormatTypeCode must be comprised between 1 and 4 included, got " ++ dec formatTypeCode)%string)
    else
      d0 <- load data 0 ;;
      let category :=
        if formatTypeCode =? 1 then bds08_fields.IAircraftCategory_AircraftCategorySetD (Z.land d0 7)
        else if formatTypeCode =? 2 then bds08_fields.IAircraftCategory_AircraftCategorySetC (Z.land d0 7)
        else if formatTypeCode =? 3 then bds08_fields.IAircraftCategory_AircraftCategorySetB (Z.land d0 7)
        else bds08_fields.IAircraftCategory_AircraftCategorySetA (Z.land d0 7) in
      text <- readIdentification data ;;
      Ret (Ok {| bds08.AircraftIdentificationAndCategory_FormatTypeCode := formatTypeCode;
                 bds08.AircraftIdentificationAndCategory_Category := category;
                 bds08.AircraftIdentificationAndCategory_Identification := text |}).

(* pkg/adsb/aircraft_identification_and_category/aircraft_identification_and_category.go:31-43 *)
Definition readIdentificationAndCategory (adsbVersion : adsb.ADSBVersion) (data : slice)
  : prog (res adsb_aircraft_identification_and_category.AircraftIdentificationAndCategory) :=
  pmap (fun bds =>
    {| adsb_aircraft_identification_and_category.AircraftIdentificationAndCategory_AircraftIdentificationAndCategory := bds;
       adsb_aircraft_identification_and_category.AircraftIdentificationAndCategory_adsbVersion := adsbVersion |})
    (readBDS08 data).

(* pkg/adsb/no_position_information/no_position_information.go:38-55 *)
Definition readNoPositionInformation (adsbVersion : adsb.ADSBVersion) (data : slice)
  : prog (res adsb_no_position_information.NoPositionInformation) :=
  d1 <- load data 1 ;;
  d2 <- load data 2 ;;
  dataTmp <- literal [0x78; d1; d2; 0; 0; 0; 0] ;;
  pmap (fun bds =>
    {| adsb_no_position_information.NoPositionInformation_adsbVersion := adsbVersion;
       adsb_no_position_information.NoPositionInformation_FormatTypeCode := 0;
       adsb_no_position_information.NoPositionInformation_AltitudeBarometric := bds05.AirbornePosition_AltitudeInFeet bds;
       adsb_no_position_information.NoPositionInformation_NavigationIntegrityCategory := 0 |})
    (reading bds05.ReadAirbornePosition dataTmp).

(* pkg/adsb/airborne_position/airborne_position_type_0.go:37-55 *)
Definition readAirbornePositionType0 (adsbVersion : adsb.ADSBVersion) (data : slice)
  : prog (res adsb_airborne_position.AirbornePositionType0) :=
  d1 <- load data 1 ;;
  d2 <- load data 2 ;;
  d3 <- load data 3 ;;
  d4 <- load data 4 ;;
  d5 <- load data 5 ;;
  d6 <- load data 6 ;;
  dataTmp <- literal [0xB0; d1; d2; d3; d4; d5; d6] ;;
  pmap (fun bds =>
    {| adsb_airborne_position.AirbornePositionType0_AirbornePosition :=
         {| bds05.AirbornePosition_FormatTypeCode := 0;
            bds05.AirbornePosition_SurveillanceStatus := bds05.AirbornePosition_SurveillanceStatus bds;
            bds05.AirbornePosition_SingleAntennaFlag := bds05.AirbornePosition_SingleAntennaFlag bds;
            bds05.AirbornePosition_AltitudeSource := bds05.AirbornePosition_AltitudeSource bds;
            bds05.AirbornePosition_AltitudeReportMethod := bds05.AirbornePosition_AltitudeReportMethod bds;
            bds05.AirbornePosition_AltitudeInFeet := bds05.AirbornePosition_AltitudeInFeet bds;
            bds05.AirbornePosition_Time := bds05.AirbornePosition_Time bds;
            bds05.AirbornePosition_CPRFormat := bds05.AirbornePosition_CPRFormat bds;
            bds05.AirbornePosition_EncodedLatitude := bds05.AirbornePosition_EncodedLatitude bds;
            bds05.AirbornePosition_EncodedLongitude := bds05.AirbornePosition_EncodedLongitude bds |};
       adsb_airborne_position.AirbornePositionType0_NavigationIntegrityCategory := 0;
       adsb_airborne_position.AirbornePositionType0_adsbVersion := adsbVersion |})
    (reading bds05.ReadAirbornePosition dataTmp).

(* ---- pkg/adsb/reader/reader.go:33-105 ReadADSBMessage ---- *)
Definition ReadADSBMessage (adsbLevel : adsb.ADSBVersion) (nicSupplementA nicSupplementC : bool)
    (data : slice) : prog (res AdsbReader.Message) :=
  if negb (slen data =? 7) then
    Ret (Err "the data for ADSB message must be 7 bytes long"%string)
  else
    d0 <- load data 0 ;;
    let formatTypeCode := Z.shiftr (Z.land d0 0xF8) 3 in
    if formatTypeCode =? 0 then
      d2 <- load data 2 ;;
      d3 <- load data 3 ;;
      d4 <- load data 4 ;;
      d5 <- load data 5 ;;
      d6 <- load data 6 ;;
      if (Z.land d2 0x0F =? 0) && (d3 =? 0) && (d4 =? 0) && (d5 =? 0) && (d6 =? 0) then
        pmap AdsbReader.ANoPosition (readNoPositionInformation adsbLevel data)
      else
        pmap AdsbReader.AAirborneType0 (readAirbornePositionType0 adsbLevel data)
    else if (1 <=? formatTypeCode) && (formatTypeCode <=? 4) then
      pmap AdsbReader.AIdentification (readIdentificationAndCategory adsbLevel data)
    else
      (* the other readers only read *)
      reading (AdsbReader.ReadADSBMessage adsbLevel nicSupplementA nicSupplementC) data.

(* ---- pkg/commb/reader.go:26-105 ReadCommBMessage ---- *)
Definition tryAppend {A : Type} (inj : A -> CommbReader.Message) (p : prog (res A)) (messages : list CommbReader.Message)
  : prog (list CommbReader.Message) :=
  r <- p ;;
  match r with
  | Ok m => Ret (messages ++ [inj m])%list
  | Err _ => Ret messages
  | Panic => Panics
  end.

Definition exclusively {A : Type} (inj : A -> CommbReader.Message) (p : prog (res A)) (k : prog (res (list CommbReader.Message)))
  : prog (res (list CommbReader.Message)) :=
  r <- p ;;
  match r with
  | Ok m => match CommbReader.Message_CheckCoherency (inj m) with
            | Ok _ => Ret (Ok [inj m])
            | Err _ => k
            | Panic => Panics
            end
  | Err _ => k
  | Panic => Panics
  end.

Definition ReadCommBMessage (data : slice) : prog (res (list CommbReader.Message)) :=
  if negb (slen data =? 7) then
    Ret (Err "the data for Comm-B message must be 7 bytes long"%string)
  else
    r <- reading bds00.ReadNoMessageAvailable data ;;
    match r with
    | Ok m => Ret (Ok [CommbReader.B00 m])
    | Panic => Panics
    | Err _ =>
        exclusively CommbReader.B07 (reading bds07.ReadStatus data) (
        exclusively CommbReader.B20 (readBDS20 data) (
        let messages := [] in
        messages <- tryAppend CommbReader.B10 (reading bds10.ReadDataLinkCapabilityReport data) messages ;;
        messages <- tryAppend CommbReader.B17 (reading bds17.ReadCommonUsageGICBCapabilityReport data) messages ;;
        messages <- tryAppend CommbReader.B30 (reading bds30.ReadACASResolutionAdvisory data) messages ;;
        messages <- tryAppend CommbReader.B40 (reading bds40.ReadSelectedVerticalIntention data) messages ;;
        messages <- tryAppend CommbReader.B44 (reading bds44.ReadMeteorologicalRoutineAirReport data) messages ;;
        messages <- tryAppend CommbReader.B45 (reading bds45.ReadMeteorologicalHazardReport data) messages ;;
        messages <- tryAppend CommbReader.B50 (reading bds50.ReadTrackAndTurnReport data) messages ;;
        messages <- tryAppend CommbReader.B60 (reading bds60.ReadHeadingAndSpeedReport data) messages ;;
        returns (CommbReader.keepCoherent messages)))
    end.

(* ---- calls of the library ---- *)
Inductive call : Type :=
| CallReadMessage (data : slice)
| CallCheckCRC (message : ModeSMessage) (data : slice) (addresses interrogators : AddressMap)
| CallReadADSB (level : adsb.ADSBVersion) (nicA nicC : bool) (data : slice)
| CallReadCommB (data : slice).

Inductive answer : Type :=
| AnswerMessage (r : res stored)
| AnswerCRC (r : res Z)
| AnswerADSB (r : res AdsbReader.Message)
| AnswerCommB (r : res (list CommbReader.Message)).

Definition program (c : call) : prog answer :=
  match c with
  | CallReadMessage s => r <- ReadMessage s ;; Ret (AnswerMessage r)
  | CallCheckCRC m s a i => r <- CheckCRC m s a i ;; Ret (AnswerCRC r)
  | CallReadADSB l a c s => r <- ReadADSBMessage l a c s ;; Ret (AnswerADSB r)
  | CallReadCommB s => r <- ReadCommBMessage s ;; Ret (AnswerCommB r)
  end.
