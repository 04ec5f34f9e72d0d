(* Model of strconv.ParseInt(s, 0, 64), with which package flag reads the value of an integer
   option (flag.intValue.Set; int has 64 bits), and of what it calls: strconv.ParseUint and
   strconv.underscoreOK.  An error, of syntax or of range, is [None]: flag treats both alike.
   cmd/main.go:24 declares the only option of this kind. *)
From Verif Require Import GoBase.
Local Open Scope Z_scope.

Definition code (c : ascii) : Z := Z.of_nat (Ascii.nat_of_ascii c).

(* strconv.lower *)
Definition lower (c : ascii) : Z := Z.lor (code c) 32.

Definition isUnderscore (c : ascii) : bool := code c =? 95.

(* the switch of the loop of ParseUint: the value of a digit, before it is compared to the base *)
Definition digitOf (c : ascii) : option Z :=
  if (48 <=? code c) && (code c <=? 57) then Some (code c - 48)
  else if (97 <=? lower c) && (lower c <=? 122) then Some (lower c - 97 + 10)
  else None.

Definition maxUint64 : Z := 18446744073709551615.

(* the loop of ParseUint, from the value [n]; the sums are computed without a bound instead of
   modulo 2^64, and compared to the bound *)
Fixpoint uintLoop (base : Z) (s : string) (n : Z) : option Z :=
  match s with
  | EmptyString => Some n
  | String c r =>
      if isUnderscore c then uintLoop base r n
      else
        match digitOf c with
        | None => None
        | Some d =>
            if base <=? d then None
            else if maxUint64 / base + 1 <=? n then None
            else
              let n := n * base + d in
              if maxUint64 <? n then None else uintLoop base r n
        end
  end.

Fixpoint hasUnderscore (s : string) : bool :=
  match s with EmptyString => false | String c r => isUnderscore c || hasUnderscore r end.

(* strconv.underscoreOK *)
Inductive seen : Type := SawStart | SawDigit | SawUnderscore | SawOther.

Fixpoint underscoreLoop (hex : bool) (s : string) (saw : seen) : bool :=
  match s with
  | EmptyString => match saw with SawUnderscore => false | _ => true end
  | String c r =>
      if ((48 <=? code c) && (code c <=? 57)) || (hex && (97 <=? lower c) && (lower c <=? 102)) then
        underscoreLoop hex r SawDigit
      else if isUnderscore c then
        match saw with SawDigit => underscoreLoop hex r SawUnderscore | _ => false end
      else
        match saw with SawUnderscore => false | _ => underscoreLoop hex r SawOther end
  end.

Definition underscoreOK (s : string) : bool :=
  let s := match s with
           | String c r => if (code c =? 45) || (code c =? 43) then r else s
           | _ => s
           end in
  match s with
  | String z (String p r) =>
      if (code z =? 48) && ((lower p =? 98) || (lower p =? 111) || (lower p =? 120)) then
        underscoreLoop (lower p =? 120) r SawDigit
      else underscoreLoop false s SawStart
  | _ => underscoreLoop false s SawStart
  end.

(* strconv.ParseUint(s, 0, 64) *)
Definition ParseUint (s0 : string) : option Z :=
  match s0 with
  | EmptyString => None
  | String z r =>
      let '(base, s) :=
        if code z =? 48 then
          match r with
          | String p (String _ _ as t) =>
              if lower p =? 98 then (2, t)
              else if lower p =? 111 then (8, t)
              else if lower p =? 120 then (16, t)
              else (8, r)
          | _ => (8, r)
          end
        else (10, s0) in
      match uintLoop base s 0 with
      | None => None
      | Some n => if hasUnderscore s && negb (underscoreOK s0) then None else Some n
      end
  end.

(* strconv.ParseInt(s, 0, 64) *)
Definition ParseInt (s : string) : option Z :=
  match s with
  | EmptyString => None
  | String c r =>
      let neg := code c =? 45 in
      let u := if (code c =? 43) || neg then r else s in
      match ParseUint u with
      | None => None
      | Some un =>
          let cutoff := 9223372036854775808 in
          if negb neg && (cutoff <=? un) then None
          else if neg && (cutoff <? un) then None
          else Some (if neg then - un else un)
      end
  end.
