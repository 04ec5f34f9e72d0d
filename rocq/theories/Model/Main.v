(* Model of cmd/main.go:21-79 (main, readFile), with what they use of the Go
   library: flag (FlagSet.parseOne, the two flags of main; parsing an integer
   is a parameter, strconv.ParseInt(s, 0, 64)), os.Open and bufio.Scanner with
   ScanLines and its 64 KiB limit.  Errors when closing a file are not
   modelled; what goes to the standard error output is not modelled. *)
From Verif Require Import GoBase.
From Verif.Gen Require adsb.
From Verif.Model Require Import Cmd.
Local Open Scope Z_scope.

(* how the process ends: os.Exit or return from main, or a panic; and what was
   printed on the standard output before *)
Inductive outcome : Type :=
| Exit (code : Z) (out : string)
| Crash (out : string).

(* os.Open and the reads that follow: [NoFile] if the file cannot be opened,
   otherwise the bytes read and whether reading them ended by an error *)
Inductive file : Type :=
| NoFile
| File (content : string) (readFails : bool).

(* ---- bufio.Scanner ---- *)

(* the tokens of bufio.ScanLines before dropCR: the pieces between newlines,
   the last one only if it is not empty *)
Fixpoint rawLines (s : string) : list string :=
  match s with
  | EmptyString => []
  | String c r =>
      if Ascii.eqb c (Ascii.ascii_of_nat 10) then EmptyString :: rawLines r
      else match rawLines r with
           | [] => [String c EmptyString]
           | l :: ls =>
               (* [r] starts with a newline iff its first line is empty *)
               String c l :: ls
           end
  end.

(* bufio.dropCR *)
Fixpoint dropCR (s : string) : string :=
  match s with
  | EmptyString => EmptyString
  | String c EmptyString => if Ascii.eqb c (Ascii.ascii_of_nat 13) then EmptyString else s
  | String c r => String c (dropCR r)
  end.

(* bufio.MaxScanTokenSize: a line and its newline must fit in the buffer, a
   last line without a newline must leave room in it: Scan stops with
   ErrTooLong when 65536 bytes hold no newline *)
Definition maxScanTokenSize : Z := 65536.

Definition tooLong (l : string) : bool := maxScanTokenSize <=? Z.of_nat (String.length l).

(* cmd/main.go:52-79 readFile: None stands for log.Fatal *)
Definition readFile (f : file) : option (list string) :=
  match f with
  | NoFile => None
  | File content readFails =>
      let raw := rawLines content in
      if existsb tooLong raw then None
      else if readFails then None
      else Some (map dropCR raw)
  end.

(* ---- flag.Parse ---- *)

(* the loop of FlagSet.parseOne looking for '=' *)
Fixpoint cutEqual (s : string) : string * option string :=
  match s with
  | EmptyString => (EmptyString, None)
  | String c r =>
      if Ascii.eqb c "="%char then (EmptyString, Some r)
      else let '(a, v) := cutEqual r in (String c a, v)
  end.

Inductive parsed : Type :=
| ParseDone (fileName : string) (level : Z) (rest : list string)
| ParseExit (code : Z). (* ExitOnError: 0 after -h or -help, otherwise 2 *)

(* FlagSet.Parse with the flags of cmd/main.go:23-24 *)
Fixpoint parseFlags (parseInt : string -> option Z) (args : list string) (fileName : string) (level : Z) : parsed :=
  match args with
  | [] => ParseDone fileName level []
  | s :: rest =>
      match s with
      | String d (String c t) =>
          if negb (Ascii.eqb d "-"%char) then ParseDone fileName level args
          else if Ascii.eqb c "-"%char && String.eqb t EmptyString then ParseDone fileName level rest
          else
            let name := if Ascii.eqb c "-"%char then t else String c t in
            match name with
            | EmptyString => ParseExit 2
            | String n0 n1 =>
                if Ascii.eqb n0 "-"%char || Ascii.eqb n0 "="%char then ParseExit 2
                else
                  let '(a, v) := cutEqual n1 in
                  let name := String n0 a in
                  if String.eqb name "file"%string then
                    match v with
                    | Some x => parseFlags parseInt rest x level
                    | None =>
                        match rest with
                        | x :: rest' => parseFlags parseInt rest' x level
                        | [] => ParseExit 2
                        end
                    end
                  else if String.eqb name "adsb_reader_level"%string then
                    match v with
                    | Some x =>
                        match parseInt x with
                        | Some z => parseFlags parseInt rest fileName z
                        | None => ParseExit 2
                        end
                    | None =>
                        match rest with
                        | x :: rest' =>
                            match parseInt x with
                            | Some z => parseFlags parseInt rest' fileName z
                            | None => ParseExit 2
                            end
                        | [] => ParseExit 2
                        end
                    end
                  else if String.eqb name "help"%string || String.eqb name "h"%string then ParseExit 0
                  else ParseExit 2
            end
      | _ => ParseDone fileName level args
      end
  end.

(* ---- main ---- *)

(* cmd/main.go:40-42: the loop over the lines *)
Fixpoint processLines (process : string -> res string) (lines : list string) (out : string) : outcome :=
  match lines with
  | [] => Exit 0 out
  | l :: ls =>
      match process l with
      | Ok s => processLines process ls (out ++ s)%string
      | _ => Crash out
      end
  end.

(* cmd/main.go:21-50 main; [args] is os.Args[1:], the program name being always present *)
Definition main (ffmt : spec_float -> string) (matan2 : f64 -> f64 -> f64) (parseInt : string -> option Z)
  (open : string -> file) (args : list string) : outcome :=
  match parseFlags parseInt args EmptyString 0 with
  | ParseExit code => Exit code EmptyString
  | ParseDone fileName levelParam _ =>
      let run (level : adsb.ADSBVersion) :=
        if (0 <? Z.of_nat (String.length fileName)) then
          match readFile (open fileName) with
          | None => Exit 1 EmptyString (* log.Fatal *)
          | Some lines => processLines (fun l => processSingleLine ffmt matan2 l level) lines EmptyString
          end
        else
          match args with
          | a :: _ => processLines (fun l => processSingleLine ffmt matan2 l level) [a] EmptyString
          | [] => Exit 0 "No data provided"%string
          end in
      if levelParam =? 0 then run adsb.ADSBV0
      else if levelParam =? 1 then run adsb.ADSBV1
      else if levelParam =? 2 then run adsb.ADSBV2
      else Crash EmptyString
  end.
