(* GoBase: the Go semantics the model of twuillemin/modes is written in.

   Nothing here models a particular function of the repository, except
   [PrefixMultiLine] (pkg/common/printable.go:19-30).  It fixes the meaning of
   the Go constructs that the model of each package uses:

     - integers are [Z]; a conversion to, or an arithmetic operation in, a sized
       Go type is followed by the explicit wrap-around of that type (u8, i32...);
     - a []byte is a [list Z]; indexing and slicing out of range is a run-time
       panic (result [Panic]);
     - a (T, error) result is a [res T]: [Ok v], [Err m] (m is the constant
       format string given to errors.New / fmt.Errorf), or [Panic];
     - a pointer field that may be nil is an [option]; dereferencing nil panics;
     - float32 / float64 are IEEE-754 binary32 / binary64 with round to nearest
       even, as computed by the standard library's SpecFloat.                *)
From Coq Require Export ZArith List String Bool Ascii.
From Coq Require Export Floats.SpecFloat.
From Coq Require Import DecimalString.
Export ListNotations.
Local Open Scope Z_scope.

(* ------------------------------------------------------------------ *)
(* Results.                                                            *)

Inductive res (A : Type) : Type :=
| Ok (a : A)
| Err (msg : string)
| Panic.
Arguments Ok {A} a.
Arguments Err {A} msg.
Arguments Panic {A}.

Definition bind {A B : Type} (r : res A) (f : A -> res B) : res B :=
  match r with
  | Ok a => f a
  | Err m => Err m
  | Panic => Panic
  end.

Notation "'let*' x := e 'in' k" := (bind e (fun x => k))
  (at level 200, x name, e at level 100, k at level 200, right associativity).
Notation "'let*' ' p := e 'in' k" := (bind e (fun p => k))
  (at level 200, p strict pattern, e at level 100, k at level 200, right associativity).

Definition rmap {A B : Type} (f : A -> B) (r : res A) : res B :=
  match r with
  | Ok a => Ok (f a)
  | Err m => Err m
  | Panic => Panic
  end.

(* ------------------------------------------------------------------ *)
(* Slices, pointers.                                                   *)

(* len(l) *)
Definition len {A : Type} (l : list A) : Z := Z.of_nat (List.length l).

(* l[i]: panics when i is out of range *)
Definition idx {A : Type} (l : list A) (i : Z) : res A :=
  if i <? 0 then Panic
  else match List.nth_error l (Z.to_nat i) with
       | Some a => Ok a
       | None => Panic
       end.

(* l[lo:hi]: panics unless 0 <= lo <= hi <= len l.  (Go bounds hi by the
   capacity; every slice sliced in this code base has been checked, or is
   built, with its length, so the distinction does not show.) *)
Definition slice {A : Type} (l : list A) (lo hi : Z) : res (list A) :=
  if (0 <=? lo) && (lo <=? hi) && (hi <=? len l)
  then Ok (List.firstn (Z.to_nat (hi - lo)) (List.skipn (Z.to_nat lo) l))
  else Panic.

(* *p *)
Definition deref {A : Type} (p : option A) : res A :=
  match p with Some a => Ok a | None => Panic end.

Definition is_none {A : Type} (p : option A) : bool :=
  match p with Some _ => false | None => true end.

(* ------------------------------------------------------------------ *)
(* Sized integers.                                                     *)

Definition u8 (z : Z) : Z := z mod 256.
Definition u16 (z : Z) : Z := z mod 65536.
Definition u32 (z : Z) : Z := z mod 4294967296.
Definition u64 (z : Z) : Z := z mod 18446744073709551616.
Definition i8 (z : Z) : Z := (z + 128) mod 256 - 128.
Definition i16 (z : Z) : Z := (z + 32768) mod 65536 - 32768.
Definition i32 (z : Z) : Z := (z + 2147483648) mod 4294967296 - 2147483648.
(* int is 64 bits wide *)
Definition i64 (z : Z) : Z :=
  (z + 9223372036854775808) mod 18446744073709551616 - 9223372036854775808.

(* ------------------------------------------------------------------ *)
(* Floating point (IEEE-754, round to nearest even, no fused operation) *)

Definition f32 := spec_float.
Definition f64 := spec_float.

Definition f32_add : f32 -> f32 -> f32 := SFadd 24 128.
Definition f32_sub : f32 -> f32 -> f32 := SFsub 24 128.
Definition f32_mul : f32 -> f32 -> f32 := SFmul 24 128.
Definition f32_div : f32 -> f32 -> f32 := SFdiv 24 128.
Definition f64_add : f64 -> f64 -> f64 := SFadd 53 1024.
Definition f64_sub : f64 -> f64 -> f64 := SFsub 53 1024.
Definition f64_mul : f64 -> f64 -> f64 := SFmul 53 1024.
Definition f64_div : f64 -> f64 -> f64 := SFdiv 53 1024.
Definition f64_sqrt : f64 -> f64 := SFsqrt 53 1024.

(* conversion of an integer *)
Definition f32_of_Z (z : Z) : f32 := binary_normalize 24 128 z 0 false.
Definition f64_of_Z (z : Z) : f64 := binary_normalize 53 1024 z 0 false.

(* a Go constant of exact value n / d (d > 0), rounded to the type *)
Definition lit (prec emax n d : Z) : spec_float :=
  match n, d with
  | Zpos p, Zpos q => SFdiv prec emax (S754_finite false p 0) (S754_finite false q 0)
  | Zneg p, Zpos q => SFdiv prec emax (S754_finite true p 0) (S754_finite false q 0)
  | _, _ => S754_zero false
  end.
Definition f32_lit (n d : Z) : f32 := lit 24 128 n d.
Definition f64_lit (n d : Z) : f64 := lit 53 1024 n d.

(* float32(x) for a float64 x *)
Definition f32_of_f64 (x : f64) : f32 :=
  match x with
  | S754_finite s m e => binary_round 24 128 s m e
  | _ => x
  end.

(* uint32(x) for a float64 x: truncation.  Out of the range of uint32 the Go
   result is implementation dependent; the value below is then arbitrary. *)
Definition u32_of_f64 (x : f64) : Z :=
  match x with
  | S754_finite s m e =>
      let a := if 0 <=? e then Z.shiftl (Zpos m) e else Z.shiftr (Zpos m) (- e) in
      u32 (if s then - a else a)
  | _ => 0
  end.

Definition fl_eqb : spec_float -> spec_float -> bool := SFeqb.
Definition fl_ltb : spec_float -> spec_float -> bool := SFltb.
Definition fl_leb : spec_float -> spec_float -> bool := SFleb.

(* ------------------------------------------------------------------ *)
(* Strings.                                                            *)

(* "\n" *)
Definition nl : string := String (Ascii.ascii_of_nat 10) EmptyString.

(* %d / %v of an integer *)
Definition dec (z : Z) : string := NilZero.string_of_int (Z.to_int z).

(* %v of a bool *)
Definition bool_str (b : bool) : string := if b then "true"%string else "false"%string.

Definition hex_digit (z : Z) : ascii :=
  if z <? 10 then Ascii.ascii_of_nat (Z.to_nat (48 + z))
  else Ascii.ascii_of_nat (Z.to_nat (55 + z)).

(* %02X of a byte *)
Definition hex2 (z : Z) : string :=
  String (hex_digit (z / 16)) (String (hex_digit (z mod 16)) EmptyString).

(* %v of a []byte: [1 2 3] *)
Definition bytes_str (l : list Z) : string :=
  ("[" ++ String.concat " " (List.map dec l) ++ "]")%string.

(* string(b) for a []byte of ASCII characters *)
Definition string_of_bytes (l : list Z) : string :=
  List.fold_right (fun b s => String (Ascii.ascii_of_nat (Z.to_nat b)) s) EmptyString l.

Fixpoint has_char (c : ascii) (s : string) : bool :=
  match s with
  | EmptyString => false
  | String d s' => if Ascii.eqb c d then true else has_char c s'
  end.

(* strings.ContainsAny(s, chars) *)
Fixpoint contains_any (s chars : string) : bool :=
  match s with
  | EmptyString => false
  | String d s' => if has_char d chars then true else contains_any s' chars
  end.

(* strings.Split(s, "\n") *)
Fixpoint split_lines (s : string) : list string :=
  match s with
  | EmptyString => [EmptyString]
  | String c s' =>
      if Ascii.eqb c (Ascii.ascii_of_nat 10) then EmptyString :: split_lines s'
      else match split_lines s' with
           | l :: ls => String c l :: ls
           | [] => [String c EmptyString]
           end
  end.

(* pkg/common/printable.go:19-30 *)
Definition PrefixMultiLine (lines prefix : string) : string :=
  String.concat nl (List.map (fun line => (prefix ++ line)%string) (split_lines lines)).
