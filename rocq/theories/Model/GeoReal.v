(* The instance of Model/Geo.v over the real numbers: the code with exact arithmetic. *)
From Verif Require Import GoBase.
From Coq Require Import Reals.
From Flocq Require Import Core.
From Verif.Model Require Import Geo.
Local Open Scope R_scope.

(* math.Atan2 *)
Definition Ratan2 (y x : R) : R :=
  if Rlt_bool 0 x then atan (y / x)
  else if Rlt_bool x 0 then (if Rlt_bool y 0 then atan (y / x) - PI else atan (y / x) + PI)
  else if Rlt_bool 0 y then PI / 2 else if Rlt_bool y 0 then - (PI / 2) else 0.

Definition reals : arith :=
  {| num := R; of_Z := IZR; lit := fun n d => IZR n / IZR d; litpi := fun n d => PI * (IZR n / IZR d);
     Geo.add := Rplus; Geo.sub := Rminus; Geo.mul := Rmult; div := Rdiv;
     Geo.ltb := Rlt_bool; Geo.leb := Rle_bool; Geo.eqb := Req_bool;
     floor := fun x => IZR (Zfloor x); Geo.abs := Rabs; Geo.max := Rmax;
     Geo.sqrt := R_sqrt.sqrt; Geo.cos := Rtrigo_def.cos; Geo.sin := Rtrigo_def.sin;
     Geo.acos := Ratan.acos; Geo.atan2 := Ratan2;
     (* math.Pow: only ever called with the exponent 2 *)
     Geo.pow := fun x _ => x * x |}.
