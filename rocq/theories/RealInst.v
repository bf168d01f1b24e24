(** * The exact-arithmetic instance

    [RS] evaluates the code over the real numbers.  There is no NaN and no
    infinity, so theorems about [RS] state the preconditions (nonzero
    denominators, nonnegative radicands, ...) under which the corresponding C++
    operation is meaningful. *)
From Coq Require Import ZArith Bool Reals.
From Flocq Require Import Core.
From Verif Require Import Scalar.
Local Open Scope R_scope.

Definition Rlit (m e : Z) : R :=
  match e with
  | Z0 => IZR m
  | Zpos k => IZR (m * Z.pow_pos 10 k)
  | Zneg k => IZR m / IZR (Z.pow_pos 10 k)
  end.

Definition Ratan2 (y x : R) : R :=
  if Rlt_bool 0 x then atan (y / x)
  else if Rlt_bool x 0 then (if Rle_bool 0 y then atan (y / x) + PI else atan (y / x) - PI)
  else if Rlt_bool 0 y then PI / 2
  else if Rlt_bool y 0 then - (PI / 2)
  else 0.

Definition Rpow (x y : R) : R :=
  if Rlt_bool 0 x then Rpower x y
  else if Req_bool x 0 then (if Req_bool y 0 then 1 else 0)
  else 0 (* negative base: not used by the library on reals *).

Definition Rcbrt (x : R) : R :=
  if Rlt_bool 0 x then Rpower x (1 / 3)
  else if Rlt_bool x 0 then - Rpower (- x) (1 / 3) else 0.

Definition Racosh (x : R) : R := ln (x + sqrt (x * x - 1)).
Definition Ratanh (x : R) : R := ln ((1 + x) / (1 - x)) / 2.
Definition Rlog2 (x : R) : R := ln x / ln 2.

Definition RS : Scalar := {|
  car := R;
  slit := Rlit;
  sofZ := IZR;
  sadd := Rplus;
  ssub := Rminus;
  smul := Rmult;
  sdiv := Rdiv;
  sneg := Ropp;
  slt := Rlt_bool;
  sle := Rle_bool;
  seq := Req_bool;
  sabs := Rabs;
  ssqrt := sqrt;
  sfma := fun a b c => a * b + c;
  sfloor := fun x => IZR (Zfloor x);
  sceil := fun x => IZR (Zceil x);
  strunc := fun x => IZR (Ztrunc x);
  sround := fun x => IZR (ZnearestA x);
  snearbyint := fun x => IZR (ZnearestE x);
  sisnan := fun _ => false;
  sisinf := fun _ => false;
  mcos := cos; msin := sin; mtan := tan;
  macos := acos; masin := asin; matan := atan; matan2 := Ratan2;
  mcosh := cosh; msinh := sinh; mtanh := tanh;
  macosh := Racosh; masinh := arcsinh; matanh := Ratanh;
  mpow := Rpow; mexp := exp; mlog := ln; mlog2 := Rlog2; mcbrt := Rcbrt
|}.
