(** * Specification vocabulary: ramps, interpolation and remainders in binary32 *)
From Coq Require Import ZArith Reals List.
From Flocq Require Import Core IEEE754.BinarySingleNaN.
From Verif Require Import IEEE32 FloatBasics SpecF32 SpecErr.
Local Open Scope R_scope.

(** the cubic ramp from 0 at [e0] to 1 at [e1] *)
Definition ramp (e0 e1 x : R) : R := let t := Rmin (Rmax ((x - e0) / (e1 - e0)) 0) 1 in 3 * t ^ 2 - 2 * t ^ 3.
(** the remainder with the sign of [y] *)
Definition floored (x y : R) : R := x - y * IZR (Zfloor (x / y)).
