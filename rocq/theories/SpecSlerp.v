(** * Specification vocabulary: accuracy of the C library's sine and arc cosine *)
From Coq Require Import ZArith Reals List.
From Flocq Require Import Core IEEE754.BinarySingleNaN.
From Verif Require Import IEEE32 FloatBasics SpecF32 SpecErr SpecProj SpecDom.
Local Open Scope R_scope.

(** sin on [0, 2] and acos on [0, 1 - 2^-23] are within [k] half-ulps, relatively *)
Definition sin_acos_accurate (L : Libm) (k : R) : Prop :=
  (forall x, between 0 2 x -> rel_close k (l_sin L x) (sin (b2r x))) /\
  (forall x, between 0 (1 - / IZR (2 ^ 23)) x -> rel_close k (l_acos L x) (acos (b2r x))).
