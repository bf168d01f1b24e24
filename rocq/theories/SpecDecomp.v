(** * Specification vocabulary: a matrix with nearly orthogonal columns *)
From Coq Require Import ZArith Reals List.
From Flocq Require Import Core IEEE754.BinarySingleNaN.
From Verif Require Import IEEE32 Types FloatBasics SpecF32 SpecErr SpecAcc.
Import ListNotations.
Local Open Scope R_scope.

(** the first three components of a column are those of s * r up to e |s| each *)
Definition column_near (e : R) (c : vec4 f32) (s : R) (r : list R) : Prop :=
  all_close (e * Rabs s) [x4 c; y4 c; z4 c] (map (Rmult s) r).
(** the columns of a 3x3 matrix given by its nine entries, column after column *)
Definition column_of (i : nat) (entries : list R) : list R := firstn 3 (skipn (3 * i) entries).
(** a scale factor far from overflow and underflow *)
Definition scale_range (s : R) : Prop := / IZR (2 ^ 40) <= s <= IZR (2 ^ 60).
(** every computed scale factor is a number within relative error [e] of the exact one *)
Definition scales_close (e : R) (computed : list f32) (exact : list R) : Prop :=
  Forall2 (fun c s => finite c /\ Rabs (b2r c - s) <= e * Rabs s) computed exact.
