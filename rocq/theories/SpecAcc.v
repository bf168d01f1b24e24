(** * Specification vocabulary: absolute accuracy *)
From Coq Require Import ZArith Reals List.
From Flocq Require Import Core IEEE754.BinarySingleNaN.
From Verif Require Import IEEE32 FloatBasics SpecF32 SpecErr.
Import ListNotations.
Local Open Scope R_scope.

(** every computed component is a number within [e] of the exact one *)
Definition all_close (e : R) (computed : list f32) (exact : list R) : Prop :=
  Forall2 (fun c r => finite c /\ Rabs (b2r c - r) <= e) computed exact.
(** the same up to a common sign, which does not matter for a quaternion *)
Definition all_close_sign (e : R) (computed : list f32) (exact : list R) : Prop :=
  exists s, (s = 1 \/ s = -1) /\ all_close e computed (map (Rmult s) exact).
