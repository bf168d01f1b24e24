(** * Specification vocabulary: linear interpolation of quaternions *)
From Coq Require Import ZArith Reals List.
From Verif Require Import Types Outcome Spec SpecR SpecGeo SpecMat SpecErr.
Import ListNotations.
Local Open Scope R_scope.

(** the point at parameter [t] of the segment from [A] to [B] *)
Definition blend (t : R) (A B : list R) : list R := vadd (vscale (1 - t) A) (vscale t B).
(** [n] updates one after the other; the first one that does not return ends the run *)
Fixpoint updates {Q : Type} (step : Q -> outcome Q) (n : nat) (q : Q) : outcome Q :=
  match n with
  | O => Ret q
  | S n => bind (step q) (updates step n)
  end.
