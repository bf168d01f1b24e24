(** * Specification vocabulary: accuracy of rotations *)
From Coq Require Import ZArith Reals List.
From Flocq Require Import Core IEEE754.BinarySingleNaN.
From Verif Require Import IEEE32 FloatBasics Spec SpecR SpecF32 SpecMat SpecGeo SpecErr.
Import ListNotations.
Local Open Scope R_scope.

(** [c] is finite and within [k] half-ulps of 1 from [x] *)
Definition abs_close (k : R) (c : f32) (x : R) : Prop := finite c /\ Rabs (b2r c - x) <= k * ulp_half.
(** for each entry of m * rotation, the sum of the absolute values of the entries of [m] that enter it;
    the last column is copied *)
Definition linear_sums (m : list R) : list R :=
  build_mat 4 (fun i j => if Nat.eqb j 3 then 0 else ent 4 m i 0 + ent 4 m i 1 + ent 4 m i 2).
(** entrywise: within [k] half-ulps relative to [mag], plus [w] *)
Definition entries_close (k w : R) (computed : list f32) (exact mag : list R) : Prop :=
  length computed = length exact /\ length mag = length exact /\
  forall i, (i < length exact)%nat -> Rabs (nth i (vals computed) 0 - nth i exact 0) <= k * ulp_half * nth i mag 0 + w.
