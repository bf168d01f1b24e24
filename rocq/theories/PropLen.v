(** * Properties: accuracy of length, distance and normalize in binary32 *)

From Coq Require Import ZArith Bool Reals List Lra Lia.
From Flocq Require Import Core IEEE754.BinarySingleNaN.
From Verif Require Import Scalar IEEE32 RealInst Types Outcome Spec SpecR SpecMat SpecGeo SpecF32 SpecErr FloatBasics FloatOps
  ModelVec ModelCommon ModelExp ModelGeom ModelQuat ErrLib.
From Verif Require Import PfLen.
Import ListNotations.
Local Open Scope R_scope.


(** Length in binary32: for every finite vector of length at most 2^62 the result is finite and within
    (n+3)/2 half-ulps of the exact length, plus 2^-73 for underflow in the squares. *)
Theorem C72_length : forall L : Libm,
  length_error_ok 2 l2 (length2 (F32 L)) /\ length_error_ok 3 l3 (length3 (F32 L)) /\
  length_error_ok 4 l4 (length4 (F32 L)) /\ length_error_ok 4 lq (length_q (F32 L)).
Proof. exact C72_length_pf. Qed.
Print Assumptions C72_length.

(** Distance: the subtraction adds one more half-ulp. *)
Theorem C72_distance : forall L : Libm,
  distance_error_ok 2 l2 (distance2 (F32 L)) /\ distance_error_ok 3 l3 (distance3 (F32 L)) /\ distance_error_ok 4 l4 (distance4 (F32 L)).
Proof. exact C72_distance_pf. Qed.
Print Assumptions C72_distance.

(** normalize in binary32: for every finite vector with length between 2^-48 and 2^62, each component is within
    n/2+6 half-ulps of the exact one (plus the smallest positive number), and the length of the result is within
    n/2+7 half-ulps of 1. *)
Theorem C72_normalize : forall L : Libm,
  normalize_error_ok 2 l2 (normalize2 (F32 L)) /\ normalize_error_ok 3 l3 (normalize3 (F32 L)) /\
  normalize_error_ok 4 l4 (normalize4 (F32 L)) /\ normalize_error_ok 4 lq (normalize_q (F32 L)).
Proof. exact C72_normalize_pf. Qed.
Print Assumptions C72_normalize.

(** The range restriction is needed: in binary32 [normalize] of the nonzero vector (2^-80, 0) contains a NaN, and for
    (2^64, 0), whose length is representable, [length] is infinite and [normalize] returns the zero vector. *)
Theorem C72_range_refuted : forall L : Libm, exists v w : vec2 (F32 L),
  all_finite (l2 v) /\ vals (l2 v) = [/ IZR (2 ^ 80); 0] /\ some_nan (l2 (normalize2 (F32 L) v)) /\
  all_finite (l2 w) /\ vals (l2 w) = [IZR (2 ^ 64); 0] /\ ~ finite (length2 (F32 L) w) /\ vals (l2 (normalize2 (F32 L) w)) = [0; 0].
Proof. exact C72_range_refuted_pf. Qed.
Print Assumptions C72_range_refuted.

Example C72_case : let v := V2 (f32_ofZ 3) (f32_ofZ 4) : vec2 (F32 L0) in
  all_finite (l2 v) /\ norm (vals (l2 v)) = 5 /\ / IZR (2 ^ 48) <= 5 <= IZR (2 ^ 61).
Proof.
  split; [apply Forall_cons; [|apply Forall_cons; [|apply Forall_nil]]; vm_compute; reflexivity|]. split.
  - change (norm [b2r (f32_ofZ 3); b2r (f32_ofZ 4)] = 5). change (norm [b2r (f32_ofZ 3); b2r (f32_ofZ 4)]) with (sqrt (b2r (f32_ofZ 3) * b2r (f32_ofZ 3) + (b2r (f32_ofZ 4) * b2r (f32_ofZ 4) + 0))).
    rewrite (ofZ_exact 3 eq_refl), (ofZ_exact 4 eq_refl). replace (3 * 3 + (4 * 4 + 0)) with (5 * 5) by ring. apply sqrt_square. lra.
  - split; [|now apply IZR_le]. apply Rle_trans with (/ 1); [|lra]. apply Rinv_le_contravar; [lra|now apply IZR_le].
Qed.
