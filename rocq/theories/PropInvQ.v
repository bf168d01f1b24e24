(** * Properties: inverse quaternions in binary32 *)

From Coq Require Import ZArith Bool Reals List Lra Lia.
From Flocq Require Import Core IEEE754.BinarySingleNaN.
From Verif Require Import Scalar IEEE32 RealInst Types Outcome Spec SpecR SpecMat SpecGeo SpecF32 SpecErr SpecOrd SpecAcc SpecChain FloatBasics FloatOps
  ModelVec ModelCommon ModelGeom ModelQuat ModelQuaternion ErrLib OvfLib F32Tac RealTac LenLib VecErrLib.
From Verif Require Import PfInvQ.
Import ListNotations.
Local Open Scope R_scope.


(** inverse(q) is, component by component, within 5.1 half-ulps of the exact inverse, relatively, plus the smallest subnormal *)
Theorem C100_inverse : forall (L : Libm) (q : quat f32), all_finite (lq q) -> let N := norm (vals (lq q)) in / IZR (2 ^ 48) <= N <= IZR (2 ^ 62) ->
  Forall2 (fun c r => finite c /\ Rabs (b2r c - r) <= 51 / 10 * ulp_half * Rabs r + tiny)
    (lq (inverse_q (F32 L) q)) (map (fun a => a / (N * N)) (lq (qconj (rquat q)))).
Proof. exact C100_inverse_pf. Qed.
Print Assumptions C100_inverse.

(** q * inverse(q) and inverse(q) * q are within 31 half-ulps of the identity, for q of length within 1/250 of 1 *)
Theorem C100_cancel : forall (L : Libm) (q : quat f32), all_finite (lq q) -> Rabs (norm (vals (lq q)) - 1) <= / 250 ->
  all_close (31 * ulp_half) (lq (quat_mul (F32 L) q (inverse_q (F32 L) q))) [0; 0; 0; 1] /\
  all_close (31 * ulp_half) (lq (quat_mul (F32 L) (inverse_q (F32 L) q) q)) [0; 0; 0; 1].
Proof. exact C100_cancel_pf. Qed.
Print Assumptions C100_cancel.

(** A vector rotated by a quaternion of length within 9 half-ulps of 1 and back by its conjugate, or first by the conjugate,
    is within 153 half-ulps of itself. *)
Theorem C100_conjugate : forall (L : Libm) (q : quat f32) (v : vec3 f32), all_finite (lq q) -> Rabs (norm (vals (lq q)) - 1) <= 9 * ulp_half ->
  all_finite (l3 v) -> let N := norm (vals (l3 v)) in N <= IZR (2 ^ 39) ->
  let there := quat_mul_vec (F32 L) (conjugate (F32 L) q) (quat_mul_vec (F32 L) q v) in
  let back := quat_mul_vec (F32 L) q (quat_mul_vec (F32 L) (conjugate (F32 L) q) v) in
  (all_finite (l3 there) /\ norm (vsub (vals (l3 there)) (vals (l3 v))) <= 153 * ulp_half * N + / IZR (2 ^ 100)) /\
  (all_finite (l3 back) /\ norm (vsub (vals (l3 back)) (vals (l3 v))) <= 153 * ulp_half * N + / IZR (2 ^ 100)).
Proof. exact C100_conjugate_pf. Qed.
Print Assumptions C100_conjugate.

(** The same with inverse: within 185 half-ulps. *)
Theorem C100_undo : forall (L : Libm) (q : quat f32) (v : vec3 f32), all_finite (lq q) -> Rabs (norm (vals (lq q)) - 1) <= 9 * ulp_half ->
  all_finite (l3 v) -> let N := norm (vals (l3 v)) in N <= IZR (2 ^ 39) ->
  let there := quat_mul_vec (F32 L) (inverse_q (F32 L) q) (quat_mul_vec (F32 L) q v) in
  let back := quat_mul_vec (F32 L) q (quat_mul_vec (F32 L) (inverse_q (F32 L) q) v) in
  (all_finite (l3 there) /\ norm (vsub (vals (l3 there)) (vals (l3 v))) <= 185 * ulp_half * N + / IZR (2 ^ 100)) /\
  (all_finite (l3 back) /\ norm (vsub (vals (l3 back)) (vals (l3 v))) <= 185 * ulp_half * N + / IZR (2 ^ 100)).
Proof. exact C100_undo_pf. Qed.
Print Assumptions C100_undo.

(** the quaternion (3/5, 0, 0, 4/5), rounded, meets the hypotheses *)
Example C100_case : let q := Quat (Bdiv mode_NE (f32_ofZ 3) (f32_ofZ 5)) (f32_ofZ 0) (f32_ofZ 0) (Bdiv mode_NE (f32_ofZ 4) (f32_ofZ 5)) in
  all_finite (lq q) /\ Rabs (norm (vals (lq q)) - 1) <= 9 * ulp_half.
Proof.
  cbv zeta. split; [repeat apply Forall_cons; try apply Forall_nil; vm_compute; reflexivity|].
  assert (E1 : b2r (Bdiv mode_NE (f32_ofZ 3) (f32_ofZ 5)) = 10066330 / 16777216) by (vm_compute; lra).
  assert (E2 : b2r (Bdiv mode_NE (f32_ofZ 4) (f32_ofZ 5)) = 13421773 / 16777216) by (vm_compute; lra).
  assert (E3 : b2r (f32_ofZ 0) = 0) by (now rewrite (ofZ_exact 0 eq_refl)).
  unfold vals, lq. cbn [map qx qy qz qw]. rewrite E1, E2, E3.
  assert (N := norm_nn [10066330 / 16777216; 0; 0; 13421773 / 16777216]). assert (S := norm_sq [10066330 / 16777216; 0; 0; 13421773 / 16777216]).
  set (n := norm _) in *. unfold ip in S. cbn in S. rewrite uval. apply Rabs_le. split; nra.
Qed.
