(** * Properties: linear interpolation of quaternions in binary32 *)

From Coq Require Import ZArith Bool Reals List Lra Lia.
From Flocq Require Import Core IEEE754.BinarySingleNaN.
From Verif Require Import Scalar IEEE32 RealInst Types Outcome Spec SpecR SpecMat SpecGeo SpecF32 SpecErr SpecOrd SpecDom SpecAcc SpecChain SpecDrift SpecNlerp FloatBasics FloatOps
  ModelVec ModelCommon ModelGeom ModelQuat ModelQuaternion ErrLib OvfLib F32Tac RealTac.
From Verif Require Import PfNlerp.
Import ListNotations.
Local Open Scope R_scope.


(** lerp of quaternions within e of unit quaternions X and Y, at a parameter in [0, 1]: it returns, in debug builds too, and the result is within
    e + 3.1 half-ulps (Euclidean distance) of the point of the segment from X to Y. *)
Theorem C104_lerp : forall (L : Libm) (b : build) (e : R) (x y : quat f32) (X Y : quat R) (t : f32),
  unit_near e x X -> unit_near e y Y -> e <= / 250 -> between 0 1 t ->
  exists r : quat f32, lerp (F32 L) b x y t = Ret r /\ all_finite (lq r) /\
  norm (vsub (vals (lq r)) (blend (b2r t) (lq X) (lq Y))) <= e + 31/10 * ulp_half.
Proof. exact C104_lerp_pf. Qed.
Print Assumptions C104_lerp.

(** nlerp: wherever the segment stays away from 0, compared with the errors, the result is normalized within 9 half-ulps and within
    2 (e + 3.1 half-ulps) / s + 9 half-ulps of the direction of the segment's point, s being its length. *)
Theorem C104_nlerp : forall (L : Libm) (b : build) (e : R) (x y : quat f32) (X Y : quat R) (t : f32),
  unit_near e x X -> unit_near e y Y -> e <= / 250 -> between 0 1 t ->
  let P := blend (b2r t) (lq X) (lq Y) in 4 * (e + 31/10 * ulp_half) <= norm P ->
  exists r : quat f32, nlerp (F32 L) b x y t = Ret r /\ all_finite (lq r) /\ Rabs (norm (vals (lq r)) - 1) <= 9 * ulp_half /\
  norm (vsub (vals (lq r)) (unit_of P)) <= 2 * (e + 31/10 * ulp_half) / norm P + 9 * ulp_half.
Proof. exact C104_nlerp_pf. Qed.
Print Assumptions C104_nlerp.

(** For quaternions at most a quarter turn of the 3-sphere apart (dot product not negative) nlerp is within 3 e + 18 half-ulps. *)
Theorem C104_near : forall (L : Libm) (b : build) (e : R) (x y : quat f32) (X Y : quat R) (t : f32),
  unit_near e x X -> unit_near e y Y -> e <= / 250 -> between 0 1 t -> 0 <= ip (lq X) (lq Y) ->
  exists r : quat f32, nlerp (F32 L) b x y t = Ret r /\ all_finite (lq r) /\ Rabs (norm (vals (lq r)) - 1) <= 9 * ulp_half /\
  norm (vsub (vals (lq r)) (unit_of (blend (b2r t) (lq X) (lq Y)))) <= 3 * e + 18 * ulp_half.
Proof. exact C104_near_pf. Qed.
Print Assumptions C104_near.

(** Repeating q := nlerp(q, target, t) any number n of times, for normalized q and target less than 88 degrees apart on the 3-sphere and t in
    [2^-17, 1]: every step returns, q stays normalized within 9 half-ulps, and its distance from the target is at most (1 - t/2)^n times
    that of the start, plus 108 half-ulps / t. *)
Theorem C104_follow : forall (L : Libm) (b : build) (q y : quat f32) (t : f32) (n : nat),
  all_finite (lq q) -> all_finite (lq y) -> Rabs (norm (vals (lq q)) - 1) <= 9 * ulp_half -> Rabs (norm (vals (lq y)) - 1) <= 9 * ulp_half ->
  between (/ IZR (2 ^ 17)) 1 t ->
  let D p := norm (vsub (unit_of (vals (lq p))) (unit_of (vals (lq y)))) in D q <= 7/5 ->
  exists r : quat f32, updates (fun p => nlerp (F32 L) b p y t) n q = Ret r /\ all_finite (lq r) /\ Rabs (norm (vals (lq r)) - 1) <= 9 * ulp_half /\
  D r <= (1 - b2r t / 2) ^ n * D q + 108 * ulp_half / b2r t.
Proof. exact C104_follow_pf. Qed.
Print Assumptions C104_follow.

(** nlerp does not take the shorter way: halfway between a quaternion and its negation, which are the same rotation, every component is NaN. *)
Theorem C104_opposite_refuted : forall (L : Libm) (b : build) (q : quat f32), all_finite (lq q) -> bounded_by 1 (lq q) ->
  exists r : quat f32, nlerp (F32 L) b q (quat_neg (F32 L) q) (f32_lit 5 (-1)) = Ret r /\ Forall (fun x => is_nan x = true) (lq r).
Proof. exact C104_opposite_refuted_pf. Qed.
Print Assumptions C104_opposite_refuted.

(** The hypotheses are met: smoothing from the identity to a turn of 120 degrees with a step of 1/8. *)
Example C104_case : let h := f32_lit 5 (-1) in let q := Quat (f32_lit 0 0) (f32_lit 0 0) (f32_lit 0 0) (f32_lit 1 0) in let y := Quat h h h h in
  let t := f32_lit 125 (-3) in
  all_finite (lq q) /\ all_finite (lq y) /\ Rabs (norm (vals (lq q)) - 1) <= 9 * ulp_half /\ Rabs (norm (vals (lq y)) - 1) <= 9 * ulp_half /\
  between (/ IZR (2 ^ 17)) 1 t /\ norm (vsub (unit_of (vals (lq q))) (unit_of (vals (lq y)))) <= 7/5.
Proof.
  intros h q y t. assert (Eh : b2r h = / 2) by (vm_compute; lra). assert (E0 : b2r (f32_lit 0 0) = 0) by reflexivity. assert (E1 : b2r (f32_lit 1 0) = 1) by (vm_compute; lra).
  assert (Et : b2r t = / 8) by (vm_compute; lra). assert (U : 0 < ulp_half) by (unfold ulp_half; apply Rinv_0_lt_compat, (IZR_lt 0); reflexivity).
  assert (Vq : vals (lq q) = [0; 0; 0; 1]) by (unfold q, vals, lq; cbn [map qx qy qz qw]; rewrite E0, E1; reflexivity).
  assert (Vy : vals (lq y) = [/ 2; / 2; / 2; / 2]) by (unfold y, vals, lq; cbn [map qx qy qz qw]; rewrite Eh; reflexivity).
  rewrite Vq, Vy.
  assert (Nq : norm [0; 0; 0; 1] = 1) by (unfold norm, ip; cbn; transitivity (sqrt 1); [f_equal; ring|apply sqrt_1]).
  assert (Ny : norm [/ 2; / 2; / 2; / 2] = 1) by (unfold norm, ip; cbn; transitivity (sqrt 1); [f_equal; field|apply sqrt_1]).
  split; [repeat constructor|]. split; [repeat constructor|]. unfold unit_of. rewrite Nq, Ny, Rinv_1.
  replace (1 - 1) with 0 by ring. rewrite Rabs_R0. split; [lra|]. split; [lra|]. split; [split; [reflexivity|rewrite Et; change (2 ^ 17)%Z with 131072%Z; lra]|].
  unfold norm, ip. cbn. apply Rle_trans with (sqrt 1); [apply sqrt_le_1_alt; lra|rewrite sqrt_1; lra].
Qed.
