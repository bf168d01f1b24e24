(** * Properties: rotations in binary32 *)

From Coq Require Import ZArith Bool Reals List Lra Lia.
From Flocq Require Import Core IEEE754.BinarySingleNaN.
From Verif Require Import Scalar IEEE32 RealInst Types Outcome Spec SpecR SpecMat SpecGeo SpecF32 SpecErr SpecProj SpecRotF FloatBasics FloatOps
  ModelVec ModelMat ModelGeom ModelTrig ModelTransform ModelQuat ModelQuaternion ErrExpr ErrLib.
From Verif Require Import PfRotF.
Import ListNotations.
Local Open Scope R_scope.


(** rotate in binary32: every entry of the result is within 1.5 k + 53 half-ulps of the exact product of the matrix with
    the rotation about the exact unit axis, relative to the sum of the absolute values of the entries that enter it;
    cosine and sine of the C library are assumed accurate to k half-ulps of 1. *)
Theorem C76_rotate : forall (L : Libm) (k B : R) (m : mat4 f32) (a : f32) (v : vec3 f32),
  0 <= k <= 100 -> 2 <= B -> bounded_by B (lm4 m) -> all_finite (l3 v) -> / IZR (2 ^ 48) <= norm (vals (l3 v)) <= IZR (2 ^ 62) ->
  abs_close k (l_cos L a) (cos (b2r a)) -> abs_close k (l_sin L a) (sin (b2r a)) -> all_finite (lm4 (rotate4 (F32 L) m a v)) ->
  entries_close (3 / 2 * k + 53) (18 * B ^ 2 * tiny) (lm4 (rotate4 (F32 L) m a v))
    (mprod 4 (vals (lm4 m)) (turning (rotmat (b2r a) (unit_of (vals (l3 v)))))) (linear_sums (mags (lm4 m))).
Proof. exact C76_rotate_pf. Qed.
Print Assumptions C76_rotate.

(** angleAxis: scalar part within k half-ulps of the cosine of half the angle; vector part within k+1.001 half-ulps of the
    axis times its sine, relatively to the axis *)
Theorem C76_angle_axis : forall (L : Libm) (k : R) (a : f32) (v : vec3 f32), 0 <= k <= 100 -> finite a -> in_range (b2r a) -> all_finite (l3 v) -> bounded_by (IZR (2 ^ 120)) (l3 v) ->
  (forall h, finite h -> b2r h = b2r a / 2 -> abs_close k (l_cos L h) (cos (b2r a / 2)) /\ abs_close k (l_sin L h) (sin (b2r a / 2))) ->
  let q := angleAxis (F32 L) a v in
  abs_close k (qw q) (cos (b2r a / 2)) /\ all_finite [qx q; qy q; qz q] /\
  Forall2 (fun c x => Rabs (b2r c - x * sin (b2r a / 2)) <= (k + 1 + / 1000) * ulp_half * Rabs x + tiny) [qx q; qy q; qz q] (vals (l3 v)).
Proof. exact C76_angle_axis_pf. Qed.
Print Assumptions C76_angle_axis.

(** rotate(q, angle, axis): every component is within k+81 half-ulps, relative to the sum of the absolute values of the
    components of q, of the exact product of q with the unit quaternion of the rotation *)
Theorem C76_rotate_quat : forall (L : Libm) (k : R) (q : quat f32) (a : f32) (v : vec3 f32),
  0 <= k <= 100 -> finite a -> in_range (b2r a) -> all_finite (l3 v) -> / IZR (2 ^ 48) <= norm (vals (l3 v)) <= IZR (2 ^ 62) ->
  (forall h, finite h -> b2r h = b2r a / 2 -> abs_close k (l_cos L h) (cos (b2r a / 2)) /\ abs_close k (l_sin L h) (sin (b2r a / 2))) ->
  all_finite (lq (rotate_q (F32 L) q a v)) ->
  Forall2 (fun c x => Rabs (b2r c - x) <= (k + 81) * ulp_half * total (mags (lq q)) + 9 * tiny) (lq (rotate_q (F32 L) q a v))
    (lq (ham (Quat (b2r (qx q)) (b2r (qy q)) (b2r (qz q)) (b2r (qw q))) (mkq (cos (b2r a / 2)) (vscale (sin (b2r a / 2)) (unit_of (vals (l3 v))))))).
Proof. exact C76_rotate_quat_pf. Qed.
Print Assumptions C76_rotate_quat.

(** a turn by 1/16 about (1,2,2), with cosine and sine within 16 half-ulps, meets the hypotheses *)
Example C76_case : exists L : Libm, let m := mat4_default (F32 L) in let a : f32 := @B754_finite 24 128 false 8388608 (-27) eq_refl in
  let v := V3 (f32_ofZ 1) (f32_ofZ 2) (f32_ofZ 2) in
  bounded_by 2 (lm4 m) /\ all_finite (l3 v) /\ b2r a = / 16 /\ norm (vals (l3 v)) = 3 /\
  abs_close 16 (l_cos L a) (cos (b2r a)) /\ abs_close 16 (l_sin L a) (sin (b2r a)) /\ all_finite (lm4 (rotate4 (F32 L) m a v)).
Proof.
  exists (mkLibm (fun _ => @B754_finite 24 128 false 16744448 (-24) eq_refl) (fun _ => @B754_finite 24 128 false 16766208 (-28) eq_refl) (l_tan L0) (l_acos L0) (l_asin L0) (l_atan L0) (l_atan2 L0) (l_cosh L0) (l_sinh L0) (l_tanh L0)
    (l_acosh L0) (l_asinh L0) (l_atanh L0) (l_pow L0) (l_exp L0) (l_log L0) (l_log2 L0) (l_cbrt L0)).
  cbv zeta. pose proof cos16 as C. pose proof sin16 as S.
  assert (A : b2r (@B754_finite 24 128 false 8388608 (-27) eq_refl) = / 16) by (unfold b2r, B2R, F2R; cbn; lra).
  rewrite A. split; [|split; [|split; [reflexivity|split; [|split; [|split]]]]].
  - repeat apply Forall_cons; try apply Forall_nil; (rewrite (eq_refl : F2R (Float radix2 0 0) = F2R (Float radix2 0 0)) || idtac); unfold b2r, B2R, F2R; cbn; apply Rabs_le; lra.
  - repeat apply Forall_cons; [..|apply Forall_nil]; vm_compute; reflexivity.
  - unfold norm. change (vals _) with [b2r (f32_ofZ 1); b2r (f32_ofZ 2); b2r (f32_ofZ 2)]. rewrite !ofZ_exact by reflexivity.
    match goal with |- sqrt ?e = _ => replace e with (3 * 3) by (cbn; lra) end. apply sqrt_square. lra.
  - split; [reflexivity|]. cbn [l_cos]. unfold b2r, B2R, F2R, ulp_half. cbn. apply Rabs_le; lra.
  - split; [reflexivity|]. cbn [l_sin]. unfold b2r, B2R, F2R, ulp_half. cbn. apply Rabs_le; lra.
  - repeat apply Forall_cons; try apply Forall_nil; vm_compute; reflexivity.
Qed.
(** so does a turn of the identity quaternion by 1/8 about the same axis *)
Example C76_quat_case : exists L : Libm, let q := quat_default (F32 L) in let a : f32 := @B754_finite 24 128 false 8388608 (-26) eq_refl in
  let v := V3 (f32_ofZ 1) (f32_ofZ 2) (f32_ofZ 2) in
  finite a /\ in_range (b2r a) /\ all_finite (l3 v) /\ norm (vals (l3 v)) = 3 /\
  (forall h, finite h -> b2r h = b2r a / 2 -> abs_close 16 (l_cos L h) (cos (b2r a / 2)) /\ abs_close 16 (l_sin L h) (sin (b2r a / 2))) /\
  all_finite (lq (rotate_q (F32 L) q a v)).
Proof.
  exists (mkLibm (fun _ => @B754_finite 24 128 false 16744448 (-24) eq_refl) (fun _ => @B754_finite 24 128 false 16766208 (-28) eq_refl) (l_tan L0) (l_acos L0) (l_asin L0) (l_atan L0) (l_atan2 L0) (l_cosh L0) (l_sinh L0) (l_tanh L0)
    (l_acosh L0) (l_asinh L0) (l_atanh L0) (l_pow L0) (l_exp L0) (l_log L0) (l_log2 L0) (l_cbrt L0)).
  cbv zeta. pose proof cos16 as C. pose proof sin16 as S.
  assert (A : b2r (@B754_finite 24 128 false 8388608 (-26) eq_refl) = / 8) by (unfold b2r, B2R, F2R; cbn; lra).
  rewrite A. replace (/ 8 / 2) with (/ 16) by field. split; [reflexivity|split; [|split; [|split; [|split]]]].
  - right. rewrite Rabs_pos_eq by lra. split; [apply Rinv_le_contravar; [lra|now apply (IZR_le 8)]|apply Rle_trans with 1; [lra|now apply (IZR_le 1)]].
  - repeat apply Forall_cons; [..|apply Forall_nil]; vm_compute; reflexivity.
  - unfold norm. change (vals _) with [b2r (f32_ofZ 1); b2r (f32_ofZ 2); b2r (f32_ofZ 2)]. rewrite !ofZ_exact by reflexivity.
    match goal with |- sqrt ?e = _ => replace e with (3 * 3) by (cbn; lra) end. apply sqrt_square. lra.
  - intros h _ _. split; (split; [reflexivity|]); cbn [l_cos l_sin]; unfold b2r, B2R, F2R, ulp_half; cbn; apply Rabs_le; lra.
  - repeat apply Forall_cons; try apply Forall_nil; vm_compute; reflexivity.
Qed.
