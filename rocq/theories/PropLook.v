(** * Properties: accuracy of view transforms *)

From Coq Require Import ZArith Bool Reals List Lra Lia.
From Flocq Require Import Core IEEE754.BinarySingleNaN.
From Verif Require Import Scalar IEEE32 RealInst Types Outcome Spec SpecR SpecMat SpecGeo SpecF32 SpecErr SpecOrd SpecDom SpecAcc SpecProj SpecLook FloatBasics FloatOps
  ModelVec ModelCommon ModelGeom ModelMat ModelMatrix ModelTransform ModelQuat ModelQuaternion F32Tac RealTac.
From Verif Require Import PfLook.
Import ListNotations.
Local Open Scope R_scope.


(** lookAtRH and lookAtLH in binary32: every entry of the linear part is within (25/s + 20) half-ulps of the exact view
    matrix, where s bounds the sine of the angle between the viewing direction and up from below; the translation is
    within (25/s + 24) half-ulps times the distance of the eye from the origin, plus three times the smallest positive
    number; the last row is exact. *)
Theorem C89_lookAt : forall (L : Libm) (eye center up : vec3 f32) (s : R),
  all_finite (l3 eye) -> all_finite (l3 center) -> all_finite (l3 up) ->
  let E := vals (l3 eye) in let U := vals (l3 up) in let d := vsub (vals (l3 center)) E in let f := unit_of d in
  / IZR (2 ^ 47) <= norm d <= IZR (2 ^ 61) -> / IZR (2 ^ 30) <= norm U <= IZR (2 ^ 60) -> norm E <= IZR (2 ^ 61) ->
  / 1000 <= s -> s * norm U <= norm (cross_l f U) ->
  let tol := view_tolerance ((25 / s + 20) * ulp_half) ((25 / s + 24) * ulp_half * norm E + 3 * tiny) in
  close_each tol (lm4 (lookAtRH (F32 L) eye center up)) (view_matrix (vscale (-1) f) U E) /\
  close_each tol (lm4 (lookAtLH (F32 L) eye center up)) (view_matrix f U E).
Proof. exact C89_lookAt_pf. Qed.
Print Assumptions C89_lookAt.

(** A view matrix computed in binary32 preserves distances between points up to the factor 1 +- 3.01 (25/s + 20) 2^-24. *)
Theorem C89_distances : forall (L : Libm) (eye center up : vec3 f32) (s : R),
  all_finite (l3 eye) -> all_finite (l3 center) -> all_finite (l3 up) ->
  let E := vals (l3 eye) in let U := vals (l3 up) in let d := vsub (vals (l3 center)) E in let f := unit_of d in
  / IZR (2 ^ 47) <= norm d <= IZR (2 ^ 61) -> / IZR (2 ^ 30) <= norm U <= IZR (2 ^ 60) -> norm E <= IZR (2 ^ 61) ->
  / 1000 <= s -> s * norm U <= norm (cross_l f U) ->
  forall m, In m [lookAtRH (F32 L) eye center up; lookAtLH (F32 L) eye center up] ->
  forall p q, length p = 3%nat -> length q = 3%nat -> let at_ r := mapply 4 (vals (lm4 m)) (point r) in
  Rabs (norm (vsub (at_ p) (at_ q)) - norm (vsub p q)) <= 301/100 * ((25 / s + 20) * ulp_half) * norm (vsub p q).
Proof. exact C89_distances_pf. Qed.
Print Assumptions C89_distances.

(** quatLookAtLH and quatLookAtRH in binary32: if the direction is within dl of a unit vector D, component by component, the
    result is within ((11 dl + 18 2^-24)/s + 6 dl + 49 2^-24) of the exact quaternion or its negation. *)
Theorem C89_quatLookAt : forall (L : Libm) (dir up : vec3 f32) (D : vec3 R) (s dl : R), norm (l3 D) = 1 -> 0 <= dl <= s / 9000 -> all_close dl (l3 dir) (l3 D) ->
  all_finite (l3 up) -> let U := vals (l3 up) in / IZR (2 ^ 30) <= norm U <= IZR (2 ^ 60) ->
  / 1000 <= s -> s * norm U <= norm (cross_l (l3 D) U) ->
  let up' := V3 (b2r (x3 up)) (b2r (y3 up)) (b2r (z3 up)) in let tol := (11 * dl + 18 * ulp_half) / s + 6 * dl + 49 * ulp_half in
  all_close_sign tol (lq (quatLookAtLH (F32 L) dir up)) (lq (quatLookAtLH RS D up')) /\
  all_close_sign tol (lq (quatLookAtRH (F32 L) dir up)) (lq (quatLookAtRH RS D up')).
Proof. exact C89_quatLookAt_pf. Qed.
Print Assumptions C89_quatLookAt.

(** an eye at (3, 0, 4) looking at the origin, with y up: the hypotheses hold with s = 1 *)
Example C89_case : let eye := V3 (f32_ofZ 3) (f32_ofZ 0) (f32_ofZ 4) in let center := V3 (f32_ofZ 0) (f32_ofZ 0) (f32_ofZ 0) in
  let up := V3 (f32_ofZ 0) (f32_ofZ 1) (f32_ofZ 0) in
  all_finite (l3 eye) /\ all_finite (l3 center) /\ all_finite (l3 up) /\
  let E := vals (l3 eye) in let U := vals (l3 up) in let d := vsub (vals (l3 center)) E in let f := unit_of d in
  (/ IZR (2 ^ 47) <= norm d <= IZR (2 ^ 61)) /\ (/ IZR (2 ^ 30) <= norm U <= IZR (2 ^ 60)) /\ norm E <= IZR (2 ^ 61) /\
  1 * norm U <= norm (cross_l f U) /\ f = [- (3 / 5); 0; - (4 / 5)].
Proof.
  cbv zeta. assert (H0 : b2r (f32_ofZ 0) = 0) by reflexivity. assert (H1 : b2r (f32_ofZ 1) = 1) by (vm_compute; lra).
  assert (H3 : b2r (f32_ofZ 3) = 3) by (vm_compute; lra). assert (H4 : b2r (f32_ofZ 4) = 4) by (vm_compute; lra).
  assert (FF : forall a b c : f32, finite a -> finite b -> finite c -> all_finite (l3 (V3 a b c))) by (intros; repeat (apply Forall_cons; [assumption|]); apply Forall_nil).
  split; [now apply FF|]. split; [now apply FF|]. split; [now apply FF|]. unfold vals, vsub, l3. cbn [map zip x3 y3 z3]. rewrite H0, H1, H3, H4.
  assert (N5 : norm [0 - 3; 0 - 0; 0 - 4] = 5) by (unfold norm, ip; cbn; transitivity (sqrt (5 * 5)); [f_equal; lra|apply sqrt_square; lra]).
  assert (N5' : norm [3; 0; 4] = 5) by (unfold norm, ip; cbn; transitivity (sqrt (5 * 5)); [f_equal; lra|apply sqrt_square; lra]).
  assert (N1 : norm [0; 1; 0] = 1) by (unfold norm, ip; cbn; transitivity (sqrt 1); [f_equal; lra|apply sqrt_1]).
  assert (F : unit_of [0 - 3; 0 - 0; 0 - 4] = [- (3 / 5); 0; - (4 / 5)]).
  { unfold unit_of. rewrite N5. unfold vscale. cbn. apply f_equal2; [lra|]. apply f_equal2; [lra|]. apply f_equal2; [lra|reflexivity]. }
  rewrite F, N5, N5', N1. repeat split; try (now apply (IZR_le 5)); try (now apply (IZR_le 1)).
  - apply Rle_trans with (/ 1); [apply Rinv_le_contravar; [lra|now apply (IZR_le 1)]|lra].
  - rewrite <- Rinv_1. apply Rinv_le_contravar; [lra|now apply (IZR_le 1)].
  - unfold norm, ip, cross_l. cbn. apply Rle_trans with (sqrt 1); [rewrite sqrt_1; lra|]. apply sqrt_le_1_alt. lra.
Qed.
