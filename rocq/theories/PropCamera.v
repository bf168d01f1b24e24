(** * Properties: world points seen through a camera, in binary32 *)

From Coq Require Import ZArith Bool Reals List Lra Lia.
From Flocq Require Import Core IEEE754.BinarySingleNaN.
From Verif Require Import Scalar IEEE32 RealInst Types Outcome Spec SpecR SpecMat SpecGeo SpecF32 SpecErr SpecProj SpecLook SpecDepth SpecCamera FloatBasics FloatOps
  ModelVec ModelMat ModelTransform ErrLib LenLib RealTac.
From Verif Require Import PfCamera.
Import ListNotations.
Local Open Scope R_scope.


(** The computed coordinates of a world point in the frame of the camera, for lookAtRH and lookAtLH: each within
    (44/s + 38) half-ulps of the sum of the distances of point and eye from the origin; the fourth is exactly 1. *)
Theorem C102_place : forall (L : Libm) (eye center up p : vec3 f32) (s : R), camera eye center up s -> all_finite (l3 p) -> norm (vals (l3 p)) <= IZR (2 ^ 61) ->
  let frame W := map (fun A => ip A (vsub (vals (l3 p)) (vals (l3 eye)))) [axis_x W (vals (l3 up)); axis_y W (vals (l3 up)); W] in
  let near (q : vec4 f32) r := Forall2 (fun c x => finite c /\ Rabs (b2r c - x) <= place_error s eye p) [x4 q; y4 q; z4 q] r /\ finite (w4 q) /\ b2r (w4 q) = 1 in
  near (eye_space L (lookAtRH (F32 L) eye center up) p) (frame (vscale (-1) (sight eye center))) /\
  near (eye_space L (lookAtLH (F32 L) eye center up) p) (frame (sight eye center)).
Proof. exact C102_place_pf. Qed.
Print Assumptions C102_place.

(** Depth of a world point through lookAt and a perspective matrix of the same handedness. *)
Theorem C102_depth : forall (L : Libm) (b : build),
  world_depth_accurate L (lookAtRH (F32 L)) (perspectiveRH_ZO (F32 L) b) 1 depth01 /\
  world_depth_accurate L (lookAtLH (F32 L)) (perspectiveLH_ZO (F32 L) b) 1 depth01 /\
  world_depth_accurate L (lookAtRH (F32 L)) (perspectiveRH_NO (F32 L) b) 2 depth11 /\
  world_depth_accurate L (lookAtLH (F32 L)) (perspectiveLH_NO (F32 L) b) 2 depth11.
Proof. exact C102_depth_pf. Qed.
Print Assumptions C102_depth.

(** The depth test on world points. *)
Theorem C102_order : forall (L : Libm) (b : build),
  world_depth_ordered L (lookAtRH (F32 L)) (perspectiveRH_ZO (F32 L) b) /\ world_depth_ordered L (lookAtLH (F32 L)) (perspectiveLH_ZO (F32 L) b) /\
  world_depth_ordered L (lookAtRH (F32 L)) (perspectiveRH_NO (F32 L) b) /\ world_depth_ordered L (lookAtLH (F32 L)) (perspectiveLH_NO (F32 L) b).
Proof. exact C102_order_pf. Qed.
Print Assumptions C102_order.

(** A camera at (3, 0, 4) looking at the origin with y up, planes at 1 and 100: the origin and the point (-3, 0, -4) behind
    it meet the hypotheses of C102_order, with s = 1. *)
Example C102_case : let eye := V3 (f32_ofZ 3) (f32_ofZ 0) (f32_ofZ 4) in let center := V3 (f32_ofZ 0) (f32_ofZ 0) (f32_ofZ 0) in
  let up := V3 (f32_ofZ 0) (f32_ofZ 1) (f32_ofZ 0) in let p' := V3 (f32_ofZ (-3)) (f32_ofZ 0) (f32_ofZ (-4)) in
  camera eye center up 1 /\ ahead eye center center = 5 /\ ahead eye center p' = 10 /\
  let dl := place_error 1 eye center in let dl' := place_error 1 eye p' in
  1 + dl <= 5 <= 100 - dl /\ 1 + dl' <= 10 <= 100 - dl' /\ 32 * ulp_half < 1 * (/ (5 + dl) - / (10 - dl')).
Proof.
  cbv zeta. assert (H0 : b2r (f32_ofZ 0) = 0) by reflexivity. assert (H1 := ofZ_exact 1 eq_refl). assert (H3 := ofZ_exact 3 eq_refl).
  assert (H4 := ofZ_exact 4 eq_refl). assert (H3' := ofZ_exact (-3) eq_refl). assert (H4' := ofZ_exact (-4) eq_refl).
  assert (FF : forall a b c : f32, finite a -> finite b -> finite c -> all_finite (l3 (V3 a b c))) by (intros; repeat (apply Forall_cons; [assumption|]); apply Forall_nil).
  assert (V : forall a b c : f32, vals (l3 (V3 a b c)) = [b2r a; b2r b; b2r c]) by reflexivity.
  assert (N5 : norm [0 - 3; 0 - 0; 0 - 4] = 5) by (unfold norm, ip; cbn; transitivity (sqrt (5 * 5)); [f_equal; lra|apply sqrt_square; lra]).
  assert (N5' : norm [3; 0; 4] = 5) by (unfold norm, ip; cbn; transitivity (sqrt (5 * 5)); [f_equal; lra|apply sqrt_square; lra]).
  assert (N5'' : norm [-3; 0; -4] = 5) by (unfold norm, ip; cbn; transitivity (sqrt (5 * 5)); [f_equal; lra|apply sqrt_square; lra]).
  assert (N0 : norm [0; 0; 0] = 0) by (unfold norm, ip; cbn; transitivity (sqrt 0); [f_equal; lra|apply sqrt_0]).
  assert (N1 : norm [0; 1; 0] = 1) by (unfold norm, ip; cbn; transitivity (sqrt 1); [f_equal; lra|apply sqrt_1]).
  assert (F : sight (V3 (f32_ofZ 3) (f32_ofZ 0) (f32_ofZ 4)) (V3 (f32_ofZ 0) (f32_ofZ 0) (f32_ofZ 0)) = [- (3 / 5); 0; - (4 / 5)]).
  { unfold sight. rewrite !V, H0, H3, H4. unfold vsub. cbn [zip]. unfold unit_of. rewrite N5. unfold vscale. cbn. apply f_equal2; [lra|]. apply f_equal2; [lra|]. apply f_equal2; [lra|reflexivity]. }
  unfold camera, ahead, place_error. rewrite !F, !V, H0, H1, H3, H4, H3', H4'. unfold vsub. cbn [zip]. rewrite N5, N5', N5'', N0, N1, uval.
  assert (T : 0 < tiny <= / 1000000) by (unfold tiny; split; [apply Rinv_0_lt_compat; now apply (IZR_lt 0)|apply Rinv_le_contravar; [lra|now apply (IZR_le 1000000)]]).
  split; [|split; [unfold ip; cbn; lra|split; [unfold ip; cbn; lra|]]].
  - repeat split; try (now apply FF); try (now apply (IZR_le 5)); try (now apply (IZR_le 1)); try lra.
    all: try (apply Rle_trans with (/ 1); [apply Rinv_le_contravar; [lra|now apply (IZR_le 1)]|lra]).
    unfold norm, ip, cross_l. cbn. apply Rle_trans with (sqrt 1); [rewrite sqrt_1; lra|]. apply sqrt_le_1_alt. lra.
  - split; [lra|split; [lra|]]. set (a := (44 / 1 + 38) * / 16777216 * (0 + 5) + 8 * tiny). set (c := (44 / 1 + 38) * / 16777216 * (5 + 5) + 8 * tiny).
    assert (A : 0 <= a <= / 10) by (unfold a; lra). assert (C : 0 <= c <= / 10) by (unfold c; lra).
    assert (/ (51 / 10) <= / (5 + a)) by (apply Rinv_le_contravar; lra). assert (/ (10 - c) <= / (99 / 10)) by (apply Rinv_le_contravar; lra). lra.
Qed.
