(** * Properties: translate, scale, rotate, lookAt, projections, decomposition *)

From Coq Require Import ZArith Bool Reals List Lra.
From Flocq Require Import Core IEEE754.BinarySingleNaN.
From Verif Require Import Scalar IEEE32 FloatBasics F32Tac RealInst Outcome Types Spec SpecF32 SpecR SpecMat SpecGeo RealTac
  ModelVec ModelCommon ModelQuat ModelExp ModelTrig ModelConst ModelGeom ModelMat ModelMatrix ModelQuaternion ModelTransform.
From Verif Require Import PfTransform.
Import ListNotations.
Local Open Scope R_scope.


(** C48: translate, scale and rotate multiply on the right by the elementary transform. *)
Theorem C48_elementary :
  (forall (m : mat4 R) (v : vec3 R), lm4 (translate RS m v) = mprod 4 (lm4 m) (translation (l3 v))) /\
  (forall (m : mat4 R) (v : vec3 R), lm4 (scale RS m v) = mprod 4 (lm4 m) (scaling (l3 v))) /\
  (forall (m : mat4 R) a (v : vec3 R), ~ zeros (l3 v) -> lm4 (rotate4 RS m a v) = mprod 4 (lm4 m) (turning (rotmat a (unit_of (l3 v))))) /\
  (forall a (v x : vec3 R), ~ zeros (l3 v) ->
     let n := unit_of (l3 v) in
     rotation 3 (rotmat a n) /\ mapply 3 (rotmat a n) (l3 x) = rodrigues a n (l3 x) /\ mapply 3 (rotmat a n) n = n).
Proof. exact C48_elementary_pf. Qed.
Print Assumptions C48_elementary.

(** C48: translations add, scalings multiply, rotations about one axis add their angles; the trivial ones do nothing. *)
Theorem C48_compositions :
  (forall (m : mat4 R) (u v : vec3 R), translate RS (translate RS m u) v = translate RS m (vec3_add RS u v)) /\
  (forall (m : mat4 R) (u v : vec3 R), scale RS (scale RS m u) v = scale RS m (vec3_mul RS u v)) /\
  (forall (m : mat4 R) (a b : R) (v : vec3 R), ~ zeros (l3 v) -> rotate4 RS (rotate4 RS m a v) b v = rotate4 RS m (a + b)%R v) /\
  (forall m : mat4 R, translate RS m (V3 0 0 0) = m /\ scale RS m (V3 1 1 1) = m) /\
  (forall (m : mat4 R) (v : vec3 R), ~ zeros (l3 v) -> rotate4 RS m 0 v = m).
Proof. exact C48_compositions_pf. Qed.
Print Assumptions C48_compositions.

Example C48_ex : ~ zeros (l3 (V3 1 2 3)).
Proof. cbn. intros Z. inversion Z. lra. Qed.


(** C49: lookAtRH and lookAtLH are rigid motions (orthonormal linear part of determinant one) that put the eye at the
    origin, the centre on the view axis (negative or positive z) at its distance, and up into the half plane x = 0, y > 0. *)
Theorem C49_lookAt : forall eye center up : vec3 R, ~ zeros (vsub (l3 center) (l3 eye)) ->
  ~ zeros (cross_l (vsub (l3 center) (l3 eye)) (l3 up)) ->
  let d := norm (vsub (l3 center) (l3 eye)) in
  forall m z, In (m, z) [(lookAtRH RS eye center up, - d); (lookAtLH RS eye center up, d)] ->
  (exists r t, rotation 3 r /\ lm4 m = affine r t) /\
  mapply 4 (lm4 m) (point (l3 eye)) = point [0; 0; 0] /\
  mapply 4 (lm4 m) (point (l3 center)) = point [0; 0; z] /\
  exists y z', 0 < y /\ mapply 4 (lm4 m) (direction (l3 up)) = direction [0; y; z'].
Proof. exact C49_lookAt_pf. Qed.
Print Assumptions C49_lookAt.

Example C49_ex : ~ zeros (vsub (l3 (V3 0 0 0)) (l3 (V3 3 4 5))) /\
  ~ zeros (cross_l (vsub (l3 (V3 0 0 0)) (l3 (V3 3 4 5))) (l3 (V3 0 1 0))).
Proof. split; cbn; intros Z; inversion Z; lra. Qed.


(** C50: every orthographic projection maps the view box affinely and bijectively to the clip box, depth with the
    sign of its handedness; the two-dimensional overload negates z. *)
Theorem C50_ortho : forall l r b t n f : R, l <> r -> b <> t -> n <> f ->
  orthographic (lm4 (orthoLH_ZO RS l r b t n f)) l r b t n f 1 0 1 /\
  orthographic (lm4 (orthoRH_ZO RS l r b t n f)) l r b t n f (-1) 0 1 /\
  orthographic (lm4 (orthoLH_NO RS l r b t n f)) l r b t n f 1 (-1) 1 /\
  orthographic (lm4 (orthoRH_NO RS l r b t n f)) l r b t n f (-1) (-1) 1 /\
  orthographic (lm4 (ortho RS l r b t)) l r b t (-1) 1 (-1) (-1) 1.
Proof. exact C50_ortho_pf. Qed.
Print Assumptions C50_ortho.

Example C50_ex : orthographic (lm4 (orthoRH_NO RS (-2) 6 (-3) 5 1 10)) (-2) 6 (-3) 5 1 10 (-1) (-1) 1.
Proof. destruct (C50_ortho_pf (-2) 6 (-3) 5 1 10) as (_ & _ & _ & H & _); [lra..|exact H]. Qed.


(** C51: in every build that accepts the aspect ratio each perspective matrix is the perspective projection of its
    handedness (z sign 1 or -1) and depth range (near plane at 0 or -1). *)
Theorem C51_perspective : forall (b : build) (fovy aspect n f : R), 0 < fovy < PI -> 0 < aspect -> 0 < n < f ->
  b = Release \/ aspect <> / 2 ^ 23 ->
  (exists m, perspectiveLH_ZO RS b fovy aspect n f = Ret m /\ perspective (lm4 m) fovy aspect n f 1 0) /\
  (exists m, perspectiveLH_NO RS b fovy aspect n f = Ret m /\ perspective (lm4 m) fovy aspect n f 1 (-1)) /\
  (exists m, perspectiveRH_ZO RS b fovy aspect n f = Ret m /\ perspective (lm4 m) fovy aspect n f (-1) 0) /\
  (exists m, perspectiveRH_NO RS b fovy aspect n f = Ret m /\ perspective (lm4 m) fovy aspect n f (-1) (-1)).
Proof. exact C51_perspective_pf. Qed.
Print Assumptions C51_perspective.

Example C51_ex : 0 < PI / 3 < PI /\ 0 < 16 / 9 /\ 0 < 1 / 10 < 100 /\ 16 / 9 <> / 2 ^ 23.
Proof. pose proof PI_RGT_0. ands; lra. Qed.


(** C51: in binary32 the debug assertion fires exactly for a NaN aspect ratio and for aspect = FLT_EPSILON = 2^-23,
    whatever the other arguments; a release build never fails. *)
Theorem C51_assertion : forall (L : Libm) (fovy aspect n f : f32),
  Forall (fun persp : forall S : Scalar, build -> S -> S -> S -> S -> outcome (mat4 S) =>
    (persp (F32 L) Debug fovy aspect n f = AssertFail <-> is_nan aspect = true \/ (finite aspect /\ b2r aspect = / 2 ^ 23)) /\
    (persp (F32 L) Debug fovy aspect n f <> AssertFail -> persp (F32 L) Debug fovy aspect n f = persp (F32 L) Release fovy aspect n f) /\
    is_ret (persp (F32 L) Release fovy aspect n f) = true)
  [perspectiveLH_ZO; perspectiveLH_NO; perspectiveRH_ZO; perspectiveRH_NO].
Proof. exact C51_assertion_pf. Qed.
Print Assumptions C51_assertion.

(** C51: aspect 0, which the assertion is there to reject, passes it; the matrix then has an entry that is not finite. *)
Theorem C51_zero_aspect_refuted : forall (L : Libm) (fovy n f : f32),
  Forall (fun persp : forall S : Scalar, build -> S -> S -> S -> S -> outcome (mat4 S) =>
    exists m, persp (F32 L) Debug fovy (B754_zero false) n f = Ret m /\ is_finite (x4 (m4c0 m)) = false)
  [perspectiveLH_ZO; perspectiveLH_NO; perspectiveRH_ZO; perspectiveRH_NO].
Proof. exact C51_zero_aspect_refuted_pf. Qed.
Print Assumptions C51_zero_aspect_refuted.

(** C52: the decomposition of translation * rotation * scale returns the translation, a unit quaternion and a scale that
    recompose to the same matrix; the scale is the given one up to signs, all negative if an odd number was negative, and
    with positive factors exactly the given scale and rotation come back. *)
Theorem C52_decompose : forall (m : mat4 R) (r s t : list R), length r = 9%nat -> length s = 3%nat -> length t = 3%nat ->
  rotation 3 r -> Forall (fun x => x <> 0) s -> lm4 m = affine (mprod 3 r (diagonal 3 s)) t ->
  let '(sc, o, tr) := decompose_orthogonal RS m in
  l3 tr = t /\ unit_quat o /\
  mprod 3 (lm3 (mat3_cast RS o)) (diagonal 3 (l3 sc)) = mprod 3 r (diagonal 3 s) /\
  (0 < fold_right Rmult 1 s -> l3 sc = map Rabs s) /\
  (fold_right Rmult 1 s < 0 -> l3 sc = map (fun x => - Rabs x) s) /\
  (Forall (fun x => 0 < x) s -> l3 sc = s /\ lm3 (mat3_cast RS o) = r).
Proof. exact C52_decompose_pf. Qed.
Print Assumptions C52_decompose.

Example C52_ex : rotation 3 [0; 1; 0; -1; 0; 0; 0; 0; 1] /\ Forall (fun x => x <> 0) [2; -3; 4] /\
  exists m : mat4 R, lm4 m = affine (mprod 3 [0; 1; 0; -1; 0; 0; 0; 0; 1] (diagonal 3 [2; -3; 4])) [5; 6; 7].
Proof.
  ands.
  - unfold rotation; ands; cbv -[Rplus Rmult Ropp IZR]; repeat f_equal; ring.
  - repeat apply Forall_cons; try apply Forall_nil; lra.
  - exists (M4 (V4 0 2 0 0) (V4 3 0 0 0) (V4 0 0 4 0) (V4 5 6 7 1)). cbv -[Rplus Rmult Ropp IZR]. repeat f_equal; ring.
Qed.

