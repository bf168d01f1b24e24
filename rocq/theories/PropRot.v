(** * Properties: rotation matrices, quaternions, angle-axis, look-at, decomposition *)

From Coq Require Import ZArith Bool Reals List Lra.
From Flocq Require Import Core.
From Verif Require Import Scalar F32Tac RealInst Outcome Types Spec SpecR SpecMat SpecGeo RealTac
  ModelVec ModelQuat ModelGeom ModelMat ModelMatrix ModelQuaternion ModelTransform.
From Verif Require Import PfRot.
Import ListNotations.
Local Open Scope R_scope.


(** C56: mat3_cast of a unit quaternion is a rotation matrix acting like the quaternion, and turns products into products. *)
Theorem C56_mat_cast :
  (forall q, unit_quat q -> rotation 3 (lm3 (mat3_cast RS q)) /\ rotation 4 (lm4 (mat4_cast RS q))) /\
  (forall q v, mat3_mul_vec RS (mat3_cast RS q) v = quat_mul_vec RS q v) /\
  (forall q v w, mat4_mul_vec RS (mat4_cast RS q) (vec4_v3f RS v w) = vec4_v3f RS (quat_mul_vec RS q v) w) /\
  (forall p q, unit_quat p -> unit_quat q ->
     mat3_cast RS (quat_mul RS p q) = mat3_mul RS (mat3_cast RS p) (mat3_cast RS q) /\
     mat4_cast RS (quat_mul RS p q) = mat4_mul RS (mat4_cast RS p) (mat4_cast RS q)) /\
  mat3_cast RS (quat_default RS) = mat3_default RS /\
  (forall q, unit_quat q -> mat3_cast RS (conjugate RS q) = transpose3 RS (mat3_cast RS q)).
Proof. exact C56_mat_cast_pf. Qed.
Print Assumptions C56_mat_cast.

(** C56: quat_cast inverts mat3_cast up to sign, in every branch. *)
Theorem C56_quat_cast :
  (forall q, unit_quat q -> quat_cast3 RS (mat3_cast RS q) = q \/ quat_cast3 RS (mat3_cast RS q) = quat_neg RS q) /\
  (forall q, unit_quat q -> quat_cast4 RS (mat4_cast RS q) = q \/ quat_cast4 RS (mat4_cast RS q) = quat_neg RS q) /\
  (forall m, rotation 3 (lm3 m) -> unit_quat (quat_cast3 RS m) /\ mat3_cast RS (quat_cast3 RS m) = m).
Proof. exact C56_quat_cast_pf. Qed.
Print Assumptions C56_quat_cast.

(** a rotation taking the last branch of quat_cast *)
Example C56_ex : rotation 3 (lm3 (M3 (V3 0 1 0) (V3 (-1) 0 0) (V3 0 0 1))) /\ unit_quat (Quat 0 0 1 0).
Proof.
  split; [unfold rotation; ands; cbv -[Rplus Rmult Ropp IZR]; repeat f_equal; ring|].
  unfold unit_quat. apply norm1_ip. unfold ip. cbn. lra.
Qed.


(** C57: angleAxis with a unit axis is the unit quaternion of the rotation by that angle about that axis. *)
Theorem C57_angleAxis : forall a n, norm (l3 n) = 1 ->
  unit_quat (angleAxis RS a n) /\
  (forall v, l3 (quat_mul_vec RS (angleAxis RS a n) v) = rodrigues a (l3 n) (l3 v)) /\
  (0 <= a <= 2 * PI -> angle RS (angleAxis RS a n) = a) /\
  (0 < a < 2 * PI -> axis RS (angleAxis RS a n) = n) /\
  (forall b, quat_mul RS (angleAxis RS a n) (angleAxis RS b n) = angleAxis RS (a + b) n).
Proof. exact C57_angleAxis_pf. Qed.
Print Assumptions C57_angleAxis.

(** C57: axis and angle recover every unit quaternion, and axis is always a unit vector (never a division by zero). *)
Theorem C57_axis_angle : forall q, unit_quat q ->
  norm (l3 (axis RS q)) = 1 /\ angleAxis RS (angle RS q) (axis RS q) = q.
Proof. exact C57_axis_angle_pf. Qed.
Print Assumptions C57_axis_angle.

(** C57: rotate(q, a, v) appends the rotation about the normalized axis. *)
Theorem C57_rotate : forall q a v w, unit_quat q -> ~ zeros (l3 v) ->
  unit_quat (rotate_q RS q a v) /\
  l3 (quat_mul_vec RS (rotate_q RS q a v) w) = qrot q (rodrigues a (unit_of (l3 v)) (l3 w)).
Proof. exact C57_rotate_pf. Qed.
Print Assumptions C57_rotate.

(** C61: quatLookAtLH turns +z, and quatLookAtRH turns -z, into the direction; x stays orthogonal to up and y on its side. *)
Theorem C61_lookAt : forall d up, norm (l3 d) = 1 -> ~ zeros (cross_l (l3 up) (l3 d)) ->
  let l := quatLookAtLH RS d up in let r := quatLookAtRH RS d up in
  unit_quat l /\ unit_quat r /\
  quat_mul_vec RS l (V3 0 0 1) = d /\ quat_mul_vec RS r (V3 0 0 (-1)) = d /\
  dot3 RS (quat_mul_vec RS l (V3 1 0 0)) up = 0 /\ dot3 RS (quat_mul_vec RS r (V3 1 0 0)) up = 0 /\
  0 < dot3 RS (quat_mul_vec RS l (V3 0 1 0)) up /\ 0 < dot3 RS (quat_mul_vec RS r (V3 0 1 0)) up.
Proof. exact C61_lookAt_pf. Qed.
Print Assumptions C61_lookAt.

Example C61_ex : norm (l3 (V3 0 0 1)) = 1 /\ ~ zeros (cross_l (l3 (V3 0 1 0)) (l3 (V3 0 0 1))).
Proof.
  split; [apply norm1_ip; unfold ip; cbn; lra|]. cbn. intros Z. inversion Z. lra.
Qed.


(** a unit axis that is not a coordinate axis, an angle in range, a unit quaternion and a nonzero non-unit axis *)
Example C57_ex : norm (l3 (V3 (3 / 5) 0 (4 / 5))) = 1 /\ 0 < 1 < 2 * PI /\
  unit_quat (Quat (1 / 2) (1 / 2) (1 / 2) (1 / 2)) /\ ~ zeros (l3 (V3 1 2 3)).
Proof.
  pose proof PI_RGT_0. pose proof PI2_1. ands.
  - apply norm1_ip. unfold ip. cbn. lra.
  - lra.
  - lra.
  - unfold unit_quat. apply norm1_ip. unfold ip. cbn. lra.
  - cbn. intros Z. inversion Z. lra.
Qed.

