(** * Specification vocabulary: points placed by a rotation and a translation *)
From Coq Require Import ZArith Reals List.
From Verif Require Import Scalar IEEE32 FloatBasics Types Spec SpecR SpecF32 SpecMat SpecGeo SpecErr ModelMat ModelTransform ModelQuaternion SpecCamera.
Import ListNotations.
Local Open Scope R_scope.

(** the unit quaternion in the direction of [q] *)
Definition unit_dir (q : quat f32) : quat R :=
  let i := / norm (vals (lq q)) in Quat (i * b2r (qx q)) (i * b2r (qy q)) (i * b2r (qz q)) (i * b2r (qw q)).
(** [translate(mat4(1.0f), p) * mat4_cast(q)] *)
Definition pose (L : Libm) (p : vec3 f32) (q : quat f32) : mat4 f32 :=
  mat4_mul (F32 L) (translate (F32 L) (mat4_f (F32 L) (f32_lit 1 0)) p) (mat4_cast (F32 L) q).
(** the error of each coordinate of a point [v] turned and then moved by [p] *)
Definition placing_error (p v : list R) : R := 93 * ulp_half * (norm v + norm p) + 8 * tiny.
Definition xyz (o : vec4 f32) : list f32 := [x4 o; y4 o; z4 o].
