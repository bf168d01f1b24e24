(** * Properties: dot, length, normalize, reflect, refract over the reals *)

From Coq Require Import ZArith Bool Reals List Lra.
From Flocq Require Import Core IEEE754.BinarySingleNaN.
From Verif Require Import Scalar IEEE32 F32Tac RealInst FloatBasics Outcome Types Spec SpecF32 SpecR RealTac ModelVec ModelCommon
  ModelQuat ModelExp ModelGeom.
From Verif Require Import PfGeom.
Import ListNotations.
Local Open Scope R_scope.
(** a float as a one-component vector *)
Notation l1 := (fun x : R => [x]).


(** C31: dot is a positive definite symmetric bilinear form satisfying Cauchy-Schwarz. *)
Theorem C31_dot :
  inner_product_ok l1 Rplus Rmult (dot_f RS) /\
  inner_product_ok l2 (vec2_add RS) (vec2_mul_sc RS) (dot2 RS) /\
  inner_product_ok l3 (vec3_add RS) (vec3_mul_sc RS) (dot3 RS) /\
  inner_product_ok l4 (vec4_add RS) (vec4_mul_sc RS) (dot4 RS) /\
  inner_product_ok lq (quat_add RS) (quat_mul_sc RS) (dot_q RS).
Proof. exact C31_dot_pf. Qed.
Print Assumptions C31_dot.

(** C31: length is the Euclidean norm. *)
Theorem C31_length :
  norm_ok l2 (vec2_add RS) (vec2_mul_sc RS) (ModelGeom.length2 RS) /\
  norm_ok l3 (vec3_add RS) (vec3_mul_sc RS) (length3 RS) /\
  norm_ok l4 (vec4_add RS) (vec4_mul_sc RS) (length4 RS) /\
  norm_ok lq (quat_add RS) (quat_mul_sc RS) (length_q RS).
Proof. exact C31_length_pf. Qed.
Print Assumptions C31_length.

(** C31: distance is the Euclidean metric. *)
Theorem C31_distance :
  metric_ok l1 (distance_f RS) /\ metric_ok l2 (distance2 RS) /\ metric_ok l3 (distance3 RS) /\ metric_ok l4 (distance4 RS).
Proof. exact C31_distance_pf. Qed.
Print Assumptions C31_distance.

(** the triangle 3-4-5 *)
Example C31_ex : ModelGeom.length2 RS (V2 3 4) = 5 /\ dot2 RS (V2 3 4) (V2 4 (- 3)) = 0 /\ distance2 RS (V2 4 6) (V2 1 2) = 5.
Proof.
  repeat split; rs; try ring.
  - replace (3 * 3 + 4 * 4) with (5 * 5) by ring. apply sqrt_square; lra.
  - replace ((4 - 1) * (4 - 1) + (6 - 2) * (6 - 2)) with (5 * 5) by ring. apply sqrt_square; lra.
Qed.


(** C32: length2 is the squared length; distance2 is the squared distance for float and vec2. *)
Theorem C32_squared :
  (forall v, length2_2 RS v = (ModelGeom.length2 RS v)^2) /\
  (forall v, length2_3 RS v = (length3 RS v)^2) /\
  (forall v, length2_4 RS v = (length4 RS v)^2) /\
  (forall q, length2_q RS q = (length_q RS q)^2) /\
  (forall x : R, length2_f RS x = (Rabs x)^2) /\
  (forall x y : R, distance2_f RS x y = (distance_f RS x y)^2) /\
  (forall u v, distance2_2 RS u v = (distance2 RS u v)^2).
Proof. exact C32_squared_pf. Qed.
Print Assumptions C32_squared.

(** C32: distance2 of vec3 and vec4 is the plain distance, for every scalar type ... *)
Theorem C32_distance2_is_distance : forall S : Scalar,
  (forall u v, distance2_3 S u v = distance3 S u v) /\ (forall u v, distance2_4 S u v = distance4 S u v) /\
  (forall x : S, length_f S x = x).
Proof. exact C32_distance2_is_distance_pf. Qed.
Print Assumptions C32_distance2_is_distance.

(** C32: ... hence not the square of the distance, unless that is 0 or 1; and length(float) is the
    length only of nonnegative numbers. *)
Theorem C32_distance2_refuted :
  (forall u v, distance2_3 RS u v = (distance3 RS u v)^2 <-> distance3 RS u v = 0 \/ distance3 RS u v = 1) /\
  (forall u v, distance2_4 RS u v = (distance4 RS u v)^2 <-> distance4 RS u v = 0 \/ distance4 RS u v = 1) /\
  (forall x : R, length_f RS x = norm [x] <-> 0 <= x).
Proof. exact C32_distance2_refuted_pf. Qed.
Print Assumptions C32_distance2_refuted.

(** distance2 of two points at distance 2 is 2, not 4, in binary32 too. *)
Example C32_ex : let u := V3 (f32_lit 2 0) (f32_lit 0 0) (f32_lit 0 0) in let v := V3 (f32_lit 0 0) (f32_lit 0 0) (f32_lit 0 0) in
  distance2_3 (F32 L0) u v = f32_lit 2 0.
Proof. f32_eq. Qed.


(** C33: normalize keeps the direction and makes the length one. *)
Theorem C33_normalize :
  normalize_ok l2 (vec2_mul_sc RS) (normalize2 RS) /\
  normalize_ok l3 (vec3_mul_sc RS) (normalize3 RS) /\
  normalize_ok l4 (vec4_mul_sc RS) (normalize4 RS) /\
  normalize_ok lq (quat_mul_sc RS) (normalize_q RS).
Proof. exact C33_normalize_pf. Qed.
Print Assumptions C33_normalize.

(** C33: in binary32 normalizing a zero vector gives NaN in every component. *)
Theorem C33_zero : forall L : Libm,
  (forall v, Forall (fun x => iszero x = true) (l2 v) -> Forall (fun x => is_nan x = true) (l2 (normalize2 (F32 L) v))) /\
  (forall v, Forall (fun x => iszero x = true) (l3 v) -> Forall (fun x => is_nan x = true) (l3 (normalize3 (F32 L) v))) /\
  (forall v, Forall (fun x => iszero x = true) (l4 v) -> Forall (fun x => is_nan x = true) (l4 (normalize4 (F32 L) v))) /\
  (forall q, Forall (fun x => iszero x = true) (lq q) -> Forall (fun x => is_nan x = true) (lq (normalize_q (F32 L) q))).
Proof. exact C33_zero_pf. Qed.
Print Assumptions C33_zero.

Example C33_ex : normalize2 RS (V2 3 4) = V2 (3 / 5) (4 / 5).
Proof.
  rs. replace (3 * 3 + 4 * 4) with (5 * 5) by ring. rewrite sqrt_square by lra. f_equal; field.
Qed.


(** C36: reflect is the mirror image. *)
Theorem C36_reflect :
  reflection_ok l1 (reflect_f RS) /\ reflection_ok l2 (reflect2 RS) /\ reflection_ok l3 (reflect3 RS) /\
  reflection_ok l4 (reflect4 RS).
Proof. exact C36_reflect_pf. Qed.
Print Assumptions C36_reflect.

Example C36_ex : norm (l2 (V2 (3 / 5) (4 / 5))) = 1 /\ reflect2 RS (V2 1 0) (V2 (3 / 5) (4 / 5)) = V2 (7 / 25) (- (24 / 25)).
Proof.
  split.
  - unfold norm, ip; cbn. replace (3 / 5 * (3 / 5) + (4 / 5 * (4 / 5) + 0)) with 1 by field. apply sqrt_1.
  - rs. f_equal; field.
Qed.


(** C37: refract obeys Snell's law. *)
Theorem C37_refract :
  refraction_ok l1 (refract_f RS) /\ refraction_ok l2 (refract2 RS) /\ refraction_ok l3 (refract3 RS) /\
  refraction_ok l4 (refract4 RS).
Proof. exact C37_refract_pf. Qed.
Print Assumptions C37_refract.

(** 3/5 of the sine of a ray with sine 4/5; and total reflection at eta = 2 *)
Example C37_ex : refract2 RS (V2 (4 / 5) (- (3 / 5))) (V2 0 1) 0 = V2 0 (- 1) /\
  refract2 RS (V2 (4 / 5) (- (3 / 5))) (V2 0 1) 2 = V2 0 0.
Proof.
  split; rs.
  - rewrite Rlt_bool_false by lra. match goal with |- context [sqrt ?k] => replace k with 1 by field end.
    rewrite sqrt_1. f_equal; field.
  - now rewrite Rlt_bool_true by lra.
Qed.

