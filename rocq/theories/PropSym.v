(** * Properties: sign symmetry in binary32 *)

From Coq Require Import ZArith Bool Reals List Lra Lia.
From Flocq Require Import Core IEEE754.BinarySingleNaN.
From Verif Require Import Scalar IEEE32 RealInst Types Outcome Spec SpecF32 SpecSym FloatBasics FloatOps
  ModelVec ModelCommon ModelGeom ModelMat ModelMatrix ModelQuat ModelQuaternion ModelComp ModelTransform ErrExpr F32Tac.
From Verif Require Import PfSym.
Import ListNotations.


(** Every expression built from inputs, literals, +, -, * and negation whose sign under negating some of the inputs
    is determined by its form: the computed value has that symmetry exactly, also when it overflows or is NaN. *)
Theorem C78_expressions : forall (L : Libm) (rho rho' : nat -> f32) (p : nat -> bool) (e : expr) (s : bool),
  (forall n, alike (rho' n) (neg_if (p n) (rho n))) -> parity p e = Some s ->
  alike (eval (F32 L) rho' e) (neg_if s (eval (F32 L) rho e)).
Proof. exact C78_expressions_pf. Qed.
Print Assumptions C78_expressions.

(** inner, cross and matrix products *)
Theorem C78_products : forall L : Libm,
  odd_in_both (vec2_neg (F32 L)) (vec2_neg (F32 L)) (fun a b => [dot2 (F32 L) a b]) /\
  odd_in_both (vec3_neg (F32 L)) (vec3_neg (F32 L)) (fun a b => [dot3 (F32 L) a b]) /\
  odd_in_both (vec4_neg (F32 L)) (vec4_neg (F32 L)) (fun a b => [dot4 (F32 L) a b]) /\
  odd_in_both (quat_neg (F32 L)) (quat_neg (F32 L)) (fun a b => [dot_q (F32 L) a b]) /\
  odd_in_both (vec3_neg (F32 L)) (vec3_neg (F32 L)) (fun a b => l3 (cross (F32 L) a b)) /\
  odd_in_both (mat2_neg (F32 L)) (mat2_neg (F32 L)) (fun a b => lm2 (mat2_mul (F32 L) a b)) /\
  odd_in_both (mat3_neg (F32 L)) (mat3_neg (F32 L)) (fun a b => lm3 (mat3_mul (F32 L) a b)) /\
  odd_in_both (mat4_neg (F32 L)) (mat4_neg (F32 L)) (fun a b => lm4 (mat4_mul (F32 L) a b)) /\
  odd_in_both (mat2_neg (F32 L)) (vec2_neg (F32 L)) (fun a b => l2 (mat2_mul_vec (F32 L) a b)) /\
  odd_in_both (mat3_neg (F32 L)) (vec3_neg (F32 L)) (fun a b => l3 (mat3_mul_vec (F32 L) a b)) /\
  odd_in_both (mat4_neg (F32 L)) (vec4_neg (F32 L)) (fun a b => l4 (mat4_mul_vec (F32 L) a b)) /\
  odd_in_both (vec2_neg (F32 L)) (mat2_neg (F32 L)) (fun a b => l2 (vec_mul_mat2 (F32 L) a b)) /\
  odd_in_both (vec3_neg (F32 L)) (mat3_neg (F32 L)) (fun a b => l3 (vec_mul_mat3 (F32 L) a b)) /\
  odd_in_both (vec4_neg (F32 L)) (mat4_neg (F32 L)) (fun a b => l4 (vec_mul_mat4 (F32 L) a b)).
Proof. exact C78_products_pf. Qed.
Print Assumptions C78_products.

(** determinants and adjugates: the sign is (-1)^n and (-1)^(n-1) *)
Theorem C78_determinants : forall L : Libm,
  (even_under (mat2_neg (F32 L)) (fun a => [determinant2 (F32 L) a])) /\
  (odd_under (mat3_neg (F32 L)) (fun a => [determinant3 (F32 L) a])) /\
  (even_under (mat4_neg (F32 L)) (fun a => [determinant4 (F32 L) a])) /\
  (odd_under (mat2_neg (F32 L)) (fun a => lm2 (adjugate2 (F32 L) a))) /\
  (even_under (mat3_neg (F32 L)) (fun a => lm3 (adjugate3 (F32 L) a))) /\
  (odd_under (mat4_neg (F32 L)) (fun a => lm4 (adjugate4 (F32 L) a))).
Proof. exact C78_determinants_pf. Qed.
Print Assumptions C78_determinants.

(** the quaternion product is odd in both factors; q and -q turn every vector alike and give the same matrix *)
Theorem C78_quaternions : forall L : Libm,
  odd_in_both (quat_neg (F32 L)) (quat_neg (F32 L)) (fun a b => lq (quat_mul (F32 L) a b)) /\
  (forall b, even_under (quat_neg (F32 L)) (fun a => l3 (quat_mul_vec (F32 L) a b))) /\
  (forall a, odd_under (vec3_neg (F32 L)) (fun b => l3 (quat_mul_vec (F32 L) a b))) /\
  (even_under (quat_neg (F32 L)) (fun a => lm3 (mat3_cast (F32 L) a))).
Proof. exact C78_quaternions_pf. Qed.
Print Assumptions C78_quaternions.

(** reflect is odd in the vector and even in the normal *)
Theorem C78_reflect : forall L : Libm,
  (forall b, odd_under (vec2_neg (F32 L)) (fun a => l2 (reflect2 (F32 L) a b))) /\
  (forall a, even_under (vec2_neg (F32 L)) (fun b => l2 (reflect2 (F32 L) a b))) /\
  (forall b, odd_under (vec3_neg (F32 L)) (fun a => l3 (reflect3 (F32 L) a b))) /\
  (forall a, even_under (vec3_neg (F32 L)) (fun b => l3 (reflect3 (F32 L) a b))) /\
  (forall b, odd_under (vec4_neg (F32 L)) (fun a => l4 (reflect4 (F32 L) a b))) /\
  (forall a, even_under (vec4_neg (F32 L)) (fun b => l4 (reflect4 (F32 L) a b))).
Proof. exact C78_reflect_pf. Qed.
Print Assumptions C78_reflect.

(** length and length2 do not change under negation, distance is symmetric, normalize is odd: bit for bit, for all inputs *)
Theorem C78_lengths : forall L : Libm,
  (forall v, length2 (F32 L) (vec2_neg (F32 L) v) = length2 (F32 L) v) /\ (forall v, length3 (F32 L) (vec3_neg (F32 L) v) = length3 (F32 L) v) /\
  (forall v, length4 (F32 L) (vec4_neg (F32 L) v) = length4 (F32 L) v) /\ (forall q, length_q (F32 L) (quat_neg (F32 L) q) = length_q (F32 L) q) /\
  (forall a b, distance_f (F32 L) a b = distance_f (F32 L) b a) /\ (forall a b, distance2 (F32 L) a b = distance2 (F32 L) b a) /\
  (forall a b, distance3 (F32 L) a b = distance3 (F32 L) b a) /\ (forall a b, distance4 (F32 L) a b = distance4 (F32 L) b a) /\
  (forall v, normalize2 (F32 L) (vec2_neg (F32 L) v) = vec2_neg (F32 L) (normalize2 (F32 L) v)) /\
  (forall v, normalize3 (F32 L) (vec3_neg (F32 L) v) = vec3_neg (F32 L) (normalize3 (F32 L) v)) /\
  (forall v, normalize4 (F32 L) (vec4_neg (F32 L) v) = vec4_neg (F32 L) (normalize4 (F32 L) v)) /\
  (forall q, normalize_q (F32 L) (quat_neg (F32 L) q) = quat_neg (F32 L) (normalize_q (F32 L) q)).
Proof. exact C78_lengths_pf. Qed.
Print Assumptions C78_lengths.

(** negation exchanges min and max, floor and ceil; trunc and round are odd, abs even, clamp odd with the bounds exchanged: bit for bit *)
Theorem C78_common : forall L : Libm,
  (forall x y : f32, min_f (F32 L) (Bopp x) (Bopp y) = Bopp (max_f (F32 L) x y)) /\
  (forall x y : f32, max_f (F32 L) (Bopp x) (Bopp y) = Bopp (min_f (F32 L) x y)) /\
  (forall x lo hi : f32, is_nan x = false -> ieee_le lo hi -> clamp_f (F32 L) (Bopp x) (Bopp hi) (Bopp lo) = Bopp (clamp_f (F32 L) x lo hi)) /\
  (forall x : f32, floor_f (F32 L) (Bopp x) = Bopp (ceil_f (F32 L) x)) /\ (forall x : f32, ceil_f (F32 L) (Bopp x) = Bopp (floor_f (F32 L) x)) /\
  (forall x : f32, trunc_f (F32 L) (Bopp x) = Bopp (trunc_f (F32 L) x)) /\ (forall x : f32, round_f (F32 L) (Bopp x) = Bopp (round_f (F32 L) x)) /\
  (forall x : f32, roundEven_f (F32 L) (Bopp x) = Bopp (roundEven_f (F32 L) x)) /\
  (forall x : f32, abs_f (F32 L) (Bopp x) = abs_f (F32 L) x) /\
  (forall x : f32, is_nan x = false -> alike (sign_f (F32 L) (Bopp x)) (Bopp (sign_f (F32 L) x))).
Proof. exact C78_common_pf. Qed.
Print Assumptions C78_common.

(** the qualification about zeros is needed: (1,1).(1,-1) is +0 and stays +0 when a factor is negated *)
Example C78_zero_case : let a : vec2 f32 := V2 (f32_ofZ 1) (f32_ofZ 1) in let b := V2 (f32_ofZ 1) (f32_ofZ (-1)) in
  dot2 (F32 L0) (vec2_neg (F32 L0) a) b = B754_zero false /\ Bopp (dot2 (F32 L0) a b) = B754_zero true.
Proof. split; apply f32_by_sf; vm_compute; reflexivity. Qed.
(** an expression with a determined sign: x * (y + y) under negating x *)
Example C78_parity_case : parity (fun n => Nat.eqb n 0) (EMul (EVar 0) (EAdd (EVar 1) (EVar 1))) = Some true /\
  parity (fun n => Nat.eqb n 0) (EAdd (EVar 0) (EVar 1)) = None.
Proof. split; reflexivity. Qed.
(** clamp with bounds in order *)
Example C78_clamp_case : ieee_le (f32_ofZ (-1)) (f32_ofZ 2) /\ is_nan (f32_ofZ 5) = false /\ clamp_f (F32 L0) (Bopp (f32_ofZ 5)) (Bopp (f32_ofZ 2)) (Bopp (f32_ofZ (-1))) = f32_ofZ (-2).
Proof.
  split; [|split; [reflexivity|apply f32_by_sf; vm_compute; reflexivity]].
  split; [reflexivity|]. split; [reflexivity|]. rewrite !xr_finite by reflexivity. unfold B2R, F2R. cbn. Lra.lra.
Qed.
