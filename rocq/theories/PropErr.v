(** * Properties: rounding error bounds *)

From Coq Require Import ZArith Bool Reals List Lra Lia.
From Flocq Require Import Core IEEE754.BinarySingleNaN.
From Verif Require Import Scalar IEEE32 RealInst Types Outcome Spec SpecR SpecMat SpecGeo SpecF32 SpecErr FloatBasics FloatOps
  ModelVec ModelGeom ModelMat ModelMatrix ModelQuat ModelQuaternion ModelComp ModelTransform ErrExpr.
From Verif Require Import PfErr.
Import ListNotations.
Local Open Scope R_scope.


(** dot of two vectors of any dimension and of two quaternions: with no overflow the error is at
    most gamma_n times the sum of the absolute products, plus n times the smallest positive number *)
Theorem C64_dot : forall (L : Libm),
  dot_error_ok 2 l2 (dot2 (F32 L)) /\ dot_error_ok 3 l3 (dot3 (F32 L)) /\
  dot_error_ok 4 l4 (dot4 (F32 L)) /\ dot_error_ok 4 lq (dot_q (F32 L)).
Proof. exact C64_dot_pf. Qed.
Print Assumptions C64_dot.

(** the squared length has a relative error of at most gamma_n, up to underflow *)
Theorem C64_length2 : forall (L : Libm),
  square_error_ok 2 l2 (length2_2 (F32 L)) /\ square_error_ok 3 l3 (length2_3 (F32 L)) /\
  square_error_ok 4 l4 (length2_4 (F32 L)) /\ square_error_ok 4 lq (length2_q (F32 L)).
Proof. exact C64_length2_pf. Qed.
Print Assumptions C64_length2.

(** For every expression built from inputs, integer literals, one half, +, -, * and negation, every
    assignment of binary32 inputs bounded by [M], and every result that is finite: the error is at most
    gamma_k times the magnitude of the expression plus an explicit underflow term. *)
Theorem C65_expressions : forall (L : Libm) (rho : nat -> f32) (e : expr) (M : R),
  lits_ok e = true -> (roundings e <= Pos.to_nat (2 ^ 23))%nat -> 1 <= M -> (forall n, Rabs (b2r (rho n)) <= M) ->
  finite (eval (F32 L) rho e) ->
  Rabs (b2r (eval (F32 L) rho e) - eval RS (fun n => b2r (rho n)) e) <=
    gam (roundings e) * magnitude (fun n => b2r (rho n)) e + IZR (uweight e) * M ^ udegree e * tiny.
Proof. exact C65_expressions_pf. Qed.
Print Assumptions C65_expressions.

(** each component of cross within gamma_2 of the exact one, relative to |a_i b_j| + |a_j b_i| *)
Theorem C65_cross : forall (L : Libm) (a b : vec3 f32), all_finite (l3 (cross (F32 L) a b)) ->
  nears 2 (2 * tiny) (l3 (cross (F32 L) a b)) (cross_l (vals (l3 a)) (vals (l3 b))) (cross_mag (mags (l3 a)) (mags (l3 b))).
Proof. exact C65_cross_pf. Qed.
Print Assumptions C65_cross.

(** matrix products, matrix times vector and vector times matrix, entry by entry; the 4x4 matrix
    times vector adds pairwise and so needs only three roundings *)
Theorem C65_matrix_products : forall (L : Libm),
  matrix_error_ok 2 2 lm2 l2 (mat2_mul (F32 L)) (mat2_mul_vec (F32 L)) (vec_mul_mat2 (F32 L)) /\
  matrix_error_ok 3 3 lm3 l3 (mat3_mul (F32 L)) (mat3_mul_vec (F32 L)) (vec_mul_mat3 (F32 L)) /\
  matrix_error_ok 4 3 lm4 l4 (mat4_mul (F32 L)) (mat4_mul_vec (F32 L)) (vec_mul_mat4 (F32 L)).
Proof. exact C65_matrix_products_pf. Qed.
Print Assumptions C65_matrix_products.

(** determinants: relative to the permanent of the absolute values *)
Theorem C65_determinant : forall (L : Libm),
  determinant_error_ok 2 2 2 0 lm2 (determinant2 (F32 L)) /\
  determinant_error_ok 3 5 9 1 lm3 (determinant3 (F32 L)) /\
  determinant_error_ok 4 9 40 2 lm4 (determinant4 (F32 L)).
Proof. exact C65_determinant_pf. Qed.
Print Assumptions C65_determinant.

(** adjugates: every entry is its cofactor, relative to the permanent of the minor of absolute values;
    the 2x2 adjugate is exact *)
Theorem C65_adjugate : forall (L : Libm),
  adjugate_error_ok 2 0 0 0 lm2 (adjugate2 (F32 L)) /\
  adjugate_error_ok 3 2 2 0 lm3 (adjugate3 (F32 L)) /\
  adjugate_error_ok 4 6 10 1 lm4 (adjugate4 (F32 L)).
Proof. exact C65_adjugate_pf. Qed.
Print Assumptions C65_adjugate.

(** The quaternion product goes through sums and differences, so its error is relative to the product
    of the absolute sums of both operands, not to the individual products. *)
Theorem C65_quat_product : forall (L : Libm) (p q : quat f32), all_finite (lq (quat_mul (F32 L) p q)) ->
  let b := 4 * (total (mags (lq p)) * total (mags (lq q))) in
  nears 9 (9 * tiny) (lq (quat_mul (F32 L) p q))
    (lq (ham (Quat (b2r (qx p)) (b2r (qy p)) (b2r (qz p)) (b2r (qw p))) (Quat (b2r (qx q)) (b2r (qy q)) (b2r (qz q)) (b2r (qw q)))))
    [b; b; b; b].
Proof. exact C65_quat_product_pf. Qed.
Print Assumptions C65_quat_product.

(** rotating a vector by a quaternion: relative to the same formula in absolute values *)
Theorem C65_quat_rotation : forall (L : Libm) (q : quat f32) (v : vec3 f32) (B : R), all_finite (l3 (quat_mul_vec (F32 L) q v)) ->
  1 <= B -> bounded_by B (lq q) -> bounded_by B (l3 v) ->
  nears 6 (18 * B * tiny) (l3 (quat_mul_vec (F32 L) q v))
    (turned (b2r (qx q)) (b2r (qy q)) (b2r (qz q)) (b2r (qw q)) (vals (l3 v)))
    (turned_mag (Rabs (b2r (qx q))) (Rabs (b2r (qy q))) (Rabs (b2r (qz q))) (Rabs (b2r (qw q))) (mags (l3 v))).
Proof. exact C65_quat_rotation_pf. Qed.
Print Assumptions C65_quat_rotation.

(** so a quaternion with components in [-1, 1] turns a vector with components of at most V with an
    absolute error of at most 79 half-ulps of V, plus underflow *)
Theorem C65_quat_rotation_bound : forall (L : Libm) (q : quat f32) (v : vec3 f32) (V : R), all_finite (l3 (quat_mul_vec (F32 L) q v)) ->
  1 <= V -> bounded_by 1 (lq q) -> bounded_by V (l3 v) ->
  Forall2 (fun c x => Rabs (b2r c - x) <= 79 * ulp_half * V) (l3 (quat_mul_vec (F32 L) q v))
    (turned (b2r (qx q)) (b2r (qy q)) (b2r (qz q)) (b2r (qw q)) (vals (l3 v))).
Proof. exact C65_quat_rotation_bound_pf. Qed.
Print Assumptions C65_quat_rotation_bound.

(** the rotation matrix of a quaternion, entry by entry *)
Theorem C65_mat3_cast : forall (L : Libm) (q : quat f32), all_finite (lm3 (mat3_cast (F32 L) q)) ->
  nears 4 (5 * tiny) (lm3 (mat3_cast (F32 L) q))
    (rotation_entries (-1) (b2r (qx q)) (b2r (qy q)) (b2r (qz q)) (b2r (qw q)))
    (rotation_entries 1 (Rabs (b2r (qx q))) (Rabs (b2r (qy q))) (Rabs (b2r (qz q))) (Rabs (b2r (qw q)))).
Proof. exact C65_mat3_cast_pf. Qed.
Print Assumptions C65_mat3_cast.

(** lerp, whenever it returns *)
Theorem C65_lerp : forall (L : Libm) (b : build) (x y r : quat f32) (t : f32), lerp (F32 L) b x y t = Ret r -> all_finite (lq r) ->
  nears 3 (2 * tiny) (lq r)
    (map (fun p => (1 - b2r t) * fst p + b2r t * snd p) (combine (vals (lq x)) (vals (lq y))))
    (map (fun p => (1 + Rabs (b2r t)) * fst p + Rabs (b2r t) * snd p) (combine (mags (lq x)) (mags (lq y)))).
Proof. exact C65_lerp_pf. Qed.
Print Assumptions C65_lerp.

(** translate and scale are the products with the translation and the scaling matrix *)
Theorem C65_translate_scale : forall (L : Libm) (m : mat4 f32) (v : vec3 f32),
  (all_finite (lm4 (translate (F32 L) m v)) ->
    nears 4 (3 * tiny) (lm4 (translate (F32 L) m v)) (mprod 4 (vals (lm4 m)) (translation (vals (l3 v))))
      (mprod 4 (mags (lm4 m)) (translation (mags (l3 v))))) /\
  (all_finite (lm4 (scale (F32 L) m v)) ->
    nears 1 tiny (lm4 (scale (F32 L) m v)) (mprod 4 (vals (lm4 m)) (scaling (vals (l3 v))))
      (mprod 4 (mags (lm4 m)) (scaling (mags (l3 v))))).
Proof. exact C65_translate_scale_pf. Qed.
Print Assumptions C65_translate_scale.

Theorem C65_reflect : forall (L : Libm),
  reflect_error_ok 5 6 l2 (reflect2 (F32 L)) /\ reflect_error_ok 6 8 l3 (reflect3 (F32 L)) /\ reflect_error_ok 7 10 l4 (reflect4 (F32 L)).
Proof. exact C65_reflect_pf. Qed.
Print Assumptions C65_reflect.

(** compAdd has no underflow error; compMul has a relative error of at most gamma_(n-1) up to underflow *)
Theorem C69_compAdd : forall (L : Libm), sum_error_ok 1 l2 (compAdd2 (F32 L)) /\ sum_error_ok 2 l3 (compAdd3 (F32 L)) /\ sum_error_ok 3 l4 (compAdd4 (F32 L)).
Proof. exact C69_compAdd_pf. Qed.
Print Assumptions C69_compAdd.

Theorem C69_compMul : forall (L : Libm), product_error_ok 1 1 0 l2 (compMul2 (F32 L)) /\ product_error_ok 2 2 1 l3 (compMul3 (F32 L)) /\
  product_error_ok 3 3 2 l4 (compMul4 (F32 L)).
Proof. exact C69_compMul_pf. Qed.
Print Assumptions C69_compMul.

(** The hypotheses hold at non-trivial inputs: 0.1, 0.2, ... are not representable, every product rounds. *)
Definition e_a : vec3 f32 := V3 (f32_lit 1 (-1)) (f32_lit (-2) (-1)) (f32_lit 3 (-1)).
Definition e_b : vec3 f32 := V3 (f32_lit 7 (-1)) (f32_lit 11 (-1)) (f32_lit 13 (-1)).
Definition e_q : quat f32 := Quat (f32_lit 1 (-1)) (f32_lit 7 (-1)) (f32_lit 1 (-1)) (f32_lit 7 (-1)).
Definition e_m : mat3 f32 := M3 e_a e_b (V3 (f32_lit 17 (-1)) (f32_lit 19 (-1)) (f32_lit 23 (-1))).
Definition e_m4 : mat4 f32 :=
  M4 (V4 (f32_lit 1 (-1)) (f32_lit 2 (-1)) (f32_lit 3 (-1)) (f32_lit 0 0)) (V4 (f32_lit 7 (-1)) (f32_lit 11 (-1)) (f32_lit 13 (-1)) (f32_lit 0 0))
     (V4 (f32_lit 17 (-1)) (f32_lit 19 (-1)) (f32_lit 23 (-1)) (f32_lit 0 0)) (V4 (f32_lit 29 (-1)) (f32_lit 31 (-1)) (f32_lit 37 (-1)) (f32_lit 1 0)).
Example C64_dot_case : finite (dot3 (F32 L0) e_a e_b).
Proof. vm_compute; reflexivity. Qed.
Example C65_cross_case : forallb is_finite (l3 (cross (F32 L0) e_a e_b)) = true.
Proof. vm_compute; reflexivity. Qed.
Example C65_matrix_case : forallb is_finite (lm3 (mat3_mul (F32 L0) e_m e_m) ++ lm4 (mat4_mul (F32 L0) e_m4 e_m4) ++
  [determinant3 (F32 L0) e_m; determinant4 (F32 L0) e_m4] ++ lm3 (adjugate3 (F32 L0) e_m) ++ lm4 (adjugate4 (F32 L0) e_m4)) = true.
Proof. vm_compute; reflexivity. Qed.
Example C65_quat_case : forallb is_finite (lq (quat_mul (F32 L0) e_q e_q) ++ l3 (quat_mul_vec (F32 L0) e_q e_a) ++ lm3 (mat3_cast (F32 L0) e_q)) = true.
Proof. vm_compute; reflexivity. Qed.
Example C65_lerp_case : match lerp (F32 L0) Debug e_q e_q (f32_lit 3 (-1)) with Ret r => forallb is_finite (lq r) | _ => false end = true.
Proof. vm_compute; reflexivity. Qed.
Example C69_comp_case : forallb is_finite [compAdd3 (F32 L0) e_a; compMul3 (F32 L0) e_b] = true.
Proof. vm_compute; reflexivity. Qed.
(** an expression with nested products: (x y - z) x *)
Example C65_expressions_case : let e := EMul (ESub (EMul (EVar 0) (EVar 1)) (EVar 2)) (EVar 0) in
  lits_ok e = true /\ roundings e = 3%nat /\ uweight e = 2%Z /\ udegree e = 1%nat /\
  finite (eval (F32 L0) (fun n => nth n [f32_lit 1 (-1); f32_lit 3 (-1); f32_lit 7 (-1)] (f32_lit 0 0)) e).
Proof. repeat split. Qed.
