(** * Properties: input bounds under which nothing overflows *)

From Coq Require Import ZArith Bool Reals List Lra Lia.
From Flocq Require Import Core IEEE754.BinarySingleNaN.
From Verif Require Import Scalar IEEE32 RealInst Types Outcome Spec SpecR SpecMat SpecGeo SpecF32 SpecErr FloatBasics FloatOps
  ModelVec ModelCommon ModelGeom ModelMat ModelMatrix ModelQuat ModelQuaternion ModelComp ModelTransform ErrExpr.
From Verif Require Import PfOvf.
Import ListNotations.
Local Open Scope R_scope.


(** Every expression built from inputs, literals, +, -, * and negation: when all inputs are finite and at most M in
    absolute value and (sum of coefficients) * M^degree < 2^127, no intermediate and no final result overflows. *)
Theorem C71_expressions : forall (L : Libm) (rho : nat -> f32) (e : expr) (M : R),
  lits_ok e = true -> (roundings e <= Pos.to_nat (2 ^ 23))%nat -> 1 <= M ->
  (forall n, finite (rho n)) -> (forall n, Rabs (b2r (rho n)) <= M) ->
  IZR (esize e) * M ^ degree e < IZR (2 ^ 127) -> finite (eval (F32 L) rho e).
Proof. exact C71_expressions_pf. Qed.
Print Assumptions C71_expressions.

(** inner, cross and matrix products: n M^2 < 2^127 suffices *)
Theorem C71_products : forall L : Libm,
  (forall a b, no_overflow 2 2 (l2 a ++ l2 b) [dot2 (F32 L) a b]) /\
  (forall a b, no_overflow 3 2 (l3 a ++ l3 b) [dot3 (F32 L) a b]) /\
  (forall a b, no_overflow 4 2 (l4 a ++ l4 b) [dot4 (F32 L) a b]) /\
  (forall a b, no_overflow 4 2 (lq a ++ lq b) [dot_q (F32 L) a b]) /\
  (forall a b, no_overflow 2 2 (l3 a ++ l3 b) (l3 (cross (F32 L) a b))) /\
  (forall a b, no_overflow 2 2 (lm2 a ++ lm2 b) (lm2 (mat2_mul (F32 L) a b))) /\
  (forall a b, no_overflow 3 2 (lm3 a ++ lm3 b) (lm3 (mat3_mul (F32 L) a b))) /\
  (forall a b, no_overflow 4 2 (lm4 a ++ lm4 b) (lm4 (mat4_mul (F32 L) a b))) /\
  (forall a v, no_overflow 2 2 (lm2 a ++ l2 v) (l2 (mat2_mul_vec (F32 L) a v) ++ l2 (vec_mul_mat2 (F32 L) v a))) /\
  (forall a v, no_overflow 3 2 (lm3 a ++ l3 v) (l3 (mat3_mul_vec (F32 L) a v) ++ l3 (vec_mul_mat3 (F32 L) v a))) /\
  (forall a v, no_overflow 4 2 (lm4 a ++ l4 v) (l4 (mat4_mul_vec (F32 L) a v) ++ l4 (vec_mul_mat4 (F32 L) v a))).
Proof. exact C71_products_pf. Qed.
Print Assumptions C71_products.

(** determinants and adjugates: n! M^n and (n-1)! M^(n-1) *)
Theorem C71_determinants : forall L : Libm,
  (forall m, no_overflow 2 2 (lm2 m) [determinant2 (F32 L) m]) /\
  (forall m, no_overflow 6 3 (lm3 m) [determinant3 (F32 L) m]) /\
  (forall m, no_overflow 24 4 (lm4 m) [determinant4 (F32 L) m]) /\
  (forall m, no_overflow 1 1 (lm2 m) (lm2 (adjugate2 (F32 L) m))) /\
  (forall m, no_overflow 2 2 (lm3 m) (lm3 (adjugate3 (F32 L) m))) /\
  (forall m, no_overflow 6 3 (lm4 m) (lm4 (adjugate4 (F32 L) m))).
Proof. exact C71_determinants_pf. Qed.
Print Assumptions C71_determinants.

(** quaternion product, rotation of a vector and conversion to a matrix *)
Theorem C71_quaternions : forall L : Libm,
  (forall p q, no_overflow 32 2 (lq p ++ lq q) (lq (quat_mul (F32 L) p q))) /\
  (forall q v, no_overflow 13 3 (lq q ++ l3 v) (l3 (quat_mul_vec (F32 L) q v))) /\
  (forall q, no_overflow 5 2 (lq q) (lm3 (mat3_cast (F32 L) q))).
Proof. exact C71_quaternions_pf. Qed.
Print Assumptions C71_quaternions.

(** translate, scale, reflect, mix and the component reductions *)
Theorem C71_transforms : forall L : Libm,
  (forall m v, no_overflow 4 2 (lm4 m ++ l3 v) (lm4 (translate (F32 L) m v))) /\
  (forall m v, no_overflow 1 2 (lm4 m ++ l3 v) (lm4 (scale (F32 L) m v))) /\
  (forall i n, no_overflow 5 3 (l2 i ++ l2 n) (l2 (reflect2 (F32 L) i n))) /\
  (forall i n, no_overflow 7 3 (l3 i ++ l3 n) (l3 (reflect3 (F32 L) i n))) /\
  (forall i n, no_overflow 9 3 (l4 i ++ l4 n) (l4 (reflect4 (F32 L) i n))) /\
  (forall x y t : f32, no_overflow 3 2 [x; y; t] [mix_f (F32 L) x y t]) /\
  (forall v, no_overflow 2 1 (l2 v) [compAdd2 (F32 L) v]) /\ (forall v, no_overflow 1 2 (l2 v) [compMul2 (F32 L) v]) /\
  (forall v, no_overflow 3 1 (l3 v) [compAdd3 (F32 L) v]) /\ (forall v, no_overflow 1 3 (l3 v) [compMul3 (F32 L) v]) /\
  (forall v, no_overflow 4 1 (l4 v) [compAdd4 (F32 L) v]) /\ (forall v, no_overflow 1 4 (l4 v) [compMul4 (F32 L) v]).
Proof. exact C71_transforms_pf. Qed.
Print Assumptions C71_transforms.

(** The bound is of the right order: M = 2^62 is allowed for dot2, and at M = 2^64 the inner product of two
    orthogonal vectors is NaN. *)
Example C71_bound_case : 2 * (IZR (2 ^ 62)) ^ 2 < IZR (2 ^ 127).
Proof. rewrite pow_IZR, <- mult_IZR. now apply IZR_lt. Qed.
Example C71_sharp_case : let h := f32_ofZ (2 ^ 64) in
  is_finite h = true /\ is_nan (dot2 (F32 L0) (V2 h h) (V2 h (Bopp h))) = true.
Proof. vm_compute; split; reflexivity. Qed.
Example C71_expressions_case : let e := EMul (ESub (EMul (EVar 0) (EVar 1)) (EVar 2)) (EVar 0) in
  lits_ok e = true /\ roundings e = 3%nat /\ esize e = 2%Z /\ degree e = 3%nat.
Proof. repeat split. Qed.
