(** * Proofs: input bounds under which nothing overflows *)
From Coq Require Import ZArith Bool Reals List Lra Lia.
From Flocq Require Import Core IEEE754.BinarySingleNaN.
From Verif Require Import Scalar IEEE32 RealInst Types Outcome Spec SpecR SpecMat SpecGeo SpecF32 SpecErr FloatBasics FloatOps
  ModelVec ModelCommon ModelGeom ModelMat ModelMatrix ModelQuat ModelQuaternion ModelComp ModelTransform ErrExpr.
Import ListNotations.
Local Open Scope R_scope.
(*HEADER END*)
From Verif Require Import ErrLib OvfLib PfErr.

Ltac safe L l e c d :=
  match goal with |- no_overflow _ _ _ ?o =>
    let E := fresh "E" in assert (E : o = map (eval (F32 L) (env (B754_zero false) l)) e) by (redF; reflexivity);
    rewrite E; clear E; exact (exprs_finite L l e c d eq_refl) end.

(** Every expression built from inputs, literals, +, -, * and negation: when all inputs are finite and at most M in
    absolute value and (sum of coefficients) * M^degree < 2^127, no intermediate and no final result overflows. *)
Lemma C71_expressions_pf : forall (L : Libm) (rho : nat -> f32) (e : expr) (M : R),
  lits_ok e = true -> (roundings e <= Pos.to_nat (2 ^ 23))%nat -> 1 <= M ->
  (forall n, finite (rho n)) -> (forall n, Rabs (b2r (rho n)) <= M) ->
  IZR (esize e) * M ^ degree e < IZR (2 ^ 127) -> finite (eval (F32 L) rho e).
Proof. exact expression_finite. Qed.

(** inner, cross and matrix products: n M^2 < 2^127 suffices *)
Lemma C71_products_pf : forall L : Libm,
  (forall a b, no_overflow 2 2 (l2 a ++ l2 b) [dot2 (F32 L) a b]) /\
  (forall a b, no_overflow 3 2 (l3 a ++ l3 b) [dot3 (F32 L) a b]) /\
  (forall a b, no_overflow 4 2 (l4 a ++ l4 b) [dot4 (F32 L) a b]) /\
  (forall a b, no_overflow 4 2 (lq a ++ lq b) [dot_q (F32 L) a b]) /\
  (forall a b, no_overflow 2 2 (l3 a ++ l3 b) (l3 (cross (F32 L) a b))) /\
  (forall a b, no_overflow 2 2 (lm2 a ++ lm2 b) (lm2 (mat2_mul (F32 L) a b))) /\
  (forall a b, no_overflow 3 2 (lm3 a ++ lm3 b) (lm3 (mat3_mul (F32 L) a b))) /\
  (forall a b, no_overflow 4 2 (lm4 a ++ lm4 b) (lm4 (mat4_mul (F32 L) a b))) /\
  (forall a v, no_overflow 2 2 (lm2 a ++ l2 v) (l2 (mat2_mul_vec (F32 L) a v) ++ l2 (vec_mul_mat2 (F32 L) v a))) /\
  (forall a v, no_overflow 3 2 (lm3 a ++ l3 v) (l3 (mat3_mul_vec (F32 L) a v) ++ l3 (vec_mul_mat3 (F32 L) v a))) /\
  (forall a v, no_overflow 4 2 (lm4 a ++ l4 v) (l4 (mat4_mul_vec (F32 L) a v) ++ l4 (vec_mul_mat4 (F32 L) v a))).
Proof.
  intros L.
  split; [intros [a0 a1] [b0 b1]; safe L [a0; a1; b0; b1] [dot2 ES (v2 0) (v2 2)] 2%Z 2%nat|].
  split; [intros [a0 a1 a2] [b0 b1 b2]; safe L [a0; a1; a2; b0; b1; b2] [dot3 ES (v3 0) (v3 3)] 3%Z 2%nat|].
  split; [intros [a0 a1 a2 a3] [b0 b1 b2 b3]; safe L [a0; a1; a2; a3; b0; b1; b2; b3] [dot4 ES (v4 0) (v4 4)] 4%Z 2%nat|].
  split; [intros [a0 a1 a2 a3] [b0 b1 b2 b3]; safe L [a0; a1; a2; a3; b0; b1; b2; b3] [dot_q ES (vq 0) (vq 4)] 4%Z 2%nat|].
  split; [intros [a0 a1 a2] [b0 b1 b2]; safe L [a0; a1; a2; b0; b1; b2] (l3 (cross ES (v3 0) (v3 3))) 2%Z 2%nat|].
  split; [intros [[a0 a1] [a2 a3]] [[b0 b1] [b2 b3]]; safe L [a0; a1; a2; a3; b0; b1; b2; b3] (lm2 (mat2_mul ES (vm2 0) (vm2 4))) 2%Z 2%nat|].
  split; [intros [[a0 a1 a2] [a3 a4 a5] [a6 a7 a8]] [[b0 b1 b2] [b3 b4 b5] [b6 b7 b8]];
    safe L [a0; a1; a2; a3; a4; a5; a6; a7; a8; b0; b1; b2; b3; b4; b5; b6; b7; b8] (lm3 (mat3_mul ES (vm3 0) (vm3 9))) 3%Z 2%nat|].
  split; [intros [[a0 a1 a2 a3] [a4 a5 a6 a7] [a8 a9 a10 a11] [a12 a13 a14 a15]] [[b0 b1 b2 b3] [b4 b5 b6 b7] [b8 b9 b10 b11] [b12 b13 b14 b15]];
    safe L [a0; a1; a2; a3; a4; a5; a6; a7; a8; a9; a10; a11; a12; a13; a14; a15; b0; b1; b2; b3; b4; b5; b6; b7; b8; b9; b10; b11; b12; b13; b14; b15]
      (lm4 (mat4_mul ES (vm4 0) (vm4 16))) 4%Z 2%nat|].
  split; [intros [[a0 a1] [a2 a3]] [b0 b1];
    safe L [a0; a1; a2; a3; b0; b1] (l2 (mat2_mul_vec ES (vm2 0) (v2 4)) ++ l2 (vec_mul_mat2 ES (v2 4) (vm2 0))) 2%Z 2%nat|].
  split; [intros [[a0 a1 a2] [a3 a4 a5] [a6 a7 a8]] [b0 b1 b2];
    safe L [a0; a1; a2; a3; a4; a5; a6; a7; a8; b0; b1; b2] (l3 (mat3_mul_vec ES (vm3 0) (v3 9)) ++ l3 (vec_mul_mat3 ES (v3 9) (vm3 0))) 3%Z 2%nat|].
  intros [[a0 a1 a2 a3] [a4 a5 a6 a7] [a8 a9 a10 a11] [a12 a13 a14 a15]] [b0 b1 b2 b3];
    safe L [a0; a1; a2; a3; a4; a5; a6; a7; a8; a9; a10; a11; a12; a13; a14; a15; b0; b1; b2; b3]
      (l4 (mat4_mul_vec ES (vm4 0) (v4 16)) ++ l4 (vec_mul_mat4 ES (v4 16) (vm4 0))) 4%Z 2%nat.
Qed.

(** determinants and adjugates: n! M^n and (n-1)! M^(n-1) *)
Lemma C71_determinants_pf : forall L : Libm,
  (forall m, no_overflow 2 2 (lm2 m) [determinant2 (F32 L) m]) /\
  (forall m, no_overflow 6 3 (lm3 m) [determinant3 (F32 L) m]) /\
  (forall m, no_overflow 24 4 (lm4 m) [determinant4 (F32 L) m]) /\
  (forall m, no_overflow 1 1 (lm2 m) (lm2 (adjugate2 (F32 L) m))) /\
  (forall m, no_overflow 2 2 (lm3 m) (lm3 (adjugate3 (F32 L) m))) /\
  (forall m, no_overflow 6 3 (lm4 m) (lm4 (adjugate4 (F32 L) m))).
Proof.
  intros L.
  split; [intros [[a0 a1] [a2 a3]]; safe L [a0; a1; a2; a3] [determinant2 ES (vm2 0)] 2%Z 2%nat|].
  split; [intros [[a0 a1 a2] [a3 a4 a5] [a6 a7 a8]]; safe L [a0; a1; a2; a3; a4; a5; a6; a7; a8] [determinant3 ES (vm3 0)] 6%Z 3%nat|].
  split; [intros [[a0 a1 a2 a3] [a4 a5 a6 a7] [a8 a9 a10 a11] [a12 a13 a14 a15]];
    safe L [a0; a1; a2; a3; a4; a5; a6; a7; a8; a9; a10; a11; a12; a13; a14; a15] [determinant4 ES (vm4 0)] 24%Z 4%nat|].
  split; [intros [[a0 a1] [a2 a3]]; safe L [a0; a1; a2; a3] (lm2 (adjugate2 ES (vm2 0))) 1%Z 1%nat|].
  split; [intros [[a0 a1 a2] [a3 a4 a5] [a6 a7 a8]]; safe L [a0; a1; a2; a3; a4; a5; a6; a7; a8] (lm3 (adjugate3 ES (vm3 0))) 2%Z 2%nat|].
  intros [[a0 a1 a2 a3] [a4 a5 a6 a7] [a8 a9 a10 a11] [a12 a13 a14 a15]];
    safe L [a0; a1; a2; a3; a4; a5; a6; a7; a8; a9; a10; a11; a12; a13; a14; a15] (lm4 (adjugate4 ES (vm4 0))) 6%Z 3%nat.
Qed.

(** quaternion product, rotation of a vector and conversion to a matrix *)
Lemma C71_quaternions_pf : forall L : Libm,
  (forall p q, no_overflow 32 2 (lq p ++ lq q) (lq (quat_mul (F32 L) p q))) /\
  (forall q v, no_overflow 13 3 (lq q ++ l3 v) (l3 (quat_mul_vec (F32 L) q v))) /\
  (forall q, no_overflow 5 2 (lq q) (lm3 (mat3_cast (F32 L) q))).
Proof.
  intros L.
  split; [intros [a0 a1 a2 a3] [b0 b1 b2 b3]; safe L [a0; a1; a2; a3; b0; b1; b2; b3] (lq (quat_mul ES (vq 0) (vq 4))) 32%Z 2%nat|].
  split; [intros [a0 a1 a2 a3] [b0 b1 b2]; safe L [a0; a1; a2; a3; b0; b1; b2] (l3 (quat_mul_vec ES (vq 0) (v3 4))) 13%Z 3%nat|].
  intros [a0 a1 a2 a3]; safe L [a0; a1; a2; a3] (lm3 (mat3_cast ES (vq 0))) 5%Z 2%nat.
Qed.

(** translate, scale, reflect, mix and the component reductions *)
Lemma C71_transforms_pf : forall L : Libm,
  (forall m v, no_overflow 4 2 (lm4 m ++ l3 v) (lm4 (translate (F32 L) m v))) /\
  (forall m v, no_overflow 1 2 (lm4 m ++ l3 v) (lm4 (scale (F32 L) m v))) /\
  (forall i n, no_overflow 5 3 (l2 i ++ l2 n) (l2 (reflect2 (F32 L) i n))) /\
  (forall i n, no_overflow 7 3 (l3 i ++ l3 n) (l3 (reflect3 (F32 L) i n))) /\
  (forall i n, no_overflow 9 3 (l4 i ++ l4 n) (l4 (reflect4 (F32 L) i n))) /\
  (forall x y t : f32, no_overflow 3 2 [x; y; t] [mix_f (F32 L) x y t]) /\
  (forall v, no_overflow 2 1 (l2 v) [compAdd2 (F32 L) v]) /\ (forall v, no_overflow 1 2 (l2 v) [compMul2 (F32 L) v]) /\
  (forall v, no_overflow 3 1 (l3 v) [compAdd3 (F32 L) v]) /\ (forall v, no_overflow 1 3 (l3 v) [compMul3 (F32 L) v]) /\
  (forall v, no_overflow 4 1 (l4 v) [compAdd4 (F32 L) v]) /\ (forall v, no_overflow 1 4 (l4 v) [compMul4 (F32 L) v]).
Proof.
  intros L.
  split; [intros [[a0 a1 a2 a3] [a4 a5 a6 a7] [a8 a9 a10 a11] [a12 a13 a14 a15]] [b0 b1 b2];
    safe L [a0; a1; a2; a3; a4; a5; a6; a7; a8; a9; a10; a11; a12; a13; a14; a15; b0; b1; b2] (lm4 (translate ES (vm4 0) (v3 16))) 4%Z 2%nat|].
  split; [intros [[a0 a1 a2 a3] [a4 a5 a6 a7] [a8 a9 a10 a11] [a12 a13 a14 a15]] [b0 b1 b2];
    safe L [a0; a1; a2; a3; a4; a5; a6; a7; a8; a9; a10; a11; a12; a13; a14; a15; b0; b1; b2] (lm4 (scale ES (vm4 0) (v3 16))) 1%Z 2%nat|].
  split; [intros [a0 a1] [b0 b1]; safe L [a0; a1; b0; b1] (l2 (reflect2 ES (v2 0) (v2 2))) 5%Z 3%nat|].
  split; [intros [a0 a1 a2] [b0 b1 b2]; safe L [a0; a1; a2; b0; b1; b2] (l3 (reflect3 ES (v3 0) (v3 3))) 7%Z 3%nat|].
  split; [intros [a0 a1 a2 a3] [b0 b1 b2 b3]; safe L [a0; a1; a2; a3; b0; b1; b2; b3] (l4 (reflect4 ES (v4 0) (v4 4))) 9%Z 3%nat|].
  split; [intros x y t; safe L [x; y; t] [mix_f ES (EVar 0) (EVar 1) (EVar 2)] 3%Z 2%nat|].
  split; [intros [a0 a1]; safe L [a0; a1] [compAdd2 ES (v2 0)] 2%Z 1%nat|].
  split; [intros [a0 a1]; safe L [a0; a1] [compMul2 ES (v2 0)] 1%Z 2%nat|].
  split; [intros [a0 a1 a2]; safe L [a0; a1; a2] [compAdd3 ES (v3 0)] 3%Z 1%nat|].
  split; [intros [a0 a1 a2]; safe L [a0; a1; a2] [compMul3 ES (v3 0)] 1%Z 3%nat|].
  split; [intros [a0 a1 a2 a3]; safe L [a0; a1; a2; a3] [compAdd4 ES (v4 0)] 4%Z 1%nat|].
  intros [a0 a1 a2 a3]; safe L [a0; a1; a2; a3] [compMul4 ES (v4 0)] 1%Z 4%nat.
Qed.
(*PROPS
(** The bound is of the right order: M = 2^62 is allowed for dot2, and at M = 2^64 the inner product of two
    orthogonal vectors is NaN. *)
Example C71_bound_case : 2 * (IZR (2 ^ 62)) ^ 2 < IZR (2 ^ 127).
Proof. rewrite pow_IZR, <- mult_IZR. now apply IZR_lt. Qed.
Example C71_sharp_case : let h := f32_ofZ (2 ^ 64) in
  is_finite h = true /\ is_nan (dot2 (F32 L0) (V2 h h) (V2 h (Bopp h))) = true.
Proof. vm_compute; split; reflexivity. Qed.
Example C71_expressions_case : let e := EMul (ESub (EMul (EVar 0) (EVar 1)) (EVar 2)) (EVar 0) in
  lits_ok e = true /\ roundings e = 3%nat /\ esize e = 2%Z /\ degree e = 3%nat.
Proof. repeat split. Qed.
PROPS*)
