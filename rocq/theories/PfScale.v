(** * Proofs: scaling by powers of two *)
From Coq Require Import ZArith Bool Reals List Lra Lia.
From Flocq Require Import Core IEEE754.BinarySingleNaN.
From Verif Require Import Scalar IEEE32 RealInst Types Outcome Spec SpecR SpecMat SpecGeo SpecF32 SpecErr SpecGrid FloatBasics FloatOps
  ModelVec ModelCommon ModelExp ModelGeom ModelMat ModelMatrix ModelQuat ModelQuaternion ModelComp ModelTransform ErrExpr ErrLib F32Tac.
Import ListNotations.
Local Open Scope R_scope.
(*HEADER END*)
From Verif Require Import OvfLib PfErr GridLib ScaleLib PfInv LenLib FloatAlg.
Ltac redF1 := cbv -[Bplus Bmult Bminus Bopp Bsqrt f32_lit f32_ofZ].
Section SQ.
  Variable S : Scalar.
  Local Open Scope scalar_scope.
  Definition sq4 (v : vec4 S) : S := x4 v * x4 v + y4 v * y4 v + z4 v * z4 v + w4 v * w4 v.
  Definition sqq (v : quat S) : S := qx v * qx v + qy v * qy v + qz v * qz v + qw v * qw v.
End SQ.

Ltac degs_ok := cbv -[Z.add Z.mul Z.sub Z.opp Z.eqb];
  repeat match goal with |- context [Z.eqb ?a ?b] => replace (Z.eqb a b) with true by (symmetry; apply Z.eqb_eq; lia); cbv iota end;
  repeat (apply (f_equal2 cons); [apply f_equal; lia|]); reflexivity.
Ltac scaling L l l' e d h :=
  match goal with |- scales _ _ ?ps ?q _ _ ?o ?o' =>
    let E := fresh "E" in let E' := fresh "E" in
    assert (E : o = map (eval (F32 L) (env (B754_zero false) l)) e) by (redF; reflexivity);
    assert (E' : o' = map (eval (F32 L) (env (B754_zero false) l')) e) by (redF; reflexivity);
    rewrite E, E'; clear E E'; apply (exprs_scale L l l' e d h ps q eq_refl); degs_ok end.

(** Every expression built from inputs, literals, one half, +, -, * and negation that is homogeneous in the scaled inputs:
    the computed value is scaled exactly, if inputs are on a grid 2^-s fine enough for no product to underflow and
    both results are finite. *)
Lemma C80_expressions_pf : forall (L : Libm) (rho rho' : nat -> f32) (e : expr) (s : nat) (p : nat -> Z) (q : Z),
  lits_ok e = true -> hdeg p e = Some q -> (forall n, b2r (rho' n) = b2r (rho n) * bpow radix2 (p n)) ->
  (forall n, on_grid (Z.of_nat s) (b2r (rho n))) -> (forall n, on_grid (Z.of_nat s) (b2r (rho' n))) ->
  (s * degree e + halves e <= 149)%nat -> finite (eval (F32 L) rho e) -> finite (eval (F32 L) rho' e) ->
  b2r (eval (F32 L) rho' e) = b2r (eval (F32 L) rho e) * bpow radix2 q.
Proof. exact expression_scales. Qed.

(** inner, cross and matrix products scale in both arguments *)
Lemma C80_products_pf : forall L : Libm,
  (forall (p q : Z) a b a' b', scales 2 0 (repeat p 2 ++ repeat q 2) (p + q) (l2 a ++ l2 b) (l2 a' ++ l2 b') ([dot2 (F32 L) a b]) ([dot2 (F32 L) a' b'])) /\
  (forall (p q : Z) a b a' b', scales 2 0 (repeat p 3 ++ repeat q 3) (p + q) (l3 a ++ l3 b) (l3 a' ++ l3 b') ([dot3 (F32 L) a b]) ([dot3 (F32 L) a' b'])) /\
  (forall (p q : Z) a b a' b', scales 2 0 (repeat p 4 ++ repeat q 4) (p + q) (l4 a ++ l4 b) (l4 a' ++ l4 b') ([dot4 (F32 L) a b]) ([dot4 (F32 L) a' b'])) /\
  (forall (p q : Z) a b a' b', scales 2 0 (repeat p 4 ++ repeat q 4) (p + q) (lq a ++ lq b) (lq a' ++ lq b') ([dot_q (F32 L) a b]) ([dot_q (F32 L) a' b'])) /\
  (forall (p q : Z) a b a' b', scales 2 0 (repeat p 3 ++ repeat q 3) (p + q) (l3 a ++ l3 b) (l3 a' ++ l3 b') (l3 (cross (F32 L) a b)) (l3 (cross (F32 L) a' b'))) /\
  (forall (p q : Z) a b a' b', scales 2 0 (repeat p 4 ++ repeat q 4) (p + q) (lm2 a ++ lm2 b) (lm2 a' ++ lm2 b') (lm2 (mat2_mul (F32 L) a b)) (lm2 (mat2_mul (F32 L) a' b'))) /\
  (forall (p q : Z) a b a' b', scales 2 0 (repeat p 9 ++ repeat q 9) (p + q) (lm3 a ++ lm3 b) (lm3 a' ++ lm3 b') (lm3 (mat3_mul (F32 L) a b)) (lm3 (mat3_mul (F32 L) a' b'))) /\
  (forall (p q : Z) a b a' b', scales 2 0 (repeat p 16 ++ repeat q 16) (p + q) (lm4 a ++ lm4 b) (lm4 a' ++ lm4 b') (lm4 (mat4_mul (F32 L) a b)) (lm4 (mat4_mul (F32 L) a' b'))) /\
  (forall (p q : Z) a v a' v', scales 2 0 (repeat p 4 ++ repeat q 2) (p + q) (lm2 a ++ l2 v) (lm2 a' ++ l2 v') (l2 (mat2_mul_vec (F32 L) a v)) (l2 (mat2_mul_vec (F32 L) a' v'))) /\
  (forall (p q : Z) a v a' v', scales 2 0 (repeat p 9 ++ repeat q 3) (p + q) (lm3 a ++ l3 v) (lm3 a' ++ l3 v') (l3 (mat3_mul_vec (F32 L) a v)) (l3 (mat3_mul_vec (F32 L) a' v'))) /\
  (forall (p q : Z) a v a' v', scales 2 0 (repeat p 16 ++ repeat q 4) (p + q) (lm4 a ++ l4 v) (lm4 a' ++ l4 v') (l4 (mat4_mul_vec (F32 L) a v)) (l4 (mat4_mul_vec (F32 L) a' v'))) /\
  (forall (p q : Z) a v a' v', scales 2 0 (repeat p 4 ++ repeat q 2) (p + q) (lm2 a ++ l2 v) (lm2 a' ++ l2 v') (l2 (vec_mul_mat2 (F32 L) v a)) (l2 (vec_mul_mat2 (F32 L) v' a'))) /\
  (forall (p q : Z) a v a' v', scales 2 0 (repeat p 9 ++ repeat q 3) (p + q) (lm3 a ++ l3 v) (lm3 a' ++ l3 v') (l3 (vec_mul_mat3 (F32 L) v a)) (l3 (vec_mul_mat3 (F32 L) v' a'))) /\
  (forall (p q : Z) a v a' v', scales 2 0 (repeat p 16 ++ repeat q 4) (p + q) (lm4 a ++ l4 v) (lm4 a' ++ l4 v') (l4 (vec_mul_mat4 (F32 L) v a)) (l4 (vec_mul_mat4 (F32 L) v' a'))).
Proof.
  intros L.
  split; [intros p q [a0 a1] [b0 b1] [a'0 a'1] [b'0 b'1]; scaling L [a0; a1; b0; b1] [a'0; a'1; b'0; b'1] ([dot2 ES (v2 0) (v2 2)]) 2%nat 0%nat|].
  split; [intros p q [a0 a1 a2] [b0 b1 b2] [a'0 a'1 a'2] [b'0 b'1 b'2]; scaling L [a0; a1; a2; b0; b1; b2] [a'0; a'1; a'2; b'0; b'1; b'2] ([dot3 ES (v3 0) (v3 3)]) 2%nat 0%nat|].
  split; [intros p q [a0 a1 a2 a3] [b0 b1 b2 b3] [a'0 a'1 a'2 a'3] [b'0 b'1 b'2 b'3]; scaling L [a0; a1; a2; a3; b0; b1; b2; b3] [a'0; a'1; a'2; a'3; b'0; b'1; b'2; b'3] ([dot4 ES (v4 0) (v4 4)]) 2%nat 0%nat|].
  split; [intros p q [a0 a1 a2 a3] [b0 b1 b2 b3] [a'0 a'1 a'2 a'3] [b'0 b'1 b'2 b'3]; scaling L [a0; a1; a2; a3; b0; b1; b2; b3] [a'0; a'1; a'2; a'3; b'0; b'1; b'2; b'3] ([dot_q ES (vq 0) (vq 4)]) 2%nat 0%nat|].
  split; [intros p q [a0 a1 a2] [b0 b1 b2] [a'0 a'1 a'2] [b'0 b'1 b'2]; scaling L [a0; a1; a2; b0; b1; b2] [a'0; a'1; a'2; b'0; b'1; b'2] (l3 (cross ES (v3 0) (v3 3))) 2%nat 0%nat|].
  split; [intros p q [[a0 a1] [a2 a3]] [[b0 b1] [b2 b3]] [[a'0 a'1] [a'2 a'3]] [[b'0 b'1] [b'2 b'3]]; scaling L [a0; a1; a2; a3; b0; b1; b2; b3] [a'0; a'1; a'2; a'3; b'0; b'1; b'2; b'3] (lm2 (mat2_mul ES (vm2 0) (vm2 4))) 2%nat 0%nat|].
  split; [intros p q [[a0 a1 a2] [a3 a4 a5] [a6 a7 a8]] [[b0 b1 b2] [b3 b4 b5] [b6 b7 b8]] [[a'0 a'1 a'2] [a'3 a'4 a'5] [a'6 a'7 a'8]] [[b'0 b'1 b'2] [b'3 b'4 b'5] [b'6 b'7 b'8]]; scaling L [a0; a1; a2; a3; a4; a5; a6; a7; a8; b0; b1; b2; b3; b4; b5; b6; b7; b8] [a'0; a'1; a'2; a'3; a'4; a'5; a'6; a'7; a'8; b'0; b'1; b'2; b'3; b'4; b'5; b'6; b'7; b'8] (lm3 (mat3_mul ES (vm3 0) (vm3 9))) 2%nat 0%nat|].
  split; [intros p q [[a0 a1 a2 a3] [a4 a5 a6 a7] [a8 a9 a10 a11] [a12 a13 a14 a15]] [[b0 b1 b2 b3] [b4 b5 b6 b7] [b8 b9 b10 b11] [b12 b13 b14 b15]] [[a'0 a'1 a'2 a'3] [a'4 a'5 a'6 a'7] [a'8 a'9 a'10 a'11] [a'12 a'13 a'14 a'15]] [[b'0 b'1 b'2 b'3] [b'4 b'5 b'6 b'7] [b'8 b'9 b'10 b'11] [b'12 b'13 b'14 b'15]]; scaling L [a0; a1; a2; a3; a4; a5; a6; a7; a8; a9; a10; a11; a12; a13; a14; a15; b0; b1; b2; b3; b4; b5; b6; b7; b8; b9; b10; b11; b12; b13; b14; b15] [a'0; a'1; a'2; a'3; a'4; a'5; a'6; a'7; a'8; a'9; a'10; a'11; a'12; a'13; a'14; a'15; b'0; b'1; b'2; b'3; b'4; b'5; b'6; b'7; b'8; b'9; b'10; b'11; b'12; b'13; b'14; b'15] (lm4 (mat4_mul ES (vm4 0) (vm4 16))) 2%nat 0%nat|].
  split; [intros p q [[a0 a1] [a2 a3]] [b0 b1] [[a'0 a'1] [a'2 a'3]] [b'0 b'1]; scaling L [a0; a1; a2; a3; b0; b1] [a'0; a'1; a'2; a'3; b'0; b'1] (l2 (mat2_mul_vec ES (vm2 0) (v2 4))) 2%nat 0%nat|].
  split; [intros p q [[a0 a1 a2] [a3 a4 a5] [a6 a7 a8]] [b0 b1 b2] [[a'0 a'1 a'2] [a'3 a'4 a'5] [a'6 a'7 a'8]] [b'0 b'1 b'2]; scaling L [a0; a1; a2; a3; a4; a5; a6; a7; a8; b0; b1; b2] [a'0; a'1; a'2; a'3; a'4; a'5; a'6; a'7; a'8; b'0; b'1; b'2] (l3 (mat3_mul_vec ES (vm3 0) (v3 9))) 2%nat 0%nat|].
  split; [intros p q [[a0 a1 a2 a3] [a4 a5 a6 a7] [a8 a9 a10 a11] [a12 a13 a14 a15]] [b0 b1 b2 b3] [[a'0 a'1 a'2 a'3] [a'4 a'5 a'6 a'7] [a'8 a'9 a'10 a'11] [a'12 a'13 a'14 a'15]] [b'0 b'1 b'2 b'3]; scaling L [a0; a1; a2; a3; a4; a5; a6; a7; a8; a9; a10; a11; a12; a13; a14; a15; b0; b1; b2; b3] [a'0; a'1; a'2; a'3; a'4; a'5; a'6; a'7; a'8; a'9; a'10; a'11; a'12; a'13; a'14; a'15; b'0; b'1; b'2; b'3] (l4 (mat4_mul_vec ES (vm4 0) (v4 16))) 2%nat 0%nat|].
  split; [intros p q [[a0 a1] [a2 a3]] [b0 b1] [[a'0 a'1] [a'2 a'3]] [b'0 b'1]; scaling L [a0; a1; a2; a3; b0; b1] [a'0; a'1; a'2; a'3; b'0; b'1] (l2 (vec_mul_mat2 ES (v2 4) (vm2 0))) 2%nat 0%nat|].
  split; [intros p q [[a0 a1 a2] [a3 a4 a5] [a6 a7 a8]] [b0 b1 b2] [[a'0 a'1 a'2] [a'3 a'4 a'5] [a'6 a'7 a'8]] [b'0 b'1 b'2]; scaling L [a0; a1; a2; a3; a4; a5; a6; a7; a8; b0; b1; b2] [a'0; a'1; a'2; a'3; a'4; a'5; a'6; a'7; a'8; b'0; b'1; b'2] (l3 (vec_mul_mat3 ES (v3 9) (vm3 0))) 2%nat 0%nat|].
  intros p q [[a0 a1 a2 a3] [a4 a5 a6 a7] [a8 a9 a10 a11] [a12 a13 a14 a15]] [b0 b1 b2 b3] [[a'0 a'1 a'2 a'3] [a'4 a'5 a'6 a'7] [a'8 a'9 a'10 a'11] [a'12 a'13 a'14 a'15]] [b'0 b'1 b'2 b'3]; scaling L [a0; a1; a2; a3; a4; a5; a6; a7; a8; a9; a10; a11; a12; a13; a14; a15; b0; b1; b2; b3] [a'0; a'1; a'2; a'3; a'4; a'5; a'6; a'7; a'8; a'9; a'10; a'11; a'12; a'13; a'14; a'15; b'0; b'1; b'2; b'3] (l4 (vec_mul_mat4 ES (v4 16) (vm4 0))) 2%nat 0%nat.
Qed.
(** determinants and adjugates scale with the n-th and (n-1)-th power *)
Lemma C80_determinants_pf : forall L : Libm,
  (forall (p : Z) m m', scales 2 0 (repeat p 4) (2 * p) (lm2 m) (lm2 m') ([determinant2 (F32 L) m]) ([determinant2 (F32 L) m'])) /\
  (forall (p : Z) m m', scales 3 0 (repeat p 9) (3 * p) (lm3 m) (lm3 m') ([determinant3 (F32 L) m]) ([determinant3 (F32 L) m'])) /\
  (forall (p : Z) m m', scales 4 0 (repeat p 16) (4 * p) (lm4 m) (lm4 m') ([determinant4 (F32 L) m]) ([determinant4 (F32 L) m'])) /\
  (forall (p : Z) m m', scales 1 0 (repeat p 4) (1 * p) (lm2 m) (lm2 m') (lm2 (adjugate2 (F32 L) m)) (lm2 (adjugate2 (F32 L) m'))) /\
  (forall (p : Z) m m', scales 2 0 (repeat p 9) (2 * p) (lm3 m) (lm3 m') (lm3 (adjugate3 (F32 L) m)) (lm3 (adjugate3 (F32 L) m'))) /\
  (forall (p : Z) m m', scales 3 0 (repeat p 16) (3 * p) (lm4 m) (lm4 m') (lm4 (adjugate4 (F32 L) m)) (lm4 (adjugate4 (F32 L) m'))).
Proof.
  intros L.
  split; [intros p [[a0 a1] [a2 a3]] [[a'0 a'1] [a'2 a'3]]; scaling L [a0; a1; a2; a3] [a'0; a'1; a'2; a'3] ([determinant2 ES (vm2 0)]) 2%nat 0%nat|].
  split; [intros p [[a0 a1 a2] [a3 a4 a5] [a6 a7 a8]] [[a'0 a'1 a'2] [a'3 a'4 a'5] [a'6 a'7 a'8]]; scaling L [a0; a1; a2; a3; a4; a5; a6; a7; a8] [a'0; a'1; a'2; a'3; a'4; a'5; a'6; a'7; a'8] ([determinant3 ES (vm3 0)]) 3%nat 0%nat|].
  split; [intros p [[a0 a1 a2 a3] [a4 a5 a6 a7] [a8 a9 a10 a11] [a12 a13 a14 a15]] [[a'0 a'1 a'2 a'3] [a'4 a'5 a'6 a'7] [a'8 a'9 a'10 a'11] [a'12 a'13 a'14 a'15]]; scaling L [a0; a1; a2; a3; a4; a5; a6; a7; a8; a9; a10; a11; a12; a13; a14; a15] [a'0; a'1; a'2; a'3; a'4; a'5; a'6; a'7; a'8; a'9; a'10; a'11; a'12; a'13; a'14; a'15] ([determinant4 ES (vm4 0)]) 4%nat 0%nat|].
  split; [intros p [[a0 a1] [a2 a3]] [[a'0 a'1] [a'2 a'3]]; scaling L [a0; a1; a2; a3] [a'0; a'1; a'2; a'3] (lm2 (adjugate2 ES (vm2 0))) 1%nat 0%nat|].
  split; [intros p [[a0 a1 a2] [a3 a4 a5] [a6 a7 a8]] [[a'0 a'1 a'2] [a'3 a'4 a'5] [a'6 a'7 a'8]]; scaling L [a0; a1; a2; a3; a4; a5; a6; a7; a8] [a'0; a'1; a'2; a'3; a'4; a'5; a'6; a'7; a'8] (lm3 (adjugate3 ES (vm3 0))) 2%nat 0%nat|].
  intros p [[a0 a1 a2 a3] [a4 a5 a6 a7] [a8 a9 a10 a11] [a12 a13 a14 a15]] [[a'0 a'1 a'2 a'3] [a'4 a'5 a'6 a'7] [a'8 a'9 a'10 a'11] [a'12 a'13 a'14 a'15]]; scaling L [a0; a1; a2; a3; a4; a5; a6; a7; a8; a9; a10; a11; a12; a13; a14; a15] [a'0; a'1; a'2; a'3; a'4; a'5; a'6; a'7; a'8; a'9; a'10; a'11; a'12; a'13; a'14; a'15] (lm4 (adjugate4 ES (vm4 0))) 3%nat 0%nat.
Qed.
(** quaternion product, rotation of scaled vectors, translate and scale of scaled matrices, reflection of scaled vectors, mix and component reductions *)
Lemma C80_transforms_pf : forall L : Libm,
  (forall (p q : Z) a b a' b', scales 2 1 (repeat p 4 ++ repeat q 4) (p + q) (lq a ++ lq b) (lq a' ++ lq b') (lq (quat_mul (F32 L) a b)) (lq (quat_mul (F32 L) a' b'))) /\
  (forall (p : Z) a v a' v', scales 3 0 (repeat 0%Z 4 ++ repeat p 3) (p) (lq a ++ l3 v) (lq a' ++ l3 v') (l3 (quat_mul_vec (F32 L) a v)) (l3 (quat_mul_vec (F32 L) a' v'))) /\
  (forall (p : Z) m v m' v', scales 2 0 (repeat p 16 ++ repeat 0%Z 3) (p) (lm4 m ++ l3 v) (lm4 m' ++ l3 v') (lm4 (translate (F32 L) m v)) (lm4 (translate (F32 L) m' v'))) /\
  (forall (p : Z) m v m' v', scales 2 0 (repeat p 16 ++ repeat 0%Z 3) (p) (lm4 m ++ l3 v) (lm4 m' ++ l3 v') (lm4 (scale (F32 L) m v)) (lm4 (scale (F32 L) m' v'))) /\
  (forall (p : Z) i u i' u', scales 3 0 (repeat p 2 ++ repeat 0%Z 2) (p) (l2 i ++ l2 u) (l2 i' ++ l2 u') (l2 (reflect2 (F32 L) i u)) (l2 (reflect2 (F32 L) i' u'))) /\
  (forall (p : Z) i u i' u', scales 3 0 (repeat p 3 ++ repeat 0%Z 3) (p) (l3 i ++ l3 u) (l3 i' ++ l3 u') (l3 (reflect3 (F32 L) i u)) (l3 (reflect3 (F32 L) i' u'))) /\
  (forall (p : Z) i u i' u', scales 3 0 (repeat p 4 ++ repeat 0%Z 4) (p) (l4 i ++ l4 u) (l4 i' ++ l4 u') (l4 (reflect4 (F32 L) i u)) (l4 (reflect4 (F32 L) i' u'))) /\
  (forall (p : Z) (x : f32) (y : f32) (t : f32) (x' : f32) (y' : f32) (t' : f32), scales 2 0 (repeat p 1 ++ repeat p 1 ++ repeat 0%Z 1) (p) ([x] ++ [y] ++ [t]) ([x'] ++ [y'] ++ [t']) ([mix_f (F32 L) x y t]) ([mix_f (F32 L) x' y' t'])) /\
  (forall (p : Z) v v', scales 1 0 (repeat p 2) (p) (l2 v) (l2 v') ([compAdd2 (F32 L) v]) ([compAdd2 (F32 L) v'])) /\
  (forall (p : Z) v v', scales 2 0 (repeat p 2) (2 * p) (l2 v) (l2 v') ([compMul2 (F32 L) v]) ([compMul2 (F32 L) v'])) /\
  (forall (p : Z) v v', scales 1 0 (repeat p 3) (p) (l3 v) (l3 v') ([compAdd3 (F32 L) v]) ([compAdd3 (F32 L) v'])) /\
  (forall (p : Z) v v', scales 3 0 (repeat p 3) (3 * p) (l3 v) (l3 v') ([compMul3 (F32 L) v]) ([compMul3 (F32 L) v'])) /\
  (forall (p : Z) v v', scales 1 0 (repeat p 4) (p) (l4 v) (l4 v') ([compAdd4 (F32 L) v]) ([compAdd4 (F32 L) v'])) /\
  (forall (p : Z) v v', scales 4 0 (repeat p 4) (4 * p) (l4 v) (l4 v') ([compMul4 (F32 L) v]) ([compMul4 (F32 L) v'])).
Proof.
  intros L.
  split; [intros p q [a0 a1 a2 a3] [b0 b1 b2 b3] [a'0 a'1 a'2 a'3] [b'0 b'1 b'2 b'3]; scaling L [a0; a1; a2; a3; b0; b1; b2; b3] [a'0; a'1; a'2; a'3; b'0; b'1; b'2; b'3] (lq (quat_mul ES (vq 0) (vq 4))) 2%nat 1%nat|].
  split; [intros p [a0 a1 a2 a3] [b0 b1 b2] [a'0 a'1 a'2 a'3] [b'0 b'1 b'2]; scaling L [a0; a1; a2; a3; b0; b1; b2] [a'0; a'1; a'2; a'3; b'0; b'1; b'2] (l3 (quat_mul_vec ES (vq 0) (v3 4))) 3%nat 0%nat|].
  split; [intros p [[a0 a1 a2 a3] [a4 a5 a6 a7] [a8 a9 a10 a11] [a12 a13 a14 a15]] [b0 b1 b2] [[a'0 a'1 a'2 a'3] [a'4 a'5 a'6 a'7] [a'8 a'9 a'10 a'11] [a'12 a'13 a'14 a'15]] [b'0 b'1 b'2]; scaling L [a0; a1; a2; a3; a4; a5; a6; a7; a8; a9; a10; a11; a12; a13; a14; a15; b0; b1; b2] [a'0; a'1; a'2; a'3; a'4; a'5; a'6; a'7; a'8; a'9; a'10; a'11; a'12; a'13; a'14; a'15; b'0; b'1; b'2] (lm4 (translate ES (vm4 0) (v3 16))) 2%nat 0%nat|].
  split; [intros p [[a0 a1 a2 a3] [a4 a5 a6 a7] [a8 a9 a10 a11] [a12 a13 a14 a15]] [b0 b1 b2] [[a'0 a'1 a'2 a'3] [a'4 a'5 a'6 a'7] [a'8 a'9 a'10 a'11] [a'12 a'13 a'14 a'15]] [b'0 b'1 b'2]; scaling L [a0; a1; a2; a3; a4; a5; a6; a7; a8; a9; a10; a11; a12; a13; a14; a15; b0; b1; b2] [a'0; a'1; a'2; a'3; a'4; a'5; a'6; a'7; a'8; a'9; a'10; a'11; a'12; a'13; a'14; a'15; b'0; b'1; b'2] (lm4 (scale ES (vm4 0) (v3 16))) 2%nat 0%nat|].
  split; [intros p [a0 a1] [b0 b1] [a'0 a'1] [b'0 b'1]; scaling L [a0; a1; b0; b1] [a'0; a'1; b'0; b'1] (l2 (reflect2 ES (v2 0) (v2 2))) 3%nat 0%nat|].
  split; [intros p [a0 a1 a2] [b0 b1 b2] [a'0 a'1 a'2] [b'0 b'1 b'2]; scaling L [a0; a1; a2; b0; b1; b2] [a'0; a'1; a'2; b'0; b'1; b'2] (l3 (reflect3 ES (v3 0) (v3 3))) 3%nat 0%nat|].
  split; [intros p [a0 a1 a2 a3] [b0 b1 b2 b3] [a'0 a'1 a'2 a'3] [b'0 b'1 b'2 b'3]; scaling L [a0; a1; a2; a3; b0; b1; b2; b3] [a'0; a'1; a'2; a'3; b'0; b'1; b'2; b'3] (l4 (reflect4 ES (v4 0) (v4 4))) 3%nat 0%nat|].
  split; [intros p a b c a' b' c'; scaling L [a; b; c] [a'; b'; c'] ([mix_f ES (EVar 0) (EVar 1) (EVar 2)]) 2%nat 0%nat|].
  split; [intros p [a0 a1] [a'0 a'1]; scaling L [a0; a1] [a'0; a'1] ([compAdd2 ES (v2 0)]) 1%nat 0%nat|].
  split; [intros p [a0 a1] [a'0 a'1]; scaling L [a0; a1] [a'0; a'1] ([compMul2 ES (v2 0)]) 2%nat 0%nat|].
  split; [intros p [a0 a1 a2] [a'0 a'1 a'2]; scaling L [a0; a1; a2] [a'0; a'1; a'2] ([compAdd3 ES (v3 0)]) 1%nat 0%nat|].
  split; [intros p [a0 a1 a2] [a'0 a'1 a'2]; scaling L [a0; a1; a2] [a'0; a'1; a'2] ([compMul3 ES (v3 0)]) 3%nat 0%nat|].
  split; [intros p [a0 a1 a2 a3] [a'0 a'1 a'2 a'3]; scaling L [a0; a1; a2; a3] [a'0; a'1; a'2; a'3] ([compAdd4 ES (v4 0)]) 1%nat 0%nat|].
  intros p [a0 a1 a2 a3] [a'0 a'1 a'2 a'3]; scaling L [a0; a1; a2; a3] [a'0; a'1; a'2; a'3] ([compMul4 ES (v4 0)]) 4%nat 0%nat.
Qed.

(** ** Lengths *)
Lemma one_scales d ps q i i' o o' t : scales d 0 ps q i i' [o] [o'] -> (d * (t + 23) <= 149)%nat -> scaled_by ps i i' -> above t i -> above t i' ->
  finite o -> finite o' -> scaled q o o'.
Proof.
  intros S Ht H A A' F F'. assert (G : Forall2 (scaled q) [o] [o']) by (apply (S t); trivial; [lia|now repeat constructor|now repeat constructor]). now inversion G.
Qed.
Ltac lens L l l' e e1 :=
  intros Ht HS A A' F F';
  match goal with |- scaled ?p ?o ?o' =>
    let E := fresh "E" in let E' := fresh "E" in
    assert (E : o = Bsqrt mode_NE (eval (F32 L) (env (B754_zero false) l) e)) by (redF1; reflexivity);
    assert (E' : o' = Bsqrt mode_NE (eval (F32 L) (env (B754_zero false) l') e)) by (redF1; reflexivity);
    rewrite E in F |- *; rewrite E' in F' |- *; clear E E'; apply sqrt_scaled; trivial;
    refine (one_scales 2 _ (2 * p) _ _ _ _ _ (exprs_scale L l l' [e] 2 0 _ (2 * p) eq_refl _) Ht HS A A' (sqrt_arg_finite _ F) (sqrt_arg_finite _ F')); degs_ok end.
(** length of vectors and quaternions, and distance *)
Lemma C80_lengths_pf : forall L : Libm,
  length_scales 2 l2 (length2 (F32 L)) /\ length_scales 3 l3 (length3 (F32 L)) /\ length_scales 4 l4 (length4 (F32 L)) /\ length_scales 4 lq (length_q (F32 L)) /\
  distance_scales 2 l2 (distance2 (F32 L)) /\ distance_scales 3 l3 (distance3 (F32 L)) /\ distance_scales 4 l4 (distance4 (F32 L)).
Proof.
  intros L. split; [|split; [|split; [|split; [|split; [|split]]]]].
  - intros t p [a0 a1] [b0 b1]. lens L [a0; a1] [b0; b1] (dot2 ES (v2 0) (v2 0)) tt.
  - intros t p [a0 a1 a2] [b0 b1 b2]. lens L [a0; a1; a2] [b0; b1; b2] (dot3 ES (v3 0) (v3 0)) tt.
  - intros t p [a0 a1 a2 a3] [b0 b1 b2 b3]. lens L [a0; a1; a2; a3] [b0; b1; b2; b3] (sq4 ES (v4 0)) tt.
  - intros t p [a0 a1 a2 a3] [b0 b1 b2 b3]. lens L [a0; a1; a2; a3] [b0; b1; b2; b3] (sqq ES (vq 0)) tt.
  - intros t p [a0 a1] [c0 c1] [b0 b1] [d0 d1]. lens L [a0; a1; c0; c1] [b0; b1; d0; d1] (dot2 ES (vec2_sub ES (v2 0) (v2 2)) (vec2_sub ES (v2 0) (v2 2))) tt.
  - intros t p [a0 a1 a2] [c0 c1 c2] [b0 b1 b2] [d0 d1 d2]. lens L [a0; a1; a2; c0; c1; c2] [b0; b1; b2; d0; d1; d2] (dot3 ES (vec3_sub ES (v3 0) (v3 3)) (vec3_sub ES (v3 0) (v3 3))) tt.
  - intros t p [a0 a1 a2 a3] [c0 c1 c2 c3] [b0 b1 b2 b3] [d0 d1 d2 d3]. lens L [a0; a1; a2; a3; c0; c1; c2; c3] [b0; b1; b2; b3; d0; d1; d2; d3] (sq4 ES (vec4_sub ES (v4 0) (v4 4))) tt.
Qed.
Lemma norm_same n p (l l' : list f32) (r r' : f32) (op : f32 -> f32 -> f32) : length l = n -> scaled_by (repeat p n) l l' ->
  (forall x x', scaled p x x' -> finite (op x r) -> finite (op x' r') /\ b2r (op x' r') = b2r (op x r)) ->
  all_finite (map (fun x => op x r) l) -> all_finite (map (fun x => op x r') l') /\ vals (map (fun x => op x r') l') = vals (map (fun x => op x r) l).
Proof.
  intros Hn H Hop. revert l l' Hn H. induction n as [|n IH]; intros [|x l] [|y l'] Hn H F; try discriminate Hn; try contradiction; [split; [apply Forall_nil|reflexivity]|].
  destruct H as [H1 H2]. cbn [map] in *. apply Forall_cons_iff in F as [F1 F2]. destruct (Hop x y H1 F1) as [G1 G2]. injection Hn as Hn. destruct (IH l l' Hn H2 F2) as [G3 G4].
  split; [now apply Forall_cons|]. unfold vals in *. cbn [map]. now rewrite G2, G4.
Qed.
Ltac nrms L n l l' e :=
  intros Ht HS A A' F F' P G; cbv beta in *;
  match type of HS with scaled_by (repeat ?p _) _ _ =>
  match type of F with finite ?s => match type of F' with finite ?s' =>
    let E := fresh "E" in let E' := fresh "E" in
    assert (E : s = eval (F32 L) (env (B754_zero false) l) e) by (redF1; reflexivity);
    assert (E' : s' = eval (F32 L) (env (B754_zero false) l') e) by (redF1; reflexivity);
    assert (S : scaled (2 * p) s s') by
      (rewrite E, E' in *; refine (one_scales 2 _ (2 * p) _ _ _ _ _ (exprs_scale L l l' [e] 2 0 _ (2 * p) eq_refl _) Ht HS A A' F F'); degs_ok);
    assert (P' : 0 < b2r s') by (destruct S as (_ & _ & Q); rewrite Q; apply Rmult_lt_0_compat; [exact P|apply bpow_gt_0]);
    assert (T : scaled p (Bsqrt mode_NE s) (Bsqrt mode_NE s')) by (apply sqrt_scaled; [exact S|apply finite_sqrt; [exact F|lra]|apply finite_sqrt; [exact F'|lra]]);
    pose proof (sqrt_range s P) as R; pose proof (sqrt_range s' P') as R' end end end.
Definition rcp_of (s : f32) : f32 := Bdiv mode_NE (f32_lit 1 0) (Bsqrt mode_NE s).
Lemma nshape2 L (v : vec2 f32) : @l2 f32 (normalize2 (F32 L) v) = map (fun x => Bmult mode_NE x (rcp_of (length2_2 (F32 L) v))) (l2 v).
Proof. destruct v as [a b]. unfold rcp_of. fs. reflexivity. Qed.
Lemma nshape3 L (v : vec3 f32) : @l3 f32 (normalize3 (F32 L) v) = map (fun x => Bmult mode_NE x (rcp_of (length2_3 (F32 L) v))) (l3 v).
Proof. destruct v as [a b c]. unfold rcp_of. fs. reflexivity. Qed.
Lemma nshape4 L (v : vec4 f32) : @l4 f32 (normalize4 (F32 L) v) = map (fun x => Bmult mode_NE x (rcp_of (length2_4 (F32 L) v))) (l4 v).
Proof. destruct v as [a b c d]. unfold rcp_of. fs. reflexivity. Qed.
Lemma nshapeq L (q : quat f32) : @lq f32 (normalize_q (F32 L) q) = map (fun x => Bdiv mode_NE x (Bsqrt mode_NE (length2_q (F32 L) q))) (lq q).
Proof. destruct q as [a b c d]. fs. reflexivity. Qed.
(** normalize gives the same direction, bit for bit up to the sign of zero *)
Lemma C80_normalize_pf : forall L : Libm,
  normalize_scales 2 l2 (length2_2 (F32 L)) (normalize2 (F32 L)) /\ normalize_scales 3 l3 (length2_3 (F32 L)) (normalize3 (F32 L)) /\
  normalize_scales 4 l4 (length2_4 (F32 L)) (normalize4 (F32 L)) /\ normalize_scales 4 lq (length2_q (F32 L)) (normalize_q (F32 L)).
Proof.
  intros L. split; [|split; [|split]].
  - intros t p [a0 a1] [b0 b1]. nrms L 2%nat [a0; a1] [b0; b1] (dot2 ES (v2 0) (v2 0)).
    rewrite !nshape2 in *. exact (norm_same 2 p [a0; a1] [b0; b1] _ _ (Bmult mode_NE) eq_refl HS (fun x x' H => mult_same x x' _ _ p H (rcp_scaled _ _ p T R R')) G).
  - intros t p [a0 a1 a2] [b0 b1 b2]. nrms L 3%nat [a0; a1; a2] [b0; b1; b2] (dot3 ES (v3 0) (v3 0)).
    rewrite !nshape3 in *. exact (norm_same 3 p [a0; a1; a2] [b0; b1; b2] _ _ (Bmult mode_NE) eq_refl HS (fun x x' H => mult_same x x' _ _ p H (rcp_scaled _ _ p T R R')) G).
  - intros t p [a0 a1 a2 a3] [b0 b1 b2 b3]. nrms L 4%nat [a0; a1; a2; a3] [b0; b1; b2; b3] (dot4 ES (v4 0) (v4 0)).
    rewrite !nshape4 in *. exact (norm_same 4 p [a0; a1; a2; a3] [b0; b1; b2; b3] _ _ (Bmult mode_NE) eq_refl HS (fun x x' H => mult_same x x' _ _ p H (rcp_scaled _ _ p T R R')) G).
  - intros t p [a0 a1 a2 a3] [b0 b1 b2 b3]. nrms L 4%nat [a0; a1; a2; a3] [b0; b1; b2; b3] (dot_q ES (vq 0) (vq 0)).
    assert (N : b2r (Bsqrt mode_NE (length2_q (F32 L) (Quat a0 a1 a2 a3))) <> 0) by (pose proof (bpow_gt_0 radix2 (-75)); lra).
    rewrite !nshapeq in *. exact (norm_same 4 p [a0; a1; a2; a3] [b0; b1; b2; b3] _ _ (Bdiv mode_NE) eq_refl HS (fun x x' H => div_same x x' _ _ p H T N) G).
Qed.
(*PROPS
(** (3, 4, 12) and 8 (3, 4, 12) meet the hypotheses; the normalized vector (3/13, ...) is rounded *)
Definition sc_v : vec3 f32 := V3 (f32_ofZ 3) (f32_ofZ 4) (f32_ofZ 12).
Definition sc_w : vec3 f32 := V3 (f32_ofZ 24) (f32_ofZ 32) (f32_ofZ 96).
Example C80_case : scaled_by (repeat 3%Z 3) (l3 sc_v) (l3 sc_w) /\ above 0 (l3 sc_v) /\ above 0 (l3 sc_w) /\
  finite (length2_3 (F32 L0) sc_v) /\ finite (length2_3 (F32 L0) sc_w) /\ b2r (length2_3 (F32 L0) sc_v) = 169 /\ all_finite (l3 (normalize3 (F32 L0) sc_v)).
Proof.
  split; [|split; [|split]].
  - change (scaled 3 (f32_ofZ 3) (f32_ofZ 24) /\ scaled 3 (f32_ofZ 4) (f32_ofZ 32) /\ scaled 3 (f32_ofZ 12) (f32_ofZ 96) /\ True).
    unfold scaled. rewrite !ofZ_exact by reflexivity. change (bpow radix2 3) with 8. repeat split; lra.
  - change (above 0 [f32_ofZ 3; f32_ofZ 4; f32_ofZ 12]). repeat apply Forall_cons; try apply Forall_nil; right; rewrite ofZ_exact by reflexivity; rewrite Rabs_pos_eq by lra; cbn; lra.
  - change (above 0 [f32_ofZ 24; f32_ofZ 32; f32_ofZ 96]). repeat apply Forall_cons; try apply Forall_nil; right; rewrite ofZ_exact by reflexivity; rewrite Rabs_pos_eq by lra; cbn; lra.
  - assert (E : length2_3 (F32 L0) sc_v = f32_ofZ 169) by (apply f32_by_sf; vm_compute; reflexivity). split; [vm_compute; reflexivity|]. split; [vm_compute; reflexivity|]. split.
    + rewrite E. now rewrite ofZ_exact.
    + repeat apply Forall_cons; try apply Forall_nil; vm_compute; reflexivity.
Qed.
(** without the lower bound products underflow and the law fails: h = 2^-80 has square 0 *)
Example C80_underflow_case : let h := Bldexp mode_NE (f32_ofZ 1) (-80) in
  is_finite h = true /\ dot2 (F32 L0) (V2 h (f32_ofZ 0)) (V2 h (f32_ofZ 0)) = f32_ofZ 0 /\ dot2 (F32 L0) (V2 (f32_ofZ 1) (f32_ofZ 0)) (V2 (f32_ofZ 1) (f32_ofZ 0)) = f32_ofZ 1.
Proof. split; [vm_compute; reflexivity|]. split; apply f32_by_sf; vm_compute; reflexivity. Qed.
PROPS*)
