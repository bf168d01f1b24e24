(** * Properties: scaling by powers of two *)

From Coq Require Import ZArith Bool Reals List Lra Lia.
From Flocq Require Import Core IEEE754.BinarySingleNaN.
From Verif Require Import Scalar IEEE32 RealInst Types Outcome Spec SpecR SpecMat SpecGeo SpecF32 SpecErr SpecGrid FloatBasics FloatOps
  ModelVec ModelCommon ModelExp ModelGeom ModelMat ModelMatrix ModelQuat ModelQuaternion ModelComp ModelTransform ErrExpr ErrLib F32Tac.
From Verif Require Import PfScale.
Import ListNotations.
Local Open Scope R_scope.


(** Every expression built from inputs, literals, one half, +, -, * and negation that is homogeneous in the scaled inputs:
    the computed value is scaled exactly, if inputs are on a grid 2^-s fine enough for no product to underflow and
    both results are finite. *)
Theorem C80_expressions : forall (L : Libm) (rho rho' : nat -> f32) (e : expr) (s : nat) (p : nat -> Z) (q : Z),
  lits_ok e = true -> hdeg p e = Some q -> (forall n, b2r (rho' n) = b2r (rho n) * bpow radix2 (p n)) ->
  (forall n, on_grid (Z.of_nat s) (b2r (rho n))) -> (forall n, on_grid (Z.of_nat s) (b2r (rho' n))) ->
  (s * degree e + halves e <= 149)%nat -> finite (eval (F32 L) rho e) -> finite (eval (F32 L) rho' e) ->
  b2r (eval (F32 L) rho' e) = b2r (eval (F32 L) rho e) * bpow radix2 q.
Proof. exact C80_expressions_pf. Qed.
Print Assumptions C80_expressions.

(** inner, cross and matrix products scale in both arguments *)
Theorem C80_products : forall L : Libm,
  (forall (p q : Z) a b a' b', scales 2 0 (repeat p 2 ++ repeat q 2) (p + q) (l2 a ++ l2 b) (l2 a' ++ l2 b') ([dot2 (F32 L) a b]) ([dot2 (F32 L) a' b'])) /\
  (forall (p q : Z) a b a' b', scales 2 0 (repeat p 3 ++ repeat q 3) (p + q) (l3 a ++ l3 b) (l3 a' ++ l3 b') ([dot3 (F32 L) a b]) ([dot3 (F32 L) a' b'])) /\
  (forall (p q : Z) a b a' b', scales 2 0 (repeat p 4 ++ repeat q 4) (p + q) (l4 a ++ l4 b) (l4 a' ++ l4 b') ([dot4 (F32 L) a b]) ([dot4 (F32 L) a' b'])) /\
  (forall (p q : Z) a b a' b', scales 2 0 (repeat p 4 ++ repeat q 4) (p + q) (lq a ++ lq b) (lq a' ++ lq b') ([dot_q (F32 L) a b]) ([dot_q (F32 L) a' b'])) /\
  (forall (p q : Z) a b a' b', scales 2 0 (repeat p 3 ++ repeat q 3) (p + q) (l3 a ++ l3 b) (l3 a' ++ l3 b') (l3 (cross (F32 L) a b)) (l3 (cross (F32 L) a' b'))) /\
  (forall (p q : Z) a b a' b', scales 2 0 (repeat p 4 ++ repeat q 4) (p + q) (lm2 a ++ lm2 b) (lm2 a' ++ lm2 b') (lm2 (mat2_mul (F32 L) a b)) (lm2 (mat2_mul (F32 L) a' b'))) /\
  (forall (p q : Z) a b a' b', scales 2 0 (repeat p 9 ++ repeat q 9) (p + q) (lm3 a ++ lm3 b) (lm3 a' ++ lm3 b') (lm3 (mat3_mul (F32 L) a b)) (lm3 (mat3_mul (F32 L) a' b'))) /\
  (forall (p q : Z) a b a' b', scales 2 0 (repeat p 16 ++ repeat q 16) (p + q) (lm4 a ++ lm4 b) (lm4 a' ++ lm4 b') (lm4 (mat4_mul (F32 L) a b)) (lm4 (mat4_mul (F32 L) a' b'))) /\
  (forall (p q : Z) a v a' v', scales 2 0 (repeat p 4 ++ repeat q 2) (p + q) (lm2 a ++ l2 v) (lm2 a' ++ l2 v') (l2 (mat2_mul_vec (F32 L) a v)) (l2 (mat2_mul_vec (F32 L) a' v'))) /\
  (forall (p q : Z) a v a' v', scales 2 0 (repeat p 9 ++ repeat q 3) (p + q) (lm3 a ++ l3 v) (lm3 a' ++ l3 v') (l3 (mat3_mul_vec (F32 L) a v)) (l3 (mat3_mul_vec (F32 L) a' v'))) /\
  (forall (p q : Z) a v a' v', scales 2 0 (repeat p 16 ++ repeat q 4) (p + q) (lm4 a ++ l4 v) (lm4 a' ++ l4 v') (l4 (mat4_mul_vec (F32 L) a v)) (l4 (mat4_mul_vec (F32 L) a' v'))) /\
  (forall (p q : Z) a v a' v', scales 2 0 (repeat p 4 ++ repeat q 2) (p + q) (lm2 a ++ l2 v) (lm2 a' ++ l2 v') (l2 (vec_mul_mat2 (F32 L) v a)) (l2 (vec_mul_mat2 (F32 L) v' a'))) /\
  (forall (p q : Z) a v a' v', scales 2 0 (repeat p 9 ++ repeat q 3) (p + q) (lm3 a ++ l3 v) (lm3 a' ++ l3 v') (l3 (vec_mul_mat3 (F32 L) v a)) (l3 (vec_mul_mat3 (F32 L) v' a'))) /\
  (forall (p q : Z) a v a' v', scales 2 0 (repeat p 16 ++ repeat q 4) (p + q) (lm4 a ++ l4 v) (lm4 a' ++ l4 v') (l4 (vec_mul_mat4 (F32 L) v a)) (l4 (vec_mul_mat4 (F32 L) v' a'))).
Proof. exact C80_products_pf. Qed.
Print Assumptions C80_products.

(** determinants and adjugates scale with the n-th and (n-1)-th power *)
Theorem C80_determinants : forall L : Libm,
  (forall (p : Z) m m', scales 2 0 (repeat p 4) (2 * p) (lm2 m) (lm2 m') ([determinant2 (F32 L) m]) ([determinant2 (F32 L) m'])) /\
  (forall (p : Z) m m', scales 3 0 (repeat p 9) (3 * p) (lm3 m) (lm3 m') ([determinant3 (F32 L) m]) ([determinant3 (F32 L) m'])) /\
  (forall (p : Z) m m', scales 4 0 (repeat p 16) (4 * p) (lm4 m) (lm4 m') ([determinant4 (F32 L) m]) ([determinant4 (F32 L) m'])) /\
  (forall (p : Z) m m', scales 1 0 (repeat p 4) (1 * p) (lm2 m) (lm2 m') (lm2 (adjugate2 (F32 L) m)) (lm2 (adjugate2 (F32 L) m'))) /\
  (forall (p : Z) m m', scales 2 0 (repeat p 9) (2 * p) (lm3 m) (lm3 m') (lm3 (adjugate3 (F32 L) m)) (lm3 (adjugate3 (F32 L) m'))) /\
  (forall (p : Z) m m', scales 3 0 (repeat p 16) (3 * p) (lm4 m) (lm4 m') (lm4 (adjugate4 (F32 L) m)) (lm4 (adjugate4 (F32 L) m'))).
Proof. exact C80_determinants_pf. Qed.
Print Assumptions C80_determinants.

(** quaternion product, rotation of scaled vectors, translate and scale of scaled matrices, reflection of scaled vectors, mix and component reductions *)
Theorem C80_transforms : forall L : Libm,
  (forall (p q : Z) a b a' b', scales 2 1 (repeat p 4 ++ repeat q 4) (p + q) (lq a ++ lq b) (lq a' ++ lq b') (lq (quat_mul (F32 L) a b)) (lq (quat_mul (F32 L) a' b'))) /\
  (forall (p : Z) a v a' v', scales 3 0 (repeat 0%Z 4 ++ repeat p 3) (p) (lq a ++ l3 v) (lq a' ++ l3 v') (l3 (quat_mul_vec (F32 L) a v)) (l3 (quat_mul_vec (F32 L) a' v'))) /\
  (forall (p : Z) m v m' v', scales 2 0 (repeat p 16 ++ repeat 0%Z 3) (p) (lm4 m ++ l3 v) (lm4 m' ++ l3 v') (lm4 (translate (F32 L) m v)) (lm4 (translate (F32 L) m' v'))) /\
  (forall (p : Z) m v m' v', scales 2 0 (repeat p 16 ++ repeat 0%Z 3) (p) (lm4 m ++ l3 v) (lm4 m' ++ l3 v') (lm4 (scale (F32 L) m v)) (lm4 (scale (F32 L) m' v'))) /\
  (forall (p : Z) i u i' u', scales 3 0 (repeat p 2 ++ repeat 0%Z 2) (p) (l2 i ++ l2 u) (l2 i' ++ l2 u') (l2 (reflect2 (F32 L) i u)) (l2 (reflect2 (F32 L) i' u'))) /\
  (forall (p : Z) i u i' u', scales 3 0 (repeat p 3 ++ repeat 0%Z 3) (p) (l3 i ++ l3 u) (l3 i' ++ l3 u') (l3 (reflect3 (F32 L) i u)) (l3 (reflect3 (F32 L) i' u'))) /\
  (forall (p : Z) i u i' u', scales 3 0 (repeat p 4 ++ repeat 0%Z 4) (p) (l4 i ++ l4 u) (l4 i' ++ l4 u') (l4 (reflect4 (F32 L) i u)) (l4 (reflect4 (F32 L) i' u'))) /\
  (forall (p : Z) (x : f32) (y : f32) (t : f32) (x' : f32) (y' : f32) (t' : f32), scales 2 0 (repeat p 1 ++ repeat p 1 ++ repeat 0%Z 1) (p) ([x] ++ [y] ++ [t]) ([x'] ++ [y'] ++ [t']) ([mix_f (F32 L) x y t]) ([mix_f (F32 L) x' y' t'])) /\
  (forall (p : Z) v v', scales 1 0 (repeat p 2) (p) (l2 v) (l2 v') ([compAdd2 (F32 L) v]) ([compAdd2 (F32 L) v'])) /\
  (forall (p : Z) v v', scales 2 0 (repeat p 2) (2 * p) (l2 v) (l2 v') ([compMul2 (F32 L) v]) ([compMul2 (F32 L) v'])) /\
  (forall (p : Z) v v', scales 1 0 (repeat p 3) (p) (l3 v) (l3 v') ([compAdd3 (F32 L) v]) ([compAdd3 (F32 L) v'])) /\
  (forall (p : Z) v v', scales 3 0 (repeat p 3) (3 * p) (l3 v) (l3 v') ([compMul3 (F32 L) v]) ([compMul3 (F32 L) v'])) /\
  (forall (p : Z) v v', scales 1 0 (repeat p 4) (p) (l4 v) (l4 v') ([compAdd4 (F32 L) v]) ([compAdd4 (F32 L) v'])) /\
  (forall (p : Z) v v', scales 4 0 (repeat p 4) (4 * p) (l4 v) (l4 v') ([compMul4 (F32 L) v]) ([compMul4 (F32 L) v'])).
Proof. exact C80_transforms_pf. Qed.
Print Assumptions C80_transforms.

(** length of vectors and quaternions, and distance *)
Theorem C80_lengths : forall L : Libm,
  length_scales 2 l2 (length2 (F32 L)) /\ length_scales 3 l3 (length3 (F32 L)) /\ length_scales 4 l4 (length4 (F32 L)) /\ length_scales 4 lq (length_q (F32 L)) /\
  distance_scales 2 l2 (distance2 (F32 L)) /\ distance_scales 3 l3 (distance3 (F32 L)) /\ distance_scales 4 l4 (distance4 (F32 L)).
Proof. exact C80_lengths_pf. Qed.
Print Assumptions C80_lengths.

(** normalize gives the same direction, bit for bit up to the sign of zero *)
Theorem C80_normalize : forall L : Libm,
  normalize_scales 2 l2 (length2_2 (F32 L)) (normalize2 (F32 L)) /\ normalize_scales 3 l3 (length2_3 (F32 L)) (normalize3 (F32 L)) /\
  normalize_scales 4 l4 (length2_4 (F32 L)) (normalize4 (F32 L)) /\ normalize_scales 4 lq (length2_q (F32 L)) (normalize_q (F32 L)).
Proof. exact C80_normalize_pf. Qed.
Print Assumptions C80_normalize.

(** (3, 4, 12) and 8 (3, 4, 12) meet the hypotheses; the normalized vector (3/13, ...) is rounded *)
Definition sc_v : vec3 f32 := V3 (f32_ofZ 3) (f32_ofZ 4) (f32_ofZ 12).
Definition sc_w : vec3 f32 := V3 (f32_ofZ 24) (f32_ofZ 32) (f32_ofZ 96).
Example C80_case : scaled_by (repeat 3%Z 3) (l3 sc_v) (l3 sc_w) /\ above 0 (l3 sc_v) /\ above 0 (l3 sc_w) /\
  finite (length2_3 (F32 L0) sc_v) /\ finite (length2_3 (F32 L0) sc_w) /\ b2r (length2_3 (F32 L0) sc_v) = 169 /\ all_finite (l3 (normalize3 (F32 L0) sc_v)).
Proof.
  split; [|split; [|split]].
  - change (scaled 3 (f32_ofZ 3) (f32_ofZ 24) /\ scaled 3 (f32_ofZ 4) (f32_ofZ 32) /\ scaled 3 (f32_ofZ 12) (f32_ofZ 96) /\ True).
    unfold scaled. rewrite !ofZ_exact by reflexivity. change (bpow radix2 3) with 8. repeat split; lra.
  - change (above 0 [f32_ofZ 3; f32_ofZ 4; f32_ofZ 12]). repeat apply Forall_cons; try apply Forall_nil; right; rewrite ofZ_exact by reflexivity; rewrite Rabs_pos_eq by lra; cbn; lra.
  - change (above 0 [f32_ofZ 24; f32_ofZ 32; f32_ofZ 96]). repeat apply Forall_cons; try apply Forall_nil; right; rewrite ofZ_exact by reflexivity; rewrite Rabs_pos_eq by lra; cbn; lra.
  - assert (E : length2_3 (F32 L0) sc_v = f32_ofZ 169) by (apply f32_by_sf; vm_compute; reflexivity). split; [vm_compute; reflexivity|]. split; [vm_compute; reflexivity|]. split.
    + rewrite E. now rewrite ofZ_exact.
    + repeat apply Forall_cons; try apply Forall_nil; vm_compute; reflexivity.
Qed.
(** without the lower bound products underflow and the law fails: h = 2^-80 has square 0 *)
Example C80_underflow_case : let h := Bldexp mode_NE (f32_ofZ 1) (-80) in
  is_finite h = true /\ dot2 (F32 L0) (V2 h (f32_ofZ 0)) (V2 h (f32_ofZ 0)) = f32_ofZ 0 /\ dot2 (F32 L0) (V2 (f32_ofZ 1) (f32_ofZ 0)) (V2 (f32_ofZ 1) (f32_ofZ 0)) = f32_ofZ 1.
Proof. split; [vm_compute; reflexivity|]. split; apply f32_by_sf; vm_compute; reflexivity. Qed.
