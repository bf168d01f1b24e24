(** * Properties: integers and fixed-point numbers are computed exactly *)

From Coq Require Import ZArith Bool Reals List Lra Lia.
From Flocq Require Import Core IEEE754.BinarySingleNaN.
From Verif Require Import Scalar IEEE32 RealInst Types Outcome Spec SpecR SpecMat SpecGeo SpecF32 SpecErr SpecGrid FloatBasics FloatOps
  ModelVec ModelCommon ModelGeom ModelMat ModelMatrix ModelQuat ModelQuaternion ModelComp ModelTransform ErrExpr ErrLib F32Tac.
From Verif Require Import PfExact.
Import ListNotations.
Local Open Scope R_scope.


(** Every expression built from inputs, literals, one half, +, -, * and negation: inputs with s fractional bits, at most M
    in absolute value, give the exact result if it can have no more than 24 bits. *)
Theorem C79_expressions : forall (L : Libm) (rho : nat -> f32) (e : expr) (s : nat) (M : R),
  lits_ok e = true -> 1 <= M -> (forall n, finite (rho n)) -> (forall n, Rabs (b2r (rho n)) <= M) -> (forall n, on_grid (Z.of_nat s) (b2r (rho n))) ->
  IZR (esize e) * M ^ degree e * IZR (2 ^ Z.of_nat (s * degree e + halves e)) <= IZR (2 ^ 24) ->
  finite (eval (F32 L) rho e) /\ b2r (eval (F32 L) rho e) = eval RS (fun n => b2r (rho n)) e.
Proof. exact C79_expressions_pf. Qed.
Print Assumptions C79_expressions.

(** inner, cross and matrix products: n (2^s M)^2 <= 2^24 *)
Theorem C79_products : forall L : Libm,
  (forall a b, exact_on_grid 2 2 (l2 a ++ l2 b) ([dot2 (F32 L) a b]) ([total (zip Rmult (vals (l2 a)) (vals (l2 b)))])) /\
  (forall a b, exact_on_grid 3 2 (l3 a ++ l3 b) ([dot3 (F32 L) a b]) ([total (zip Rmult (vals (l3 a)) (vals (l3 b)))])) /\
  (forall a b, exact_on_grid 4 2 (l4 a ++ l4 b) ([dot4 (F32 L) a b]) ([total (zip Rmult (vals (l4 a)) (vals (l4 b)))])) /\
  (forall a b, exact_on_grid 4 2 (lq a ++ lq b) ([dot_q (F32 L) a b]) ([total (zip Rmult (vals (lq a)) (vals (lq b)))])) /\
  (forall a b, exact_on_grid 2 2 (l3 a ++ l3 b) (l3 (cross (F32 L) a b)) (cross_l (vals (l3 a)) (vals (l3 b)))) /\
  (forall a b, exact_on_grid 2 2 (lm2 a ++ lm2 b) (lm2 (mat2_mul (F32 L) a b)) (mprod 2 (vals (lm2 a)) (vals (lm2 b)))) /\
  (forall a b, exact_on_grid 3 2 (lm3 a ++ lm3 b) (lm3 (mat3_mul (F32 L) a b)) (mprod 3 (vals (lm3 a)) (vals (lm3 b)))) /\
  (forall a b, exact_on_grid 4 2 (lm4 a ++ lm4 b) (lm4 (mat4_mul (F32 L) a b)) (mprod 4 (vals (lm4 a)) (vals (lm4 b)))) /\
  (forall a v, exact_on_grid 2 2 (lm2 a ++ l2 v) (l2 (mat2_mul_vec (F32 L) a v)) (mapply 2 (vals (lm2 a)) (vals (l2 v)))) /\
  (forall a v, exact_on_grid 3 2 (lm3 a ++ l3 v) (l3 (mat3_mul_vec (F32 L) a v)) (mapply 3 (vals (lm3 a)) (vals (l3 v)))) /\
  (forall a v, exact_on_grid 4 2 (lm4 a ++ l4 v) (l4 (mat4_mul_vec (F32 L) a v)) (mapply 4 (vals (lm4 a)) (vals (l4 v)))) /\
  (forall a v, exact_on_grid 2 2 (lm2 a ++ l2 v) (l2 (vec_mul_mat2 (F32 L) v a)) (mapply_l 2 (vals (l2 v)) (vals (lm2 a)))) /\
  (forall a v, exact_on_grid 3 2 (lm3 a ++ l3 v) (l3 (vec_mul_mat3 (F32 L) v a)) (mapply_l 3 (vals (l3 v)) (vals (lm3 a)))) /\
  (forall a v, exact_on_grid 4 2 (lm4 a ++ l4 v) (l4 (vec_mul_mat4 (F32 L) v a)) (mapply_l 4 (vals (l4 v)) (vals (lm4 a)))).
Proof. exact C79_products_pf. Qed.
Print Assumptions C79_products.

(** determinants and adjugates: n! (2^s M)^n and (n-1)! (2^s M)^(n-1) *)
Theorem C79_determinants : forall L : Libm,
  (forall m, exact_on_grid 2 2 (lm2 m) ([determinant2 (F32 L) m]) ([leibniz 2 (vals (lm2 m))])) /\
  (forall m, exact_on_grid 6 3 (lm3 m) ([determinant3 (F32 L) m]) ([leibniz 3 (vals (lm3 m))])) /\
  (forall m, exact_on_grid 24 4 (lm4 m) ([determinant4 (F32 L) m]) ([leibniz 4 (vals (lm4 m))])) /\
  (forall m, exact_on_grid 1 1 (lm2 m) (lm2 (adjugate2 (F32 L) m)) (cofactors_t 2 (vals (lm2 m)))) /\
  (forall m, exact_on_grid 2 2 (lm3 m) (lm3 (adjugate3 (F32 L) m)) (cofactors_t 3 (vals (lm3 m)))) /\
  (forall m, exact_on_grid 6 3 (lm4 m) (lm4 (adjugate4 (F32 L) m)) (cofactors_t 4 (vals (lm4 m)))).
Proof. exact C79_determinants_pf. Qed.
Print Assumptions C79_determinants.

(** quaternion product, rotation of a vector and conversion to a matrix *)
Theorem C79_quaternions : forall L : Libm,
  (forall p q, exact_on_grid 64 2 (lq p ++ lq q) (lq (quat_mul (F32 L) p q)) (lq (ham (Quat (b2r (qx p)) (b2r (qy p)) (b2r (qz p)) (b2r (qw p))) (Quat (b2r (qx q)) (b2r (qy q)) (b2r (qz q)) (b2r (qw q)))))) /\
  (forall q v, exact_on_grid 13 3 (lq q ++ l3 v) (l3 (quat_mul_vec (F32 L) q v)) (turned (b2r (qx q)) (b2r (qy q)) (b2r (qz q)) (b2r (qw q)) (vals (l3 v)))) /\
  (forall q, exact_on_grid 5 2 (lq q) (lm3 (mat3_cast (F32 L) q)) (rotation_entries (-1) (b2r (qx q)) (b2r (qy q)) (b2r (qz q)) (b2r (qw q)))).
Proof. exact C79_quaternions_pf. Qed.
Print Assumptions C79_quaternions.

(** translate, scale, reflect and the component reductions *)
Theorem C79_transforms : forall L : Libm,
  (forall m v, exact_on_grid 4 2 (lm4 m ++ l3 v) (lm4 (translate (F32 L) m v)) (mprod 4 (vals (lm4 m)) (translation (vals (l3 v))))) /\
  (forall m v, exact_on_grid 1 2 (lm4 m ++ l3 v) (lm4 (scale (F32 L) m v)) (mprod 4 (vals (lm4 m)) (scaling (vals (l3 v))))) /\
  (forall i n, exact_on_grid 5 3 (l2 i ++ l2 n) (l2 (reflect2 (F32 L) i n)) (zip (fun x y => x - 2 * total (zip Rmult (vals (l2 n)) (vals (l2 i))) * y) (vals (l2 i)) (vals (l2 n)))) /\
  (forall i n, exact_on_grid 7 3 (l3 i ++ l3 n) (l3 (reflect3 (F32 L) i n)) (zip (fun x y => x - 2 * total (zip Rmult (vals (l3 n)) (vals (l3 i))) * y) (vals (l3 i)) (vals (l3 n)))) /\
  (forall i n, exact_on_grid 9 3 (l4 i ++ l4 n) (l4 (reflect4 (F32 L) i n)) (zip (fun x y => x - 2 * total (zip Rmult (vals (l4 n)) (vals (l4 i))) * y) (vals (l4 i)) (vals (l4 n)))) /\
  (forall v, exact_on_grid 2 1 (l2 v) ([compAdd2 (F32 L) v]) ([total (vals (l2 v))])) /\
  (forall v, exact_on_grid 1 2 (l2 v) ([compMul2 (F32 L) v]) ([product (vals (l2 v))])) /\
  (forall v, exact_on_grid 3 1 (l3 v) ([compAdd3 (F32 L) v]) ([total (vals (l3 v))])) /\
  (forall v, exact_on_grid 1 3 (l3 v) ([compMul3 (F32 L) v]) ([product (vals (l3 v))])) /\
  (forall v, exact_on_grid 4 1 (l4 v) ([compAdd4 (F32 L) v]) ([total (vals (l4 v))])) /\
  (forall v, exact_on_grid 1 4 (l4 v) ([compMul4 (F32 L) v]) ([product (vals (l4 v))])).
Proof. exact C79_transforms_pf. Qed.
Print Assumptions C79_transforms.

(** (a b) c and a (b c), (a b) v and a (b v) are the same exact values when n^2 (2^s M)^3 <= 2^24: on such inputs the products are associative *)
Theorem C79_associative : forall L : Libm,
  (forall a b c, exact_on_grid 4 3 (lm2 a ++ lm2 b ++ lm2 c) (lm2 (mat2_mul (F32 L) (mat2_mul (F32 L) a b) c)) (mprod 2 (mprod 2 (vals (lm2 a)) (vals (lm2 b))) (vals (lm2 c)))) /\
  (forall a b c, exact_on_grid 4 3 (lm2 a ++ lm2 b ++ lm2 c) (lm2 (mat2_mul (F32 L) a (mat2_mul (F32 L) b c))) (mprod 2 (mprod 2 (vals (lm2 a)) (vals (lm2 b))) (vals (lm2 c)))) /\
  (forall a b v, exact_on_grid 4 3 (lm2 a ++ lm2 b ++ l2 v) (l2 (mat2_mul_vec (F32 L) (mat2_mul (F32 L) a b) v)) (mapply 2 (mprod 2 (vals (lm2 a)) (vals (lm2 b))) (vals (l2 v)))) /\
  (forall a b v, exact_on_grid 4 3 (lm2 a ++ lm2 b ++ l2 v) (l2 (mat2_mul_vec (F32 L) a (mat2_mul_vec (F32 L) b v))) (mapply 2 (mprod 2 (vals (lm2 a)) (vals (lm2 b))) (vals (l2 v)))) /\
  (forall a b c, exact_on_grid 9 3 (lm3 a ++ lm3 b ++ lm3 c) (lm3 (mat3_mul (F32 L) (mat3_mul (F32 L) a b) c)) (mprod 3 (mprod 3 (vals (lm3 a)) (vals (lm3 b))) (vals (lm3 c)))) /\
  (forall a b c, exact_on_grid 9 3 (lm3 a ++ lm3 b ++ lm3 c) (lm3 (mat3_mul (F32 L) a (mat3_mul (F32 L) b c))) (mprod 3 (mprod 3 (vals (lm3 a)) (vals (lm3 b))) (vals (lm3 c)))) /\
  (forall a b v, exact_on_grid 9 3 (lm3 a ++ lm3 b ++ l3 v) (l3 (mat3_mul_vec (F32 L) (mat3_mul (F32 L) a b) v)) (mapply 3 (mprod 3 (vals (lm3 a)) (vals (lm3 b))) (vals (l3 v)))) /\
  (forall a b v, exact_on_grid 9 3 (lm3 a ++ lm3 b ++ l3 v) (l3 (mat3_mul_vec (F32 L) a (mat3_mul_vec (F32 L) b v))) (mapply 3 (mprod 3 (vals (lm3 a)) (vals (lm3 b))) (vals (l3 v)))) /\
  (forall a b c, exact_on_grid 16 3 (lm4 a ++ lm4 b ++ lm4 c) (lm4 (mat4_mul (F32 L) (mat4_mul (F32 L) a b) c)) (mprod 4 (mprod 4 (vals (lm4 a)) (vals (lm4 b))) (vals (lm4 c)))) /\
  (forall a b c, exact_on_grid 16 3 (lm4 a ++ lm4 b ++ lm4 c) (lm4 (mat4_mul (F32 L) a (mat4_mul (F32 L) b c))) (mprod 4 (mprod 4 (vals (lm4 a)) (vals (lm4 b))) (vals (lm4 c)))) /\
  (forall a b v, exact_on_grid 16 3 (lm4 a ++ lm4 b ++ l4 v) (l4 (mat4_mul_vec (F32 L) (mat4_mul (F32 L) a b) v)) (mapply 4 (mprod 4 (vals (lm4 a)) (vals (lm4 b))) (vals (l4 v)))) /\
  (forall a b v, exact_on_grid 16 3 (lm4 a ++ lm4 b ++ l4 v) (l4 (mat4_mul_vec (F32 L) a (mat4_mul_vec (F32 L) b v))) (mapply 4 (mprod 4 (vals (lm4 a)) (vals (lm4 b))) (vals (l4 v)))).
Proof. exact C79_associative_pf. Qed.
Print Assumptions C79_associative.

(** inverse of mat2, mat3, mat4 and inverseTranspose of mat3, mat4: exact for fixed-point matrices whose determinant is plus or
    minus a power of two, for example integer matrices of determinant 1 *)
Theorem C79_inverse : forall L : Libm,
  exact_inverse 2 2 lm2 (cofactors_t 2) (inverse2 (F32 L)) /\ exact_inverse 3 6 lm3 (cofactors_t 3) (inverse3 (F32 L)) /\
  exact_inverse 4 24 lm4 (cofactors_t 4) (inverse4 (F32 L)) /\
  exact_inverse 3 6 lm3 (fun m => mtransp 3 (cofactors_t 3 m)) (inverseTranspose3 (F32 L)) /\
  exact_inverse 4 24 lm4 (fun m => mtransp 4 (cofactors_t 4 m)) (inverseTranspose4 (F32 L)).
Proof. exact C79_inverse_pf. Qed.
Print Assumptions C79_inverse.

(** a matrix with entries 0.5, 1, -1, 2: one fractional bit, determinant 2; all hypotheses hold and the inverse is exact *)
Definition ex_m : mat2 f32 := M2 (V2 (f32_lit 5 (-1)) (f32_ofZ 1)) (V2 (f32_ofZ (-1)) (f32_ofZ 2)).
Lemma ex_vals : vals (lm2 ex_m) = [/ 2; 1; -1; 2].
Proof. change (vals (lm2 ex_m)) with [b2r (f32_lit 5 (-1)); b2r (f32_ofZ 1); b2r (f32_ofZ (-1)); b2r (f32_ofZ 2)]. now rewrite b2r_lit_half, !ofZ_exact by reflexivity. Qed.
Example C79_case : fixed_point 1 (lm2 ex_m) /\ bounded_by 2 (lm2 ex_m) /\ 2 * (IZR (2 ^ Z.of_nat 1) * 2) ^ 2 <= IZR (2 ^ 24) /\
  Rabs (leibniz 2 (vals (lm2 ex_m))) = bpow radix2 1.
Proof.
  split; [|split; [|split]].
  - repeat apply Forall_cons; try apply Forall_nil; (split; [reflexivity|]).
    + exists 1%Z. change (b2r (x2 (m2c0 ex_m))) with (b2r (f32_lit 5 (-1))). rewrite b2r_lit_half. change (bpow radix2 (- Z.of_nat 1)) with (/ 2). lra.
    + exists 2%Z. change (b2r (y2 (m2c0 ex_m))) with (b2r (f32_ofZ 1)). rewrite ofZ_exact by reflexivity. change (bpow radix2 (- Z.of_nat 1)) with (/ 2). lra.
    + exists (-2)%Z. change (b2r (x2 (m2c1 ex_m))) with (b2r (f32_ofZ (-1))). rewrite ofZ_exact by reflexivity. change (bpow radix2 (- Z.of_nat 1)) with (/ 2). lra.
    + exists 4%Z. change (b2r (y2 (m2c1 ex_m))) with (b2r (f32_ofZ 2)). rewrite ofZ_exact by reflexivity. change (bpow radix2 (- Z.of_nat 1)) with (/ 2). lra.
  - assert (H : Forall (fun x => Rabs x <= 2) (vals (lm2 ex_m))) by (rewrite ex_vals; repeat apply Forall_cons; try apply Forall_nil; unfold Rabs; destruct Rcase_abs; lra).
    unfold vals in H. now rewrite Forall_map in H.
  - change (2 ^ Z.of_nat 1)%Z with 2%Z. cbn [pow]. apply Rle_trans with (IZR 32); [lra|now apply IZR_le].
  - rewrite ex_vals. change (bpow radix2 1) with 2. cbv -[Rplus Rmult Ropp IZR Rabs Rinv]. rewrite Rabs_pos_eq; lra.
Qed.
(** the size bound matters: 4097^2 needs 25 bits and is rounded *)
Example C79_sharp_case : dot2 (F32 L0) (V2 (f32_ofZ 4097) (f32_ofZ 0)) (V2 (f32_ofZ 4097) (f32_ofZ 0)) = f32_ofZ (4097 * 4097 - 1).
Proof. apply f32_by_sf; vm_compute; reflexivity. Qed.
(** integers up to 100 are within the bound for 3x3 determinants, up to 2047 for 4x4 products *)
Example C79_size_case : 6 * (IZR (2 ^ Z.of_nat 0) * 100) ^ 3 <= IZR (2 ^ 24) /\ 4 * (IZR (2 ^ Z.of_nat 0) * 2047) ^ 2 <= IZR (2 ^ 24).
Proof. change (2 ^ Z.of_nat 0)%Z with 1%Z. change (IZR (2 ^ 24)) with 16777216. cbn [pow]. split; lra. Qed.
