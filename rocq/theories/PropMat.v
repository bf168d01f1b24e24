(** * Properties: matrices *)

From Coq Require Import ZArith Bool Reals List Lra Lia.
From Flocq Require Import Core IEEE754.BinarySingleNaN.
From Verif Require Import Scalar IEEE32 F32Tac RealInst FloatBasics FloatAlg Outcome Types Spec SpecF32 SpecR SpecMat RealTac
  ModelVec ModelMat ModelMatrix.
From Verif Require Import PfMat.
Import ListNotations.
Local Open Scope R_scope.


(** C40: the matrix ring and its action on vectors, exact arithmetic. *)
Theorem C40_ring :
  matrix_ring_ok 2 lm2 l2 (mat2_add RS) (mat2_sub RS) (mat2_mul RS) (mat2_neg RS) (mat2_f RS 0) (mat2_default RS) (mat2_mul_vec RS) (vec_mul_mat2 RS) /\
  matrix_ring_ok 3 lm3 l3 (mat3_add RS) (mat3_sub RS) (mat3_mul RS) (mat3_neg RS) (mat3_f RS 0) (mat3_default RS) (mat3_mul_vec RS) (vec_mul_mat3 RS) /\
  matrix_ring_ok 4 lm4 l4 (mat4_add RS) (mat4_sub RS) (mat4_mul RS) (mat4_neg RS) (mat4_f RS 0) (mat4_default RS) (mat4_mul_vec RS) (vec_mul_mat4 RS).
Proof. exact C40_ring_pf. Qed.
Print Assumptions C40_ring.

(** C40: scalar operators. *)
Theorem C40_scalar :
  matrix_scalar_ok 2 lm2 (mat2_mul RS) (mat2_mul_sc RS) (fun m s => sc_mul_mat2 RS s m) (mat2_div_sc RS) /\
  matrix_scalar_ok 3 lm3 (mat3_mul RS) (mat3_mul_sc RS) (fun m s => sc_mul_mat3 RS s m) (mat3_div_sc RS) /\
  matrix_scalar_ok 4 lm4 (mat4_mul RS) (mat4_mul_sc RS) (fun m s => sc_mul_mat4 RS s m) (mat4_div_sc RS).
Proof. exact C40_scalar_pf. Qed.
Print Assumptions C40_scalar.

(** C40: in binary32, v * m is transpose(m) * v bit for bit for mat2 and mat3. *)
Theorem C40_left_product_f32 : forall L : Libm,
  (forall m v, vec_mul_mat2 (F32 L) v m = mat2_mul_vec (F32 L) (transpose2 (F32 L) m) v) /\
  (forall m v, vec_mul_mat3 (F32 L) v m = mat3_mul_vec (F32 L) (transpose3 (F32 L) m) v).
Proof. exact C40_left_product_f32_pf. Qed.
Print Assumptions C40_left_product_f32.

(** C40: not for mat4, whose two products associate the sum differently. *)
Theorem C40_left_product_mat4_refuted : forall L : Libm, exists m v, all_finite (lm4 m) /\ all_finite (l4 v) /\
  vec4_eq (F32 L) (vec_mul_mat4 (F32 L) v m) (mat4_mul_vec (F32 L) (transpose4 (F32 L) m) v) = false.
Proof. exact C40_left_product_mat4_refuted_pf. Qed.
Print Assumptions C40_left_product_mat4_refuted.

(** C41: entry (i,j) of the transpose is entry (j,i), bit for bit and for every scalar type; twice is the identity. *)
Theorem C41_entries : forall S : Scalar,
  (forall m i j, (i < 2)%nat -> (j < 2)%nat -> nth_error (lm2 (transpose2 S m)) (i * 2 + j) = nth_error (lm2 m) (j * 2 + i)) /\
  (forall m i j, (i < 3)%nat -> (j < 3)%nat -> nth_error (lm3 (transpose3 S m)) (i * 3 + j) = nth_error (lm3 m) (j * 3 + i)) /\
  (forall m i j, (i < 4)%nat -> (j < 4)%nat -> nth_error (lm4 (transpose4 S m)) (i * 4 + j) = nth_error (lm4 m) (j * 4 + i)) /\
  (forall m, transpose2 S (transpose2 S m) = m) /\
  (forall m, transpose3 S (transpose3 S m) = m) /\
  (forall m, transpose4 S (transpose4 S m) = m).
Proof. exact C41_entries_pf. Qed.
Print Assumptions C41_entries.

(** C41: transposition reverses products and exchanges the two vector products. *)
Theorem C41_product :
  transpose_ok 2 lm2 (mat2_mul RS) (mat2_mul_vec RS) (vec_mul_mat2 RS) (transpose2 RS) /\
  transpose_ok 3 lm3 (mat3_mul RS) (mat3_mul_vec RS) (vec_mul_mat3 RS) (transpose3 RS) /\
  transpose_ok 4 lm4 (mat4_mul RS) (mat4_mul_vec RS) (vec_mul_mat4 RS) (transpose4 RS).
Proof. exact C41_product_pf. Qed.
Print Assumptions C41_product.

(** C42: the determinant. *)
Theorem C42_determinant :
  determinant_ok 2 lm2 (mat2_mul RS) (transpose2 RS) (mat2_default RS) (mat2_mul_sc RS) (determinant2 RS) /\
  determinant_ok 3 lm3 (mat3_mul RS) (transpose3 RS) (mat3_default RS) (mat3_mul_sc RS) (determinant3 RS) /\
  determinant_ok 4 lm4 (mat4_mul RS) (transpose4 RS) (mat4_default RS) (mat4_mul_sc RS) (determinant4 RS).
Proof. exact C42_determinant_pf. Qed.
Print Assumptions C42_determinant.

(** C43: the inverse. *)
Theorem C43_inverse :
  inverse_ok 2 lm2 (mat2_mul RS) (transpose2 RS) (mat2_default RS) (inverse2 RS) /\
  inverse_ok 3 lm3 (mat3_mul RS) (transpose3 RS) (mat3_default RS) (inverse3 RS) /\
  inverse_ok 4 lm4 (mat4_mul RS) (transpose4 RS) (mat4_default RS) (inverse4 RS).
Proof. exact C43_inverse_pf. Qed.
Print Assumptions C43_inverse.

(** C43: a determinant that is zero in binary32 leaves no finite entry in the inverse. *)
Theorem C43_singular_f32 : forall L : Libm,
  let all_infinite_or_nan l := Forall (fun x : f32 => is_finite x = false) l in
  (forall m, iszero (determinant2 (F32 L) m) = true -> all_infinite_or_nan (lm2 (inverse2 (F32 L) m))) /\
  (forall m, iszero (determinant3 (F32 L) m) = true -> all_infinite_or_nan (lm3 (inverse3 (F32 L) m))) /\
  (forall m, let a := adjugate4 (F32 L) m in
     let p k := Bmult mode_NE (at4 m 0 k) (at4 a k 0) in
     iszero (Bplus mode_NE (Bplus mode_NE (p 0%nat) (p 1%nat)) (Bplus mode_NE (p 2%nat) (p 3%nat))) = true ->
     all_infinite_or_nan (lm4 (inverse4 (F32 L) m))).
Proof. exact C43_singular_f32_pf. Qed.
Print Assumptions C43_singular_f32.

Example C43_ex_invertible : leibniz 2 (lm2 (M2 (V2 2 3) (V2 5 7))) <> 0.
Proof. cbv -[Rplus Rmult IZR Ropp]. lra. Qed.
Example C43_ex_singular : iszero (determinant2 (F32 L0) (M2 (V2 (f32_lit 1 0) (f32_lit 2 0)) (V2 (f32_lit 2 0) (f32_lit 4 0)))) = true.
Proof. reflexivity. Qed.


(** C44: the adjugate times the matrix is the determinant. *)
Theorem C44_adjugate :
  adjugate_ok 2 lm2 (mat2_mul RS) (mat2_default RS) (mat2_mul_sc RS) (adjugate2 RS) /\
  adjugate_ok 3 lm3 (mat3_mul RS) (mat3_default RS) (mat3_mul_sc RS) (adjugate3 RS) /\
  adjugate_ok 4 lm4 (mat4_mul RS) (mat4_default RS) (mat4_mul_sc RS) (adjugate4 RS).
Proof. exact C44_adjugate_pf. Qed.
Print Assumptions C44_adjugate.

(** C44: adjugateTranspose and inverseTranspose are the transposes for mat3 and mat4. *)
Theorem C44_transposes :
  (forall S m, adjugateTranspose3 S m = transpose3 S (adjugate3 S m)) /\
  (forall m, adjugateTranspose4 RS m = transpose4 RS (adjugate4 RS m)) /\
  (forall m, inverseTranspose3 RS m = transpose3 RS (inverse3 RS m)) /\
  (forall m, inverseTranspose4 RS m = transpose4 RS (inverse4 RS m)).
Proof. exact C44_transposes_pf. Qed.
Print Assumptions C44_transposes.

(** C44: for mat2 both return the untransposed matrix. *)
Theorem C44_mat2_untransposed :
  (forall S m, adjugateTranspose2 S m = adjugate2 S m) /\
  (forall m, inverseTranspose2 RS m = inverse2 RS m) /\
  (forall m, adjugateTranspose2 RS m = transpose2 RS (adjugate2 RS m) <-> y2 (m2c0 m) = x2 (m2c1 m)) /\
  (forall m, leibniz 2 (lm2 m) <> 0 ->
     (inverseTranspose2 RS m = transpose2 RS (inverse2 RS m) <-> y2 (m2c0 m) = x2 (m2c1 m))).
Proof. exact C44_mat2_untransposed_pf. Qed.
Print Assumptions C44_mat2_untransposed.

Theorem C44_mat2_transpose_refuted :
  exists m : mat2 R, leibniz 2 (lm2 m) = 1 /\
    adjugateTranspose2 RS m <> transpose2 RS (adjugate2 RS m) /\ inverseTranspose2 RS m <> transpose2 RS (inverse2 RS m).
Proof. exact C44_mat2_transpose_refuted_pf. Qed.
Print Assumptions C44_mat2_transpose_refuted.

(** C45: dividing by an invertible matrix undoes multiplication. *)
Theorem C45_division :
  matrix_division_ok 2 lm2 (mat2_mul RS) (mat2_mul_vec RS) (vec_mul_mat2 RS) (mat2_div RS) (mat2_div_vec RS) (vec_div_mat2 RS) /\
  matrix_division_ok 3 lm3 (mat3_mul RS) (mat3_mul_vec RS) (vec_mul_mat3 RS) (mat3_div RS) (mat3_div_vec RS) (vec_div_mat3 RS) /\
  matrix_division_ok 4 lm4 (mat4_mul RS) (mat4_mul_vec RS) (vec_mul_mat4 RS) (mat4_div RS) (mat4_div_vec RS) (vec_div_mat4 RS).
Proof. exact C45_division_pf. Qed.
Print Assumptions C45_division.

(** C45: the compound operators store that quotient, also when a matrix is divided by itself. *)
Theorem C45_assign : forall S : Scalar,
  (forall a b, mat2_div_assign S (fun _ => b) a = mat2_div S a b /\ mat2_div_assign S (fun x => x) a = mat2_div S a a) /\
  (forall a b, mat3_div_assign S (fun _ => b) a = mat3_div S a b /\ mat3_div_assign S (fun x => x) a = mat3_div S a a) /\
  (forall a b, mat4_div_assign S (fun _ => b) a = mat4_div S a b /\ mat4_div_assign S (fun x => x) a = mat4_div S a a).
Proof. exact C45_assign_pf. Qed.
Print Assumptions C45_assign.

(** C46: widening and narrowing. *)
Theorem C46_conversions : forall S : Scalar,
  (forall m : mat3 S, lm4 (mat4_of_mat3 S m) =
     l3 (m3c0 m) ++ [slit 0 0] ++ l3 (m3c1 m) ++ [slit 0 0] ++ l3 (m3c2 m) ++ [slit 0 0] ++ [slit 0 0; slit 0 0; slit 0 0; slit 1 0]) /\
  (forall m : mat4 S, lm3 (mat3_of_mat4 S m) = firstn 3 (l4 (m4c0 m)) ++ firstn 3 (l4 (m4c1 m)) ++ firstn 3 (l4 (m4c2 m))) /\
  (forall m : mat3 S, lm2 (mat2_of_mat3 S m) = firstn 2 (l3 (m3c0 m)) ++ firstn 2 (l3 (m3c1 m))) /\
  (forall m : mat3 S, mat3_of_mat4 S (mat4_of_mat3 S m) = m).
Proof. exact C46_conversions_pf. Qed.
Print Assumptions C46_conversions.

(** C46: widening preserves products, the unit, the determinant and the action on vectors. *)
Theorem C46_homomorphism :
  (forall a b, mat4_of_mat3 RS (mat3_mul RS a b) = mat4_mul RS (mat4_of_mat3 RS a) (mat4_of_mat3 RS b)) /\
  mat4_of_mat3 RS (mat3_default RS) = mat4_default RS /\
  (forall a, determinant4 RS (mat4_of_mat3 RS a) = determinant3 RS a) /\
  (forall a v w, mat4_mul_vec RS (mat4_of_mat3 RS a) (vec4_v3f RS v w) = vec4_v3f RS (mat3_mul_vec RS a v) w).
Proof. exact C46_homomorphism_pf. Qed.
Print Assumptions C46_homomorphism.

(** C46: mat3(mat2) always reads a third column of the mat2. *)
Theorem C46_mat3_of_mat2_refuted : forall (S : Scalar) (m : mat2 S),
  mat3_of_mat2 S Debug m = AssertFail /\ mat3_of_mat2 S Release m = Undefined.
Proof. exact C46_mat3_of_mat2_refuted_pf. Qed.
Print Assumptions C46_mat3_of_mat2_refuted.

(** C47: the Hadamard product, one operation per entry; commutative bit for bit; the all-ones matrix is its unit. *)
Theorem C47_entrywise : forall S : Scalar,
  (forall a b, lm2 (matrixCompMult2 S a b) = zip smul (lm2 a) (lm2 b)) /\
  (forall a b, lm3 (matrixCompMult3 S a b) = zip smul (lm3 a) (lm3 b)) /\
  (forall a b, lm4 (matrixCompMult4 S a b) = zip smul (lm4 a) (lm4 b)).
Proof. exact C47_entrywise_pf. Qed.
Print Assumptions C47_entrywise.

Theorem C47_f32 : forall L : Libm, let one := f32_lit 1 0 in
  (forall a b, matrixCompMult2 (F32 L) a b = matrixCompMult2 (F32 L) b a) /\
  (forall a b, matrixCompMult3 (F32 L) a b = matrixCompMult3 (F32 L) b a) /\
  (forall a b, matrixCompMult4 (F32 L) a b = matrixCompMult4 (F32 L) b a) /\
  (forall a u, Forall (fun x => x = one) (lm2 u) -> matrixCompMult2 (F32 L) a u = a) /\
  (forall a u, Forall (fun x => x = one) (lm3 u) -> matrixCompMult3 (F32 L) a u = a) /\
  (forall a u, Forall (fun x => x = one) (lm4 u) -> matrixCompMult4 (F32 L) a u = a).
Proof. exact C47_f32_pf. Qed.
Print Assumptions C47_f32.

Example C47_ex : matrixCompMult2 (F32 L0) (M2 (V2 (f32_lit 3 0) (f32_lit 1 (-1))) (V2 B754_nan (f32_lit 4 0))) (mat2_el (F32 L0) (f32_lit 1 0) (f32_lit 1 0) (f32_lit 1 0) (f32_lit 1 0))
  = M2 (V2 (f32_lit 3 0) (f32_lit 1 (-1))) (V2 B754_nan (f32_lit 4 0)).
Proof. apply (C47_f32_pf L0). repeat (apply Forall_cons; [reflexivity|]). apply Forall_nil. Qed.

