(** * Properties: exactness, symmetry and NaN propagation in binary32 *)

From Coq Require Import ZArith Bool Reals List Lra.
From Flocq Require Import Core IEEE754.BinarySingleNaN.
From Verif Require Import Scalar IEEE32 F32Tac FloatBasics Outcome Types Spec SpecF32 ModelVec ModelCommon ModelComp ModelQuat
  ModelExp ModelGeom ModelMat ModelMatrix.
From Verif Require Import PfFloat.
Import ListNotations.
Local Open Scope R_scope.


(** C31: dot is symmetric bit for bit, for all floats including infinities and NaN. *)
Theorem C31_dot_symmetric : forall L : Libm,
  (forall x y : f32, dot_f (F32 L) x y = dot_f (F32 L) y x) /\
  (forall u v, dot2 (F32 L) u v = dot2 (F32 L) v u) /\
  (forall u v, dot3 (F32 L) u v = dot3 (F32 L) v u) /\
  (forall u v, dot4 (F32 L) u v = dot4 (F32 L) v u) /\
  (forall u v, dot_q (F32 L) u v = dot_q (F32 L) v u).
Proof. exact C31_dot_symmetric_pf. Qed.
Print Assumptions C31_dot_symmetric.

(** C34: swapping the operands negates every component; NaN together (zeros compare equal). *)
Theorem C34_anticommutes_f32 : forall (L : Libm) (u v : vec3 f32),
  Forall2 (fun a b => is_nan a = is_nan b /\ (is_nan a = false -> ieee_eq a (Bopp b)))
    (l3 (cross (F32 L) u v)) (l3 (cross (F32 L) v u)).
Proof. exact C34_anticommutes_f32_pf. Qed.
Print Assumptions C34_anticommutes_f32.

(** C34: the cross product of a vector with itself is exactly zero unless a product overflows. *)
Theorem C34_self_f32 : forall (L : Libm) (v : vec3 f32),
  let finite_product a b := finite (Bmult mode_NE a b) in
  finite_product (x3 v) (y3 v) -> finite_product (y3 v) (z3 v) -> finite_product (z3 v) (x3 v) ->
  cross (F32 L) v v = V3 (B754_zero false) (B754_zero false) (B754_zero false).
Proof. exact C34_self_f32_pf. Qed.
Print Assumptions C34_self_f32.

(** the products of 0.1, 0.2, 0.3 are inexact, yet the cross product is zero *)
Example C34_ex_f32 : let a := f32_lit 1 (-1) in let b := f32_lit 2 (-1) in let c := f32_lit 3 (-1) in
  finite (Bmult mode_NE a b) /\ finite (Bmult mode_NE b c) /\ finite (Bmult mode_NE c a).
Proof. repeat split; vm_compute; reflexivity. Qed.


(** C35: the result is N or -N, chosen by the sign of dot(Nref, I). *)
Theorem C35_faceforward : forall L : Libm,
  (forall n i r : f32, faceforward_f (F32 L) n i r = n \/ faceforward_f (F32 L) n i r = Bopp n) /\
  (forall n i r, faceforward2 (F32 L) n i r = n \/ l2 (faceforward2 (F32 L) n i r) = map Bopp (l2 n)) /\
  (forall n i r, faceforward3 (F32 L) n i r = n \/ l3 (faceforward3 (F32 L) n i r) = map Bopp (l3 n)) /\
  (forall n i r, faceforward4 (F32 L) n i r = n \/ l4 (faceforward4 (F32 L) n i r) = map Bopp (l4 n)).
Proof. exact C35_faceforward_pf. Qed.
Print Assumptions C35_faceforward.

(** C35: turned with respect to itself, the normal never has a positive inner product with I. *)
Theorem C35_against : forall L : Libm,
  let ok d := is_nan d = true \/ ieee_le d (B754_zero false) in
  (forall n i : f32, ok (dot_f (F32 L) (faceforward_f (F32 L) n i n) i)) /\
  (forall n i, ok (dot2 (F32 L) (faceforward2 (F32 L) n i n) i)) /\
  (forall n i, ok (dot3 (F32 L) (faceforward3 (F32 L) n i n) i)) /\
  (forall n i, ok (dot4 (F32 L) (faceforward4 (F32 L) n i n) i)).
Proof. exact C35_against_pf. Qed.
Print Assumptions C35_against.

Example C35_ex : faceforward2 (F32 L0) (V2 (f32_lit 1 0) (f32_lit 2 0)) (V2 (f32_lit 3 0) (f32_lit 1 0)) (V2 (f32_lit 1 0) (f32_lit 2 0))
  = V2 (f32_lit (-1) 0) (f32_lit (-2) 0).
Proof. f32_eq. Qed.


(** C38: the computed inner product with orthogonal(v) is exactly zero. *)
Theorem C38_orthogonal_f32 : forall (L : Libm) (v : vec3 f32), all_finite (l3 v) ->
  finite (Bmult mode_NE (x3 v) (y3 v)) -> finite (Bmult mode_NE (y3 v) (z3 v)) ->
  ieee_eq (dot3 (F32 L) v (orthogonal (F32 L) v)) (B754_zero false).
Proof. exact C38_orthogonal_f32_pf. Qed.
Print Assumptions C38_orthogonal_f32.

Example C38_ex_f32 : let v := V3 (f32_lit 1 (-1)) (f32_lit 7 (-1)) (f32_lit (-3) (-1)) in
  all_finite (l3 v) /\ finite (Bmult mode_NE (x3 v) (y3 v)) /\ finite (Bmult mode_NE (y3 v) (z3 v)).
Proof. repeat split; try (repeat constructor); vm_compute; reflexivity. Qed.


(** C66: multiplying a finite matrix or vector by the identity matrix changes nothing (under ==). *)
Theorem C66_identity_matrix : forall L : Libm,
  let same a b := Forall2 ieee_eq a b in
  (forall m, all_finite (lm2 m) -> same (lm2 (mat2_mul (F32 L) m (mat2_default (F32 L)))) (lm2 m) /\
                                   same (lm2 (mat2_mul (F32 L) (mat2_default (F32 L)) m)) (lm2 m)) /\
  (forall m, all_finite (lm3 m) -> same (lm3 (mat3_mul (F32 L) m (mat3_default (F32 L)))) (lm3 m) /\
                                   same (lm3 (mat3_mul (F32 L) (mat3_default (F32 L)) m)) (lm3 m)) /\
  (forall m, all_finite (lm4 m) -> same (lm4 (mat4_mul (F32 L) m (mat4_default (F32 L)))) (lm4 m) /\
                                   same (lm4 (mat4_mul (F32 L) (mat4_default (F32 L)) m)) (lm4 m)) /\
  (forall v, all_finite (l2 v) -> same (l2 (mat2_mul_vec (F32 L) (mat2_default (F32 L)) v)) (l2 v)) /\
  (forall v, all_finite (l3 v) -> same (l3 (mat3_mul_vec (F32 L) (mat3_default (F32 L)) v)) (l3 v)) /\
  (forall v, all_finite (l4 v) -> same (l4 (mat4_mul_vec (F32 L) (mat4_default (F32 L)) v)) (l4 v)).
Proof. exact C66_identity_matrix_pf. Qed.
Print Assumptions C66_identity_matrix.

(** C66: not so for the identity quaternion: the product scheme rounds. *)
Theorem C66_identity_quaternion_refuted : forall L : Libm, exists q : quat f32, all_finite (lq q) /\
  quat_eq (F32 L) (quat_mul (F32 L) q (quat_default (F32 L))) q = false /\
  quat_eq (F32 L) (quat_mul (F32 L) (quat_default (F32 L)) q) q = false.
Proof. exact C66_identity_quaternion_refuted_pf. Qed.
Print Assumptions C66_identity_quaternion_refuted.

(** C66: scaling by a power of two is exact when no component underflows or overflows. *)
Theorem C66_power_of_two : forall (L : Libm) (p : f32) (k : Z), finite p -> b2r p = bpow radix2 k ->
  let fine x := finite x /\ (b2r x = 0 \/ bpow radix2 (-126) <= Rabs (b2r x * bpow radix2 k) < bpow radix2 128) in
  let scaled x y := finite y /\ b2r y = b2r x * bpow radix2 k in
  (forall v, Forall fine (l2 v) -> Forall2 scaled (l2 v) (l2 (vec2_mul_sc (F32 L) v p))) /\
  (forall v, Forall fine (l3 v) -> Forall2 scaled (l3 v) (l3 (vec3_mul_sc (F32 L) v p))) /\
  (forall v, Forall fine (l4 v) -> Forall2 scaled (l4 v) (l4 (vec4_mul_sc (F32 L) v p))) /\
  (forall q, Forall fine (lq q) -> Forall2 scaled (lq q) (lq (quat_mul_sc (F32 L) q p))).
Proof. exact C66_power_of_two_pf. Qed.
Print Assumptions C66_power_of_two.

(** C66: subtracting values within a factor of two of each other is exact (Sterbenz). *)
Theorem C66_sterbenz : forall L : Libm,
  let near x y := finite x /\ finite y /\ b2r y / 2 <= b2r x <= 2 * b2r y in
  let difference x y d := finite d /\ b2r d = b2r x - b2r y in
  (forall u v, Forall2 near (l2 u) (l2 v) -> Forall (fun p => p) (zip3 difference (l2 u) (l2 v) (l2 (vec2_sub (F32 L) u v)))) /\
  (forall u v, Forall2 near (l3 u) (l3 v) -> Forall (fun p => p) (zip3 difference (l3 u) (l3 v) (l3 (vec3_sub (F32 L) u v)))) /\
  (forall u v, Forall2 near (l4 u) (l4 v) -> Forall (fun p => p) (zip3 difference (l4 u) (l4 v) (l4 (vec4_sub (F32 L) u v)))) /\
  (forall u v, Forall2 near (lq u) (lq v) -> Forall (fun p => p) (zip3 difference (lq u) (lq v) (lq (quat_sub (F32 L) u v)))).
Proof. exact C66_sterbenz_pf. Qed.
Print Assumptions C66_sterbenz.

(** C66: negation is exact on every float. *)
Theorem C66_negation : forall L : Libm,
  let negated x y := is_nan x = is_nan y /\ xr y = - xr x in
  (forall v, Forall2 negated (l2 v) (l2 (vec2_neg (F32 L) v))) /\
  (forall v, Forall2 negated (l3 v) (l3 (vec3_neg (F32 L) v))) /\
  (forall v, Forall2 negated (l4 v) (l4 (vec4_neg (F32 L) v))) /\
  (forall v, Forall2 negated (lq v) (lq (quat_neg (F32 L) v))) /\
  (forall v, Forall2 negated (lm2 v) (lm2 (mat2_neg (F32 L) v))) /\
  (forall v, Forall2 negated (lm3 v) (lm3 (mat3_neg (F32 L) v))) /\
  (forall v, Forall2 negated (lm4 v) (lm4 (mat4_neg (F32 L) v))).
Proof. exact C66_negation_pf. Qed.
Print Assumptions C66_negation.

(** hypotheses met by values that do round elsewhere *)
Example C66_ex : let x := f32_lit 3 (-1) in let y := f32_lit 4 (-1) in
  finite x /\ B2R y / 2 <= B2R x <= 2 * B2R y.
Proof.
  intros x y. split; [reflexivity|]. assert (Ex : B2R x = 10066330 * / 33554432) by (vm_compute; lra).
  assert (Ey : B2R y = 13421773 * / 33554432) by (vm_compute; lra). rewrite Ex, Ey. lra.
Qed.


(** C67: a NaN in any component makes every reduction of the vectors NaN. *)
Theorem C67_reductions : forall L : Libm,
  (forall x y : f32, some_nan [x; y] -> is_nan (dot_f (F32 L) x y) = true) /\
  (forall u v, some_nan (l2 u ++ l2 v) -> is_nan (dot2 (F32 L) u v) = true) /\
  (forall u v, some_nan (l3 u ++ l3 v) -> is_nan (dot3 (F32 L) u v) = true) /\
  (forall u v, some_nan (l4 u ++ l4 v) -> is_nan (dot4 (F32 L) u v) = true) /\
  (forall u v, some_nan (lq u ++ lq v) -> is_nan (dot_q (F32 L) u v) = true) /\
  (forall u v, some_nan (l2 u ++ l2 v) -> is_nan (distance2 (F32 L) u v) = true) /\
  (forall u v, some_nan (l2 u ++ l2 v) -> is_nan (distance2_2 (F32 L) u v) = true) /\
  (forall u v, some_nan (l3 u ++ l3 v) -> is_nan (distance3 (F32 L) u v) = true) /\
  (forall u v, some_nan (l3 u ++ l3 v) -> is_nan (distance2_3 (F32 L) u v) = true) /\
  (forall u v, some_nan (l4 u ++ l4 v) -> is_nan (distance4 (F32 L) u v) = true) /\
  (forall u v, some_nan (l4 u ++ l4 v) -> is_nan (distance2_4 (F32 L) u v) = true) /\
  (forall v, some_nan (l2 v) -> is_nan (length2 (F32 L) v) = true) /\
  (forall v, some_nan (l2 v) -> is_nan (length2_2 (F32 L) v) = true) /\
  (forall v, some_nan (l3 v) -> is_nan (length3 (F32 L) v) = true) /\
  (forall v, some_nan (l3 v) -> is_nan (length2_3 (F32 L) v) = true) /\
  (forall v, some_nan (l4 v) -> is_nan (length4 (F32 L) v) = true) /\
  (forall v, some_nan (l4 v) -> is_nan (length2_4 (F32 L) v) = true) /\
  (forall v, some_nan (lq v) -> is_nan (length_q (F32 L) v) = true) /\
  (forall v, some_nan (lq v) -> is_nan (length2_q (F32 L) v) = true) /\
  (forall v, some_nan (l2 v) -> is_nan (compAdd2 (F32 L) v) = true /\ is_nan (compMul2 (F32 L) v) = true) /\
  (forall v, some_nan (l3 v) -> is_nan (compAdd3 (F32 L) v) = true /\ is_nan (compMul3 (F32 L) v) = true) /\
  (forall v, some_nan (l4 v) -> is_nan (compAdd4 (F32 L) v) = true /\ is_nan (compMul4 (F32 L) v) = true).
Proof. exact C67_reductions_pf. Qed.
Print Assumptions C67_reductions.

(** C67: every component of the cross product that depends on a NaN is NaN. *)
Theorem C67_cross : forall L : Libm,
  (forall u v, some_nan [y3 u; z3 u; y3 v; z3 v] -> is_nan (x3 (cross (F32 L) u v)) = true) /\
  (forall u v, some_nan [z3 u; x3 u; z3 v; x3 v] -> is_nan (y3 (cross (F32 L) u v)) = true) /\
  (forall u v, some_nan [x3 u; y3 u; x3 v; y3 v] -> is_nan (z3 (cross (F32 L) u v)) = true).
Proof. exact C67_cross_pf. Qed.
Print Assumptions C67_cross.

(** C67: determinants, and the components of matrix-vector products that depend on a NaN. *)
Theorem C67_matrix_vector : forall L : Libm,
  (forall m, some_nan (lm2 m) -> is_nan (determinant2 (F32 L) m) = true) /\
  (forall m, some_nan (lm3 m) -> is_nan (determinant3 (F32 L) m) = true) /\
  (forall m, some_nan (lm4 m) -> is_nan (determinant4 (F32 L) m) = true) /\
  (forall m v, some_nan ([x2 (m2c0 m); x2 (m2c1 m)] ++ l2 v) -> is_nan (x2 (mat2_mul_vec (F32 L) m v)) = true) /\
  (forall m v, some_nan (l2 (m2c0 m) ++ l2 v) -> is_nan (x2 (vec_mul_mat2 (F32 L) v m)) = true) /\
  (forall m v, some_nan ([y2 (m2c0 m); y2 (m2c1 m)] ++ l2 v) -> is_nan (y2 (mat2_mul_vec (F32 L) m v)) = true) /\
  (forall m v, some_nan (l2 (m2c1 m) ++ l2 v) -> is_nan (y2 (vec_mul_mat2 (F32 L) v m)) = true) /\
  (forall m v, some_nan ([x3 (m3c0 m); x3 (m3c1 m); x3 (m3c2 m)] ++ l3 v) -> is_nan (x3 (mat3_mul_vec (F32 L) m v)) = true) /\
  (forall m v, some_nan (l3 (m3c0 m) ++ l3 v) -> is_nan (x3 (vec_mul_mat3 (F32 L) v m)) = true) /\
  (forall m v, some_nan ([y3 (m3c0 m); y3 (m3c1 m); y3 (m3c2 m)] ++ l3 v) -> is_nan (y3 (mat3_mul_vec (F32 L) m v)) = true) /\
  (forall m v, some_nan (l3 (m3c1 m) ++ l3 v) -> is_nan (y3 (vec_mul_mat3 (F32 L) v m)) = true) /\
  (forall m v, some_nan ([z3 (m3c0 m); z3 (m3c1 m); z3 (m3c2 m)] ++ l3 v) -> is_nan (z3 (mat3_mul_vec (F32 L) m v)) = true) /\
  (forall m v, some_nan (l3 (m3c2 m) ++ l3 v) -> is_nan (z3 (vec_mul_mat3 (F32 L) v m)) = true) /\
  (forall m v, some_nan ([x4 (m4c0 m); x4 (m4c1 m); x4 (m4c2 m); x4 (m4c3 m)] ++ l4 v) -> is_nan (x4 (mat4_mul_vec (F32 L) m v)) = true) /\
  (forall m v, some_nan (l4 (m4c0 m) ++ l4 v) -> is_nan (x4 (vec_mul_mat4 (F32 L) v m)) = true) /\
  (forall m v, some_nan ([y4 (m4c0 m); y4 (m4c1 m); y4 (m4c2 m); y4 (m4c3 m)] ++ l4 v) -> is_nan (y4 (mat4_mul_vec (F32 L) m v)) = true) /\
  (forall m v, some_nan (l4 (m4c1 m) ++ l4 v) -> is_nan (y4 (vec_mul_mat4 (F32 L) v m)) = true) /\
  (forall m v, some_nan ([z4 (m4c0 m); z4 (m4c1 m); z4 (m4c2 m); z4 (m4c3 m)] ++ l4 v) -> is_nan (z4 (mat4_mul_vec (F32 L) m v)) = true) /\
  (forall m v, some_nan (l4 (m4c2 m) ++ l4 v) -> is_nan (z4 (vec_mul_mat4 (F32 L) v m)) = true) /\
  (forall m v, some_nan ([w4 (m4c0 m); w4 (m4c1 m); w4 (m4c2 m); w4 (m4c3 m)] ++ l4 v) -> is_nan (w4 (mat4_mul_vec (F32 L) m v)) = true) /\
  (forall m v, some_nan (l4 (m4c3 m) ++ l4 v) -> is_nan (w4 (vec_mul_mat4 (F32 L) v m)) = true).
Proof. exact C67_matrix_vector_pf. Qed.
Print Assumptions C67_matrix_vector.

(** C67: entry (i,j) of a product is NaN as soon as its row or column contains one. *)
Theorem C67_matrix_product : forall L : Libm,
  (forall a b, some_nan ([x2 (m2c0 a); x2 (m2c1 a)] ++ l2 (m2c0 b)) -> is_nan (x2 (m2c0 (mat2_mul (F32 L) a b))) = true) /\
  (forall a b, some_nan ([y2 (m2c0 a); y2 (m2c1 a)] ++ l2 (m2c0 b)) -> is_nan (y2 (m2c0 (mat2_mul (F32 L) a b))) = true) /\
  (forall a b, some_nan ([x2 (m2c0 a); x2 (m2c1 a)] ++ l2 (m2c1 b)) -> is_nan (x2 (m2c1 (mat2_mul (F32 L) a b))) = true) /\
  (forall a b, some_nan ([y2 (m2c0 a); y2 (m2c1 a)] ++ l2 (m2c1 b)) -> is_nan (y2 (m2c1 (mat2_mul (F32 L) a b))) = true) /\
  (forall a b, some_nan ([x3 (m3c0 a); x3 (m3c1 a); x3 (m3c2 a)] ++ l3 (m3c0 b)) -> is_nan (x3 (m3c0 (mat3_mul (F32 L) a b))) = true) /\
  (forall a b, some_nan ([y3 (m3c0 a); y3 (m3c1 a); y3 (m3c2 a)] ++ l3 (m3c0 b)) -> is_nan (y3 (m3c0 (mat3_mul (F32 L) a b))) = true) /\
  (forall a b, some_nan ([z3 (m3c0 a); z3 (m3c1 a); z3 (m3c2 a)] ++ l3 (m3c0 b)) -> is_nan (z3 (m3c0 (mat3_mul (F32 L) a b))) = true) /\
  (forall a b, some_nan ([x3 (m3c0 a); x3 (m3c1 a); x3 (m3c2 a)] ++ l3 (m3c1 b)) -> is_nan (x3 (m3c1 (mat3_mul (F32 L) a b))) = true) /\
  (forall a b, some_nan ([y3 (m3c0 a); y3 (m3c1 a); y3 (m3c2 a)] ++ l3 (m3c1 b)) -> is_nan (y3 (m3c1 (mat3_mul (F32 L) a b))) = true) /\
  (forall a b, some_nan ([z3 (m3c0 a); z3 (m3c1 a); z3 (m3c2 a)] ++ l3 (m3c1 b)) -> is_nan (z3 (m3c1 (mat3_mul (F32 L) a b))) = true) /\
  (forall a b, some_nan ([x3 (m3c0 a); x3 (m3c1 a); x3 (m3c2 a)] ++ l3 (m3c2 b)) -> is_nan (x3 (m3c2 (mat3_mul (F32 L) a b))) = true) /\
  (forall a b, some_nan ([y3 (m3c0 a); y3 (m3c1 a); y3 (m3c2 a)] ++ l3 (m3c2 b)) -> is_nan (y3 (m3c2 (mat3_mul (F32 L) a b))) = true) /\
  (forall a b, some_nan ([z3 (m3c0 a); z3 (m3c1 a); z3 (m3c2 a)] ++ l3 (m3c2 b)) -> is_nan (z3 (m3c2 (mat3_mul (F32 L) a b))) = true) /\
  (forall a b, some_nan ([x4 (m4c0 a); x4 (m4c1 a); x4 (m4c2 a); x4 (m4c3 a)] ++ l4 (m4c0 b)) -> is_nan (x4 (m4c0 (mat4_mul (F32 L) a b))) = true) /\
  (forall a b, some_nan ([y4 (m4c0 a); y4 (m4c1 a); y4 (m4c2 a); y4 (m4c3 a)] ++ l4 (m4c0 b)) -> is_nan (y4 (m4c0 (mat4_mul (F32 L) a b))) = true) /\
  (forall a b, some_nan ([z4 (m4c0 a); z4 (m4c1 a); z4 (m4c2 a); z4 (m4c3 a)] ++ l4 (m4c0 b)) -> is_nan (z4 (m4c0 (mat4_mul (F32 L) a b))) = true) /\
  (forall a b, some_nan ([w4 (m4c0 a); w4 (m4c1 a); w4 (m4c2 a); w4 (m4c3 a)] ++ l4 (m4c0 b)) -> is_nan (w4 (m4c0 (mat4_mul (F32 L) a b))) = true) /\
  (forall a b, some_nan ([x4 (m4c0 a); x4 (m4c1 a); x4 (m4c2 a); x4 (m4c3 a)] ++ l4 (m4c1 b)) -> is_nan (x4 (m4c1 (mat4_mul (F32 L) a b))) = true) /\
  (forall a b, some_nan ([y4 (m4c0 a); y4 (m4c1 a); y4 (m4c2 a); y4 (m4c3 a)] ++ l4 (m4c1 b)) -> is_nan (y4 (m4c1 (mat4_mul (F32 L) a b))) = true) /\
  (forall a b, some_nan ([z4 (m4c0 a); z4 (m4c1 a); z4 (m4c2 a); z4 (m4c3 a)] ++ l4 (m4c1 b)) -> is_nan (z4 (m4c1 (mat4_mul (F32 L) a b))) = true) /\
  (forall a b, some_nan ([w4 (m4c0 a); w4 (m4c1 a); w4 (m4c2 a); w4 (m4c3 a)] ++ l4 (m4c1 b)) -> is_nan (w4 (m4c1 (mat4_mul (F32 L) a b))) = true) /\
  (forall a b, some_nan ([x4 (m4c0 a); x4 (m4c1 a); x4 (m4c2 a); x4 (m4c3 a)] ++ l4 (m4c2 b)) -> is_nan (x4 (m4c2 (mat4_mul (F32 L) a b))) = true) /\
  (forall a b, some_nan ([y4 (m4c0 a); y4 (m4c1 a); y4 (m4c2 a); y4 (m4c3 a)] ++ l4 (m4c2 b)) -> is_nan (y4 (m4c2 (mat4_mul (F32 L) a b))) = true) /\
  (forall a b, some_nan ([z4 (m4c0 a); z4 (m4c1 a); z4 (m4c2 a); z4 (m4c3 a)] ++ l4 (m4c2 b)) -> is_nan (z4 (m4c2 (mat4_mul (F32 L) a b))) = true) /\
  (forall a b, some_nan ([w4 (m4c0 a); w4 (m4c1 a); w4 (m4c2 a); w4 (m4c3 a)] ++ l4 (m4c2 b)) -> is_nan (w4 (m4c2 (mat4_mul (F32 L) a b))) = true) /\
  (forall a b, some_nan ([x4 (m4c0 a); x4 (m4c1 a); x4 (m4c2 a); x4 (m4c3 a)] ++ l4 (m4c3 b)) -> is_nan (x4 (m4c3 (mat4_mul (F32 L) a b))) = true) /\
  (forall a b, some_nan ([y4 (m4c0 a); y4 (m4c1 a); y4 (m4c2 a); y4 (m4c3 a)] ++ l4 (m4c3 b)) -> is_nan (y4 (m4c3 (mat4_mul (F32 L) a b))) = true) /\
  (forall a b, some_nan ([z4 (m4c0 a); z4 (m4c1 a); z4 (m4c2 a); z4 (m4c3 a)] ++ l4 (m4c3 b)) -> is_nan (z4 (m4c3 (mat4_mul (F32 L) a b))) = true) /\
  (forall a b, some_nan ([w4 (m4c0 a); w4 (m4c1 a); w4 (m4c2 a); w4 (m4c3 a)] ++ l4 (m4c3 b)) -> is_nan (w4 (m4c3 (mat4_mul (F32 L) a b))) = true).
Proof. exact C67_matrix_product_pf. Qed.
Print Assumptions C67_matrix_product.

(** C67: normalize, inverse and the quaternion product spread a NaN to every component. *)
Theorem C67_all_components : forall L : Libm,
  (forall v, some_nan (l2 v) -> Forall (fun x => is_nan x = true) (l2 (normalize2 (F32 L) v))) /\
  (forall v, some_nan (l3 v) -> Forall (fun x => is_nan x = true) (l3 (normalize3 (F32 L) v))) /\
  (forall v, some_nan (l4 v) -> Forall (fun x => is_nan x = true) (l4 (normalize4 (F32 L) v))) /\
  (forall q, some_nan (lq q) -> Forall (fun x => is_nan x = true) (lq (normalize_q (F32 L) q))) /\
  (forall m, some_nan (lm2 m) -> Forall (fun x => is_nan x = true) (lm2 (inverse2 (F32 L) m))) /\
  (forall m, some_nan (lm3 m) -> Forall (fun x => is_nan x = true) (lm3 (inverse3 (F32 L) m))) /\
  (forall m, some_nan (lm4 m) -> Forall (fun x => is_nan x = true) (lm4 (inverse4 (F32 L) m))) /\
  (forall p q, some_nan (lq p ++ lq q) -> Forall (fun x => is_nan x = true) (lq (quat_mul (F32 L) p q))).
Proof. exact C67_all_components_pf. Qed.
Print Assumptions C67_all_components.

(** C67: the exceptions: the extrema and sign drop a NaN operand. *)
Theorem C67_masked : forall (L : Libm) (x : f32),
  min_f (F32 L) x B754_nan = x /\ max_f (F32 L) x B754_nan = x /\
  sign_f (F32 L) B754_nan = f32_lit (-1) 0 /\
  compMin2 (F32 L) (V2 x B754_nan) = x /\ compMax2 (F32 L) (V2 x B754_nan) = x.
Proof. exact C67_masked_pf. Qed.
Print Assumptions C67_masked.

Example C67_ex : is_nan (dot2 (F32 L0) (V2 (f32_lit 1 0) B754_nan) (V2 (f32_lit 0 0) (f32_lit 0 0))) = true.
Proof. reflexivity. Qed.

