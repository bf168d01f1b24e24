(** * Properties: hashing *)

From Coq Require Import ZArith Bool List Lia Permutation.
From Flocq Require Import Core IEEE754.BinarySingleNaN IEEE754.Binary IEEE754.Bits.
From Verif Require Import Scalar IEEE32 FloatBasics Outcome Types Spec ModelVec ModelIVec ModelBVec
  ModelQuat ModelMat ModelHash.
From Verif Require Import PfHash.
Import ListNotations.
Local Open Scope Z_scope.


(** C12: values of the exact types that compare equal hash equally. *)
Theorem C12_equal_keys :
  (forall u v : vec2 Z, ivec2_eq u v = true -> hash_ivec2 u = hash_ivec2 v) /\
  (forall u v : vec3 Z, ivec3_eq u v = true -> hash_ivec3 u = hash_ivec3 v) /\
  (forall u v : vec4 Z, ivec4_eq u v = true -> hash_ivec4 u = hash_ivec4 v) /\
  (forall u v : vec2 bool, bvec2_eq u v = true -> hash_bvec2 u = hash_bvec2 v) /\
  (forall u v : vec3 bool, bvec3_eq u v = true -> hash_bvec3 u = hash_bvec3 v) /\
  (forall u v : vec4 bool, bvec4_eq u v = true -> hash_bvec4 u = hash_bvec4 v) /\
  (forall a b : Z, a = b -> hash_int a = hash_int b /\ hash_unsigned a = hash_unsigned b) /\
  (forall a b : bool, a = b -> hash_bool a = hash_bool b).
Proof. exact C12_equal_keys_pf. Qed.
Print Assumptions C12_equal_keys.

Theorem C12_hash_is_word : forall (a : Z) (b : bool) (v2 : vec2 Z) (v3 : vec3 Z) (v4 : vec4 Z) (q : quat Z)
    (m2 : mat2 Z) (m3 : mat3 Z) (m4 : mat4 Z) (b2 : vec2 bool) (b3 : vec3 bool) (b4 : vec4 bool),
  Forall (fun h => 0 <= h < 2 ^ 64)
    [hash_unsigned a; hash_int a; hash_bool b; hash_float a; hash_vec2 v2; hash_vec3 v3; hash_vec4 v4;
     hash_quat q; hash_mat2 m2; hash_mat3 m3; hash_mat4 m4; hash_bvec2 b2; hash_bvec3 b3; hash_bvec4 b4;
     hash_ivec2 v2; hash_ivec3 v3; hash_ivec4 v4].
Proof. exact C12_hash_is_word_pf. Qed.
Print Assumptions C12_hash_is_word.

(** C14: the scalar hashes never collide. *)
Theorem C14_scalar_injective :
  (forall a b, fits a -> fits b -> hash_int a = hash_int b -> a = b) /\
  (forall a b, is_u32 a -> is_u32 b -> hash_unsigned a = hash_unsigned b -> a = b) /\
  (forall a b, is_u32 a -> is_u32 b -> hash_float a = hash_float b -> a = b) /\
  (forall a b, hash_bool a = hash_bool b -> a = b).
Proof. exact C14_scalar_injective_pf. Qed.
Print Assumptions C14_scalar_injective.

(** C14: bit by bit: the lower half of hash(float) is the lower half of the hash of its image, and the upper half holds the complement of the
    lower half, ored with the upper half of that hash; the vector hashes place the component hashes at bits 32, 0, 16 and 0. *)
Theorem C14_bits : forall (x y z w i : Z), 0 <= i < 64 -> let h := fun v => Z.testbit (hash_unsigned v) in
  let pair := fun x y => (32 <=? i) && h x (i - 32) || h y i in
  Z.testbit (hash_float x) i = (32 <=? i) && negb (h x (i - 32)) || h x i /\
  Z.testbit (hash_vec2 (V2 x y)) i = pair x y /\
  Z.testbit (hash_vec3 (V3 x y z)) i = xorb (pair x y) ((16 <=? i) && h z (i - 16)) /\
  Z.testbit (hash_vec4 (V4 x y z w)) i = xorb (xorb (pair x y) ((16 <=? i) && h z (i - 16))) (h w i) /\
  Z.testbit (hash_quat (Quat x y z w)) i = xorb (xorb (pair x y) ((16 <=? i) && h z (i - 16))) (h w i).
Proof. exact C14_bits_pf. Qed.
Print Assumptions C14_bits.

Example C14_ex : hash_float 0 <> hash_float (2 ^ 31) /\ hash_int (-1) <> hash_int 1.
Proof. split; vm_compute; intros H; discriminate H. Qed.


(** C13: float keys that compare equal hash equally exactly when they are not zeros of
    opposite sign. *)
Theorem C13_float : forall a b, is_u32 a -> is_u32 b -> Beqb (f32_of_bits a) (f32_of_bits b) = true ->
  (hash_float a = hash_float b <-> ~ opposite_zeros a b).
Proof. exact C13_float_pf. Qed.
Print Assumptions C13_float.

(** C13: composite float keys that compare equal and pair no +0 with -0 hash equally. *)
Theorem C13_aggregates : forall L : Libm,
  (forall u v, images_ok (l2 u) (l2 v) -> vec2_eq (F32 L) (val2 u) (val2 v) = true -> hash_vec2 u = hash_vec2 v) /\
  (forall u v, images_ok (l3 u) (l3 v) -> vec3_eq (F32 L) (val3 u) (val3 v) = true -> hash_vec3 u = hash_vec3 v) /\
  (forall u v, images_ok (l4 u) (l4 v) -> vec4_eq (F32 L) (val4 u) (val4 v) = true -> hash_vec4 u = hash_vec4 v) /\
  (forall u v, images_ok (lq u) (lq v) -> quat_eq (F32 L) (valq u) (valq v) = true -> hash_quat u = hash_quat v) /\
  (forall u v, images_ok (lm2 u) (lm2 v) -> mat2_eq (F32 L) (valm2 u) (valm2 v) = true -> hash_mat2 u = hash_mat2 v) /\
  (forall u v, images_ok (lm3 u) (lm3 v) -> mat3_eq (F32 L) (valm3 u) (valm3 v) = true -> hash_mat3 u = hash_mat3 v) /\
  (forall u v, images_ok (lm4 u) (lm4 v) -> mat4_eq (F32 L) (valm4 u) (valm4 v) = true -> hash_mat4 u = hash_mat4 v).
Proof. exact C13_aggregates_pf. Qed.
Print Assumptions C13_aggregates.

(** C13 is violated on zeros of opposite sign: equal keys, different hashes. *)
Theorem C13_signed_zero_refuted :
  exists a b, is_u32 a /\ is_u32 b /\ Beqb (f32_of_bits a) (f32_of_bits b) = true /\ hash_float a <> hash_float b.
Proof. exact C13_signed_zero_refuted_pf. Qed.
Print Assumptions C13_signed_zero_refuted.

(** C13: so does every vec2, vec3, vec4 or quat pair that differs only in the sign of a
    zero y: the keys are equal and the hashes are not. *)
Theorem C13_signed_zero_y : forall (L : Libm) (x z w : Z),
  is_u32 x -> is_u32 z -> is_u32 w ->
  let p := f32_of_bits in
  BinarySingleNaN.is_nan (p x) = false -> BinarySingleNaN.is_nan (p z) = false -> BinarySingleNaN.is_nan (p w) = false ->
  (vec2_eq (F32 L) (val2 (V2 x 0)) (val2 (V2 x (2 ^ 31))) = true /\ hash_vec2 (V2 x 0) <> hash_vec2 (V2 x (2 ^ 31))) /\
  (vec3_eq (F32 L) (val3 (V3 x 0 z)) (val3 (V3 x (2 ^ 31) z)) = true /\ hash_vec3 (V3 x 0 z) <> hash_vec3 (V3 x (2 ^ 31) z)) /\
  (vec4_eq (F32 L) (val4 (V4 x 0 z w)) (val4 (V4 x (2 ^ 31) z w)) = true /\ hash_vec4 (V4 x 0 z w) <> hash_vec4 (V4 x (2 ^ 31) z w)) /\
  (quat_eq (F32 L) (valq (Quat x 0 z w)) (valq (Quat x (2 ^ 31) z w)) = true /\ hash_quat (Quat x 0 z w) <> hash_quat (Quat x (2 ^ 31) z w)).
Proof. exact C13_signed_zero_y_pf. Qed.
Print Assumptions C13_signed_zero_y.

(** C15: changing only y, only z or only w changes the hash. *)
Theorem C15_last_components_injective : forall x y y' z z' w w',
  is_u32 y -> is_u32 y' -> is_u32 z -> is_u32 z' -> is_u32 w -> is_u32 w' ->
  (hash_vec2 (V2 x y) = hash_vec2 (V2 x y') -> y = y') /\
  (hash_vec3 (V3 x y z) = hash_vec3 (V3 x y' z) -> y = y') /\
  (hash_vec3 (V3 x y z) = hash_vec3 (V3 x y z') -> z = z') /\
  (hash_vec4 (V4 x y z w) = hash_vec4 (V4 x y' z w) -> y = y') /\
  (hash_vec4 (V4 x y z w) = hash_vec4 (V4 x y z' w) -> z = z') /\
  (hash_vec4 (V4 x y z w) = hash_vec4 (V4 x y z w') -> w = w') /\
  (hash_quat (Quat x y z w) = hash_quat (Quat x y' z w) -> y = y') /\
  (hash_quat (Quat x y z w) = hash_quat (Quat x y z' w) -> z = z') /\
  (hash_quat (Quat x y z w) = hash_quat (Quat x y z w') -> w = w').
Proof. exact C15_last_components_injective_pf. Qed.
Print Assumptions C15_last_components_injective.

(** C15: the first component is not protected: whenever the scalar hash of y has a bit
    set in its upper half, every x has an x' <> x that collides with it. *)
Theorem C15_vec2_collisions : forall x y, is_u32 x -> is_u32 y -> 2 ^ 32 <= float_hash y ->
  exists x', is_u32 x' /\ x' <> x /\ hash_vec2 (V2 x' y) = hash_vec2 (V2 x y).
Proof. exact C15_vec2_collisions_pf. Qed.
Print Assumptions C15_vec2_collisions.

(** the hypothesis holds for 1.0f *)
Example C15_collisions_ex : 2 ^ 32 <= float_hash 1065353216.
Proof. vm_compute. discriminate. Qed.


(** C15: hash(mat4) ignores the second and the third column. *)
Theorem C15_mat4_ignores_columns : forall a b c d b' c' : vec4 Z,
  hash_mat4 (M4 a b c d) = hash_mat4 (M4 a b' c' d).
Proof. exact C15_mat4_ignores_columns_pf. Qed.
Print Assumptions C15_mat4_ignores_columns.

(** C15: the hashes of int and bool vectors and of 2x2 and 3x3 matrices do not see the order
    of the components (columns). *)
Theorem C15_permutation_invariant :
  (forall u v : vec2 Z, Permutation (l2 u) (l2 v) -> hash_ivec2 u = hash_ivec2 v) /\
  (forall u v : vec3 Z, Permutation (l3 u) (l3 v) -> hash_ivec3 u = hash_ivec3 v) /\
  (forall u v : vec4 Z, Permutation (l4 u) (l4 v) -> hash_ivec4 u = hash_ivec4 v) /\
  (forall u v : vec2 bool, Permutation (l2 u) (l2 v) -> hash_bvec2 u = hash_bvec2 v) /\
  (forall u v : vec3 bool, Permutation (l3 u) (l3 v) -> hash_bvec3 u = hash_bvec3 v) /\
  (forall u v : vec4 bool, Permutation (l4 u) (l4 v) -> hash_bvec4 u = hash_bvec4 v) /\
  (forall m n : mat2 Z, Permutation (cm2 m) (cm2 n) -> hash_mat2 m = hash_mat2 n) /\
  (forall m n : mat3 Z, Permutation (cm3 m) (cm3 n) -> hash_mat3 m = hash_mat3 n).
Proof. exact C15_permutation_invariant_pf. Qed.
Print Assumptions C15_permutation_invariant.

(** C15: equal components cancel: hash(ivec2(a,a)), hash(bvec2(b,b)) and the hash of a mat2 with
    equal columns are 0. *)
Theorem C15_equal_components_cancel : forall (a : Z) (b : bool) (c : vec2 Z),
  hash_ivec2 (V2 a a) = 0 /\ hash_bvec2 (V2 b b) = 0 /\ hash_mat2 (M2 c c) = 0.
Proof. exact C15_equal_components_cancel_pf. Qed.
Print Assumptions C15_equal_components_cancel.

Example C15_perm_ex : hash_ivec3 (V3 1 2 3) = hash_ivec3 (V3 3 1 2) /\ hash_ivec2 (V2 5 5) = hash_ivec2 (V2 7 7).
Proof. split; vm_compute; reflexivity. Qed.
