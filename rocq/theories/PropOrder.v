(** * Properties: comparison, selection and classification of floats *)

From Coq Require Import ZArith Bool Reals List Lra Lia.
From Flocq Require Import Core IEEE754.BinarySingleNaN.
From Verif Require Import Scalar IEEE32 FloatBasics Outcome Types Spec SpecF32 Int32 ModelVec ModelIVec ModelBVec
  ModelQuat ModelMat ModelCommon ModelComp.
From Verif Require Import PfOrder.
Import ListNotations.
Local Open Scope R_scope.


(** C07: == on float types is IEEE equality of every component pair; it is symmetric, transitive, and
    reflexive exactly on NaN-free values; != is its negation. *)
Theorem C07_float_equality : forall L : Libm,
  equality_ok l2 (vec2_eq (F32 L)) (vec2_ne (F32 L)) /\
  equality_ok l3 (vec3_eq (F32 L)) (vec3_ne (F32 L)) /\
  equality_ok l4 (vec4_eq (F32 L)) (vec4_ne (F32 L)) /\
  equality_ok lq (quat_eq (F32 L)) (quat_ne (F32 L)) /\
  equality_ok lm2 (mat2_eq (F32 L)) (mat2_ne (F32 L)) /\
  equality_ok lm3 (mat3_eq (F32 L)) (mat3_ne (F32 L)) /\
  equality_ok lm4 (mat4_eq (F32 L)) (mat4_ne (F32 L)).
Proof. exact C07_float_equality_pf. Qed.
Print Assumptions C07_float_equality.

(** C07: == on int and bool vectors is identity. *)
Theorem C07_exact_equality :
  identity_ok ivec2_eq ivec2_ne /\ identity_ok ivec3_eq ivec3_ne /\ identity_ok ivec4_eq ivec4_ne /\
  identity_ok bvec2_eq bvec2_ne /\ identity_ok bvec3_eq bvec3_ne /\ identity_ok bvec4_eq bvec4_ne.
Proof. exact C07_exact_equality_pf. Qed.
Print Assumptions C07_exact_equality.

(** zeros of opposite sign are equal, NaN is not equal to itself *)
Example C07_ex : vec2_eq (F32 L0) (V2 (B754_zero true) (B754_zero false)) (V2 (B754_zero false) (B754_zero false)) = true
  /\ vec2_eq (F32 L0) (V2 B754_nan Bone) (V2 B754_nan Bone) = false.
Proof. split; vm_compute; reflexivity. Qed.


(** C16: min and max return one of their arguments (the first one on ties and when an argument is NaN), which is
    the larger or smaller one when both are numbers. *)
Theorem C16_min_max : forall (L : Libm) (x y : f32),
  (max_f (F32 L) x y = x \/ max_f (F32 L) x y = y) /\
  (min_f (F32 L) x y = x \/ min_f (F32 L) x y = y) /\
  (is_nan x = true \/ is_nan y = true -> max_f (F32 L) x y = x /\ min_f (F32 L) x y = x) /\
  (is_nan x = false -> is_nan y = false ->
    ieee_le x (max_f (F32 L) x y) /\ ieee_le y (max_f (F32 L) x y) /\
    ieee_le (min_f (F32 L) x y) x /\ ieee_le (min_f (F32 L) x y) y) /\
  (ieee_eq x y -> max_f (F32 L) x y = x /\ min_f (F32 L) x y = x).
Proof. exact C16_min_max_pf. Qed.
Print Assumptions C16_min_max.

(** C16: clamp. *)
Theorem C16_clamp : forall (L : Libm) (x lo hi : f32), ieee_le lo hi ->
  (is_nan x = false -> ieee_le lo (clamp_f (F32 L) x lo hi) /\ ieee_le (clamp_f (F32 L) x lo hi) hi) /\
  (ieee_le lo x -> ieee_le x hi -> clamp_f (F32 L) x lo hi = x) /\
  (ieee_lt x lo -> ieee_lt lo hi -> clamp_f (F32 L) x lo hi = lo) /\
  (ieee_lt hi x -> clamp_f (F32 L) x lo hi = hi) /\
  clamp_f (F32 L) (clamp_f (F32 L) x lo hi) lo hi = clamp_f (F32 L) x lo hi /\
  (is_nan x = true -> clamp_f (F32 L) x lo hi = x).
Proof. exact C16_clamp_pf. Qed.
Print Assumptions C16_clamp.

(** C16: vector min, max, clamp and their int counterparts act componentwise. *)
Theorem C16_componentwise : forall (L : Libm),
  (forall x y, l2 (max2 (F32 L) x y) = zip (max_f (F32 L)) (l2 x) (l2 y) /\ l2 (min2 (F32 L) x y) = zip (min_f (F32 L)) (l2 x) (l2 y)) /\
  (forall x y, l3 (max3 (F32 L) x y) = zip (max_f (F32 L)) (l3 x) (l3 y) /\ l3 (min3 (F32 L) x y) = zip (min_f (F32 L)) (l3 x) (l3 y)) /\
  (forall x y, l4 (max4 (F32 L) x y) = zip (max_f (F32 L)) (l4 x) (l4 y) /\ l4 (min4 (F32 L) x y) = zip (min_f (F32 L)) (l4 x) (l4 y)) /\
  (forall x lo hi, l2 (clamp2 (F32 L) x lo hi) = zip3 (clamp_f (F32 L)) (l2 x) (l2 lo) (l2 hi)) /\
  (forall x lo hi, l3 (clamp3 (F32 L) x lo hi) = zip3 (clamp_f (F32 L)) (l3 x) (l3 lo) (l3 hi)) /\
  (forall x lo hi, l4 (clamp4 (F32 L) x lo hi) = zip3 (clamp_f (F32 L)) (l4 x) (l4 lo) (l4 hi)) /\
  (forall x y, l2 (imax2 x y) = zip Z.max (l2 x) (l2 y) /\ l2 (imin2 x y) = zip Z.min (l2 x) (l2 y)) /\
  (forall x y, l3 (imax3 x y) = zip Z.max (l3 x) (l3 y) /\ l3 (imin3 x y) = zip Z.min (l3 x) (l3 y)) /\
  (forall x y, l4 (imax4 x y) = zip Z.max (l4 x) (l4 y) /\ l4 (imin4 x y) = zip Z.min (l4 x) (l4 y)) /\
  (forall x lo hi, l2 (iclamp2 x lo hi) = zip3 (fun x lo hi => Z.min (Z.max x lo) hi) (l2 x) (l2 lo) (l2 hi)) /\
  (forall x lo hi, l3 (iclamp3 x lo hi) = zip3 (fun x lo hi => Z.min (Z.max x lo) hi) (l3 x) (l3 lo) (l3 hi)) /\
  (forall x lo hi, l4 (iclamp4 x lo hi) = zip3 (fun x lo hi => Z.min (Z.max x lo) hi) (l4 x) (l4 lo) (l4 hi)).
Proof. exact C16_componentwise_pf. Qed.
Print Assumptions C16_componentwise.

Example C16_ex : ieee_le (f32_lit 0 0) (f32_lit 1 0) /\ ieee_lt (f32_lit 1 0) (B754_infinity false)
  /\ clamp_f (F32 L0) (B754_infinity false) (f32_lit 0 0) (f32_lit 1 0) = f32_lit 1 0.
Proof.
  assert (ieee_lt (f32_lit 1 0) (B754_infinity false)) by (apply Bltb_ieee; vm_compute; reflexivity).
  assert (ieee_le (f32_lit 0 0) (f32_lit 1 0)) by (apply Bleb_ieee; vm_compute; reflexivity).
  split; [assumption|split; [assumption|]]. now apply C16_clamp_pf.
Qed.


(** C17: abs clears the sign and keeps the magnitude of every float. *)
Theorem C17_abs : forall (L : Libm) (x : f32),
  (is_nan x = false -> Bsign (abs_f (F32 L) x) = false /\ xr (abs_f (F32 L) x) = Rabs (xr x)) /\
  (is_nan x = true -> is_nan (abs_f (F32 L) x) = true) /\
  (is_finite (abs_f (F32 L) x) = is_finite x).
Proof. exact C17_abs_pf. Qed.
Print Assumptions C17_abs.

(** C17: sign is the sign of a number (0 for both zeros), signNotZero maps both zeros to 1, and both
    return -1 on NaN. *)
Theorem C17_sign : forall (L : Libm) (x : f32),
  (ieee_lt x (f32_lit 0 0) -> xr (sign_f (F32 L) x) = -1 /\ xr (signNotZero_f (F32 L) x) = -1) /\
  (ieee_eq x (f32_lit 0 0) -> xr (sign_f (F32 L) x) = 0 /\ xr (signNotZero_f (F32 L) x) = 1) /\
  (ieee_lt (f32_lit 0 0) x -> xr (sign_f (F32 L) x) = 1 /\ xr (signNotZero_f (F32 L) x) = 1) /\
  (is_nan x = true -> xr (sign_f (F32 L) x) = -1 /\ xr (signNotZero_f (F32 L) x) = -1).
Proof. exact C17_sign_pf. Qed.
Print Assumptions C17_sign.

(** C17: sign(x)*abs(x) == x for every number, infinities included. *)
Theorem C17_sign_abs : forall (L : Libm) (x : f32), is_nan x = false ->
  ieee_eq (@smul (F32 L) (sign_f (F32 L) x) (abs_f (F32 L) x)) x.
Proof. exact C17_sign_abs_pf. Qed.
Print Assumptions C17_sign_abs.

(** C17: the int forms. *)
Theorem C17_int : forall x : Z, fits x ->
  (x <> - 2 ^ 31 -> abs_i x = Ret (Z.abs x))%Z /\ (x = - 2 ^ 31 -> abs_i x = Undefined)%Z /\
  sign_i x = Z.sgn x /\ ((0 <= x -> signNotZero_i x = 1) /\ (x < 0 -> signNotZero_i x = -1))%Z.
Proof. exact C17_int_pf. Qed.
Print Assumptions C17_int.

Example C17_ex : xr (sign_f (F32 L0) (B754_infinity true)) = -1 /\ xr (sign_f (F32 L0) B754_nan) = -1.
Proof.
  split.
  - apply (proj1 (C17_sign_pf L0 (B754_infinity true))). apply Bltb_ieee. vm_compute. reflexivity.
  - apply C17_sign_pf. reflexivity.
Qed.


(** C25: every relational function decides its IEEE relation in every component. *)
Theorem C25_decides : forall L : Libm,
  (forall x y, decides ieee_lt (l2 (lessThan2 (F32 L) x y)) (l2 x) (l2 y)) /\
  (forall x y, decides ieee_lt (l3 (lessThan3 (F32 L) x y)) (l3 x) (l3 y)) /\
  (forall x y, decides ieee_lt (l4 (lessThan4 (F32 L) x y)) (l4 x) (l4 y)) /\
  (forall x y, decides ieee_le (l2 (lessThanEqual2 (F32 L) x y)) (l2 x) (l2 y)) /\
  (forall x y, decides ieee_le (l3 (lessThanEqual3 (F32 L) x y)) (l3 x) (l3 y)) /\
  (forall x y, decides ieee_le (l4 (lessThanEqual4 (F32 L) x y)) (l4 x) (l4 y)) /\
  (forall x y, decides (fun a b => ieee_lt b a) (l2 (greaterThan2 (F32 L) x y)) (l2 x) (l2 y)) /\
  (forall x y, decides (fun a b => ieee_lt b a) (l3 (greaterThan3 (F32 L) x y)) (l3 x) (l3 y)) /\
  (forall x y, decides (fun a b => ieee_lt b a) (l4 (greaterThan4 (F32 L) x y)) (l4 x) (l4 y)) /\
  (forall x y, decides (fun a b => ieee_le b a) (l2 (greaterThanEqual2 (F32 L) x y)) (l2 x) (l2 y)) /\
  (forall x y, decides (fun a b => ieee_le b a) (l3 (greaterThanEqual3 (F32 L) x y)) (l3 x) (l3 y)) /\
  (forall x y, decides (fun a b => ieee_le b a) (l4 (greaterThanEqual4 (F32 L) x y)) (l4 x) (l4 y)) /\
  (forall x y, decides ieee_eq (l2 (equal2 (F32 L) x y)) (l2 x) (l2 y)) /\
  (forall x y, decides ieee_eq (l3 (equal3 (F32 L) x y)) (l3 x) (l3 y)) /\
  (forall x y, decides ieee_eq (l4 (equal4 (F32 L) x y)) (l4 x) (l4 y)) /\
  (forall x y, decides ieee_eq (l4 (equal_q (F32 L) x y)) (lq x) (lq y)) /\
  (forall x y, decides (fun a b => ~ ieee_eq a b) (l2 (notEqual2 (F32 L) x y)) (l2 x) (l2 y)) /\
  (forall x y, decides (fun a b => ~ ieee_eq a b) (l3 (notEqual3 (F32 L) x y)) (l3 x) (l3 y)) /\
  (forall x y, decides (fun a b => ~ ieee_eq a b) (l4 (notEqual4 (F32 L) x y)) (l4 x) (l4 y)) /\
  (forall x y, decides (fun a b => ~ ieee_eq a b) (l4 (notEqual_q (F32 L) x y)) (lq x) (lq y)).
Proof. exact C25_decides_pf. Qed.
Print Assumptions C25_decides.

(** C25: relations between the relational functions, and with ==. *)
Theorem C25_laws : forall L : Libm,
  (forall x y, lessThan2 (F32 L) x y = greaterThan2 (F32 L) y x /\ lessThanEqual2 (F32 L) x y = greaterThanEqual2 (F32 L) y x) /\
  (forall x y, lessThan3 (F32 L) x y = greaterThan3 (F32 L) y x /\ lessThanEqual3 (F32 L) x y = greaterThanEqual3 (F32 L) y x) /\
  (forall x y, lessThan4 (F32 L) x y = greaterThan4 (F32 L) y x /\ lessThanEqual4 (F32 L) x y = greaterThanEqual4 (F32 L) y x) /\
  (forall x y, all2 (equal2 (F32 L) x y) = vec2_eq (F32 L) x y /\ any2 (notEqual2 (F32 L) x y) = vec2_ne (F32 L) x y) /\
  (forall x y, all3 (equal3 (F32 L) x y) = vec3_eq (F32 L) x y /\ any3 (notEqual3 (F32 L) x y) = vec3_ne (F32 L) x y) /\
  (forall x y, all4 (equal4 (F32 L) x y) = vec4_eq (F32 L) x y /\ any4 (notEqual4 (F32 L) x y) = vec4_ne (F32 L) x y) /\
  (forall x y, all4 (equal_q (F32 L) x y) = quat_eq (F32 L) x y /\ any4 (notEqual_q (F32 L) x y) = quat_ne (F32 L) x y) /\
  (forall x y, l2 (bequal2 x y) = zip eqb (l2 x) (l2 y) /\ l2 (bnotEqual2 x y) = zip xorb (l2 x) (l2 y)) /\
  (forall x y, l3 (bequal3 x y) = zip eqb (l3 x) (l3 y) /\ l3 (bnotEqual3 x y) = zip xorb (l3 x) (l3 y)) /\
  (forall x y, l4 (bequal4 x y) = zip eqb (l4 x) (l4 y) /\ l4 (bnotEqual4 x y) = zip xorb (l4 x) (l4 y)).
Proof. exact C25_laws_pf. Qed.
Print Assumptions C25_laws.

Example C25_ex : lessThan2 (F32 L0) (V2 B754_nan (f32_lit 1 0)) (V2 (f32_lit 1 0) (f32_lit 2 0)) = V2 false true
  /\ notEqual2 (F32 L0) (V2 B754_nan (B754_zero true)) (V2 B754_nan (B754_zero false)) = V2 true false.
Proof. split; vm_compute; reflexivity. Qed.


(** C24: isnan and isinf decide the two exceptional classes in every component. *)
Theorem C24_classify : forall L : Libm,
  (forall x, isnan_f (F32 L) x = true <-> x = B754_nan) /\
  (forall x, isinf_f (F32 L) x = true <-> x = B754_infinity true \/ x = B754_infinity false) /\
  (forall x, isnan_f (F32 L) x = false -> isinf_f (F32 L) x = false -> finite x) /\
  (forall v, l2 (isnan2 (F32 L) v) = map (isnan_f (F32 L)) (l2 v) /\ l2 (isinf2 (F32 L) v) = map (isinf_f (F32 L)) (l2 v)) /\
  (forall v, l3 (isnan3 (F32 L) v) = map (isnan_f (F32 L)) (l3 v) /\ l3 (isinf3 (F32 L) v) = map (isinf_f (F32 L)) (l3 v)) /\
  (forall v, l4 (isnan4 (F32 L) v) = map (isnan_f (F32 L)) (l4 v) /\ l4 (isinf4 (F32 L) v) = map (isinf_f (F32 L)) (l4 v)) /\
  (forall q, l4 (isnan_q (F32 L) q) = map (isnan_f (F32 L)) (lq q) /\ l4 (isinf_q (F32 L) q) = map (isinf_f (F32 L)) (lq q)).
Proof. exact C24_classify_pf. Qed.
Print Assumptions C24_classify.

(** C24: fma rounds the exact a*b+c once. *)
Theorem C24_fma : forall (L : Libm) (a b c : f32), finite a -> finite b -> finite c ->
  Rabs (rnd (b2r a * b2r b + b2r c)) < big ->
  finite (fma_f (F32 L) a b c) /\ b2r (fma_f (F32 L) a b c) = rnd (b2r a * b2r b + b2r c).
Proof. exact C24_fma_pf. Qed.
Print Assumptions C24_fma.

Theorem C24_fma_componentwise : forall L : Libm,
  (forall a b c, l2 (fma2 (F32 L) a b c) = zip3 (fma_f (F32 L)) (l2 a) (l2 b) (l2 c)) /\
  (forall a b c, l3 (fma3 (F32 L) a b c) = zip3 (fma_f (F32 L)) (l3 a) (l3 b) (l3 c)) /\
  (forall a b c, l4 (fma4 (F32 L) a b c) = zip3 (fma_f (F32 L)) (l4 a) (l4 b) (l4 c)).
Proof. exact C24_fma_componentwise_pf. Qed.
Print Assumptions C24_fma_componentwise.

(** C69: compMin and compMax return an extremal component of a NaN-free vector. *)
Theorem C69_extrema : forall L : Libm,
  (forall v, no_nan (l2 v) -> is_least (compMin2 (F32 L) v) (l2 v) /\ is_greatest (compMax2 (F32 L) v) (l2 v)) /\
  (forall v, no_nan (l3 v) -> is_least (compMin3 (F32 L) v) (l3 v) /\ is_greatest (compMax3 (F32 L) v) (l3 v)) /\
  (forall v, no_nan (l4 v) -> is_least (compMin4 (F32 L) v) (l4 v) /\ is_greatest (compMax4 (F32 L) v) (l4 v)).
Proof. exact C69_extrema_pf. Qed.
Print Assumptions C69_extrema.

(** C69: compAdd and compMul are the left-to-right float sum and product. *)
Theorem C69_fold : forall L : Libm,
  (forall v, compAdd2 (F32 L) v = fold_left (Bplus mode_NE) (tl (l2 v)) (x2 v) /\
             compMul2 (F32 L) v = fold_left (Bmult mode_NE) (tl (l2 v)) (x2 v)) /\
  (forall v, compAdd3 (F32 L) v = fold_left (Bplus mode_NE) (tl (l3 v)) (x3 v) /\
             compMul3 (F32 L) v = fold_left (Bmult mode_NE) (tl (l3 v)) (x3 v)) /\
  (forall v, compAdd4 (F32 L) v = fold_left (Bplus mode_NE) (tl (l4 v)) (x4 v) /\
             compMul4 (F32 L) v = fold_left (Bmult mode_NE) (tl (l4 v)) (x4 v)).
Proof. exact C69_fold_pf. Qed.
Print Assumptions C69_fold.

Example C69_ex : compMin3 (F32 L0) (V3 (f32_lit 3 0) (f32_lit (-2) 0) (f32_lit 5 (-1))) = f32_lit (-2) 0.
Proof. reflexivity. Qed.
