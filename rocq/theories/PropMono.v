(** * Properties: order and range laws in binary32 *)

From Coq Require Import ZArith Bool Reals List Lra Lia.
From Flocq Require Import Core IEEE754.BinarySingleNaN.
From Verif Require Import Scalar IEEE32 RealInst Types Outcome Spec SpecR SpecMat SpecGeo SpecF32 SpecErr SpecOrd FloatBasics FloatOps
  ModelVec ModelCommon ModelExp ModelGeom ModelMat ModelMatrix ModelQuat ModelQuaternion ModelComp ModelTransform ModelTrig ErrExpr ErrLib F32Tac PfOrder.
From Verif Require Import PfMono.
Import ListNotations.
Local Open Scope R_scope.


(** Every expression built from inputs, nonnegative literals, + and *: on nonnegative inputs the computed value grows with each input,
    and it is finite whenever the value on the larger inputs is. *)
Theorem C81_expressions : forall (L : Libm) (rho rho' : nat -> f32) (e : expr), lits_ok e = true -> positive_expr e = true ->
  (forall n, finite (rho n)) -> (forall n, 0 <= b2r (rho n) <= b2r (rho' n)) -> finite (eval (F32 L) rho' e) ->
  finite (eval (F32 L) rho e) /\ 0 <= b2r (eval (F32 L) rho e) <= b2r (eval (F32 L) rho' e).
Proof. exact C81_expressions_pf. Qed.
Print Assumptions C81_expressions.

(** inner products, products of matrices and vectors, translate, scale and component reductions grow with nonnegative entries *)
Theorem C81_products : forall L : Libm,
  (forall a b a' b', increases (l2 a ++ l2 b) (l2 a' ++ l2 b') ([dot2 (F32 L) a b]) ([dot2 (F32 L) a' b'])) /\
  (forall a b a' b', increases (l3 a ++ l3 b) (l3 a' ++ l3 b') ([dot3 (F32 L) a b]) ([dot3 (F32 L) a' b'])) /\
  (forall a b a' b', increases (l4 a ++ l4 b) (l4 a' ++ l4 b') ([dot4 (F32 L) a b]) ([dot4 (F32 L) a' b'])) /\
  (forall a b a' b', increases (lq a ++ lq b) (lq a' ++ lq b') ([dot_q (F32 L) a b]) ([dot_q (F32 L) a' b'])) /\
  (forall a b a' b', increases (lm2 a ++ lm2 b) (lm2 a' ++ lm2 b') (lm2 (mat2_mul (F32 L) a b)) (lm2 (mat2_mul (F32 L) a' b'))) /\
  (forall a b a' b', increases (lm3 a ++ lm3 b) (lm3 a' ++ lm3 b') (lm3 (mat3_mul (F32 L) a b)) (lm3 (mat3_mul (F32 L) a' b'))) /\
  (forall a b a' b', increases (lm4 a ++ lm4 b) (lm4 a' ++ lm4 b') (lm4 (mat4_mul (F32 L) a b)) (lm4 (mat4_mul (F32 L) a' b'))) /\
  (forall a v a' v', increases (lm2 a ++ l2 v) (lm2 a' ++ l2 v') (l2 (mat2_mul_vec (F32 L) a v)) (l2 (mat2_mul_vec (F32 L) a' v'))) /\
  (forall a v a' v', increases (lm3 a ++ l3 v) (lm3 a' ++ l3 v') (l3 (mat3_mul_vec (F32 L) a v)) (l3 (mat3_mul_vec (F32 L) a' v'))) /\
  (forall a v a' v', increases (lm4 a ++ l4 v) (lm4 a' ++ l4 v') (l4 (mat4_mul_vec (F32 L) a v)) (l4 (mat4_mul_vec (F32 L) a' v'))) /\
  (forall a v a' v', increases (lm2 a ++ l2 v) (lm2 a' ++ l2 v') (l2 (vec_mul_mat2 (F32 L) v a)) (l2 (vec_mul_mat2 (F32 L) v' a'))) /\
  (forall a v a' v', increases (lm3 a ++ l3 v) (lm3 a' ++ l3 v') (l3 (vec_mul_mat3 (F32 L) v a)) (l3 (vec_mul_mat3 (F32 L) v' a'))) /\
  (forall a v a' v', increases (lm4 a ++ l4 v) (lm4 a' ++ l4 v') (l4 (vec_mul_mat4 (F32 L) v a)) (l4 (vec_mul_mat4 (F32 L) v' a'))) /\
  (forall a b a' b', increases (lm2 a ++ lm2 b) (lm2 a' ++ lm2 b') (lm2 (matrixCompMult2 (F32 L) a b)) (lm2 (matrixCompMult2 (F32 L) a' b'))) /\
  (forall a b a' b', increases (lm3 a ++ lm3 b) (lm3 a' ++ lm3 b') (lm3 (matrixCompMult3 (F32 L) a b)) (lm3 (matrixCompMult3 (F32 L) a' b'))) /\
  (forall a b a' b', increases (lm4 a ++ lm4 b) (lm4 a' ++ lm4 b') (lm4 (matrixCompMult4 (F32 L) a b)) (lm4 (matrixCompMult4 (F32 L) a' b'))) /\
  (forall m v m' v', increases (lm4 m ++ l3 v) (lm4 m' ++ l3 v') (lm4 (translate (F32 L) m v)) (lm4 (translate (F32 L) m' v'))) /\
  (forall m v m' v', increases (lm4 m ++ l3 v) (lm4 m' ++ l3 v') (lm4 (scale (F32 L) m v)) (lm4 (scale (F32 L) m' v'))) /\
  (forall v v', increases (l2 v) (l2 v') ([compAdd2 (F32 L) v]) ([compAdd2 (F32 L) v'])) /\
  (forall v v', increases (l2 v) (l2 v') ([compMul2 (F32 L) v]) ([compMul2 (F32 L) v'])) /\
  (forall v v', increases (l3 v) (l3 v') ([compAdd3 (F32 L) v]) ([compAdd3 (F32 L) v'])) /\
  (forall v v', increases (l3 v) (l3 v') ([compMul3 (F32 L) v]) ([compMul3 (F32 L) v'])) /\
  (forall v v', increases (l4 v) (l4 v') ([compAdd4 (F32 L) v]) ([compAdd4 (F32 L) v'])) /\
  (forall v v', increases (l4 v) (l4 v') ([compMul4 (F32 L) v]) ([compMul4 (F32 L) v'])).
Proof. exact C81_products_pf. Qed.
Print Assumptions C81_products.

(** sqrt, floor, ceil, trunc, round, roundEven, radians, degrees, min and max with a number, clamp, step, sign preserve the order, on infinities too *)
Theorem C81_scalars : forall L : Libm,
  nondecreasing (sqrt_f (F32 L)) /\ nondecreasing (floor_f (F32 L)) /\ nondecreasing (ceil_f (F32 L)) /\ nondecreasing (trunc_f (F32 L)) /\
  nondecreasing (round_f (F32 L)) /\ nondecreasing (roundEven_f (F32 L)) /\ nondecreasing (radians_f (F32 L)) /\ nondecreasing (degrees_f (F32 L)) /\
  nondecreasing (sign_f (F32 L)) /\ nondecreasing (signNotZero_f (F32 L)) /\
  (forall y : f32, is_nan y = false -> nondecreasing (fun x => min_f (F32 L) x y) /\ nondecreasing (fun x => max_f (F32 L) x y) /\ nondecreasing (fun x => step_f (F32 L) y x)) /\
  (forall lo hi : f32, ieee_le lo hi -> nondecreasing (fun x => clamp_f (F32 L) x lo hi)).
Proof. exact C81_scalars_pf. Qed.
Print Assumptions C81_scalars.

(** inversesqrt reverses the order of positive numbers *)
Theorem C81_inversesqrt : forall (L : Libm) (x y : f32), 0 < b2r x -> ieee_le x y -> ieee_le (inversesqrt_f (F32 L) y) (inversesqrt_f (F32 L) x).
Proof. exact C81_inversesqrt_pf. Qed.
Print Assumptions C81_inversesqrt.

(** mix(x, y, t) moves from x towards y as t grows and never steps back *)
Theorem C81_mix : forall (L : Libm) (x y t t' : f32), finite (mix_f (F32 L) x y t) -> finite (mix_f (F32 L) x y t') -> b2r t <= b2r t' ->
  (b2r x <= b2r y -> b2r (mix_f (F32 L) x y t) <= b2r (mix_f (F32 L) x y t')) /\
  (b2r y <= b2r x -> b2r (mix_f (F32 L) x y t') <= b2r (mix_f (F32 L) x y t)) /\
  (b2r x <= b2r y -> 0 <= b2r t -> b2r x <= b2r (mix_f (F32 L) x y t)) /\
  (b2r y <= b2r x -> 0 <= b2r t -> b2r (mix_f (F32 L) x y t) <= b2r x).
Proof. exact C81_mix_pf. Qed.
Print Assumptions C81_mix.

(** smoothstep is not monotone in binary32: near 0.9 one step of x upwards lowers the result *)
Theorem C81_smoothstep_refuted : exists x y : f32, ieee_lt x y /\
  ieee_lt (smoothstep_f (F32 L0) (f32_lit 0 0) (f32_lit 1 0) y) (smoothstep_f (F32 L0) (f32_lit 0 0) (f32_lit 1 0) x).
Proof. exact C81_smoothstep_refuted_pf. Qed.
Print Assumptions C81_smoothstep_refuted.

(** the length grows with the absolute values of the components, infinities and overflow included *)
Theorem C81_length : forall L : Libm, length_monotone l2 (length2 (F32 L)) /\ length_monotone l3 (length3 (F32 L)) /\
  length_monotone l4 (length4 (F32 L)) /\ length_monotone lq (length_q (F32 L)).
Proof. exact C81_length_pf. Qed.
Print Assumptions C81_length.

(** No component exceeds the computed length in absolute value. *)
Theorem C82_dominates : forall L : Libm,
  length_dominates l2 (length2_2 (F32 L)) (length2 (F32 L)) /\ length_dominates l3 (length2_3 (F32 L)) (length3 (F32 L)) /\
  length_dominates l4 (length2_4 (F32 L)) (length4 (F32 L)) /\ length_dominates lq (length2_q (F32 L)) (length_q (F32 L)).
Proof. exact C82_dominates_pf. Qed.
Print Assumptions C82_dominates.

(** The length of a vector along an axis is exactly the absolute value of its component. *)
Theorem C82_axis : forall L : Libm, axis_length l2 (length2 (F32 L)) /\ axis_length l3 (length3 (F32 L)) /\ axis_length l4 (length4 (F32 L)) /\ axis_length lq (length_q (F32 L)).
Proof. exact C82_axis_pf. Qed.
Print Assumptions C82_axis.

(** Every component of a normalized vector or quaternion lies between -1 and 1, so it is in the domain of acos and asin. *)
Theorem C82_normalize : forall L : Libm,
  unit_range l2 (length2_2 (F32 L)) (normalize2 (F32 L)) /\ unit_range l3 (length2_3 (F32 L)) (normalize3 (F32 L)) /\
  unit_range l4 (length2_4 (F32 L)) (normalize4 (F32 L)) /\ unit_range lq (length2_q (F32 L)) (normalize_q (F32 L)).
Proof. exact C82_normalize_pf. Qed.
Print Assumptions C82_normalize.

(** The distance is at least the absolute value of every rounded coordinate difference. *)
Theorem C82_distance : forall L : Libm,
  (forall u v, let d := distance2 (F32 L) u v in finite d -> / IZR (2 ^ 62) <= b2r d -> Forall2 (fun x y => Rabs (rnd (b2r x - b2r y)) <= b2r d) (l2 u) (l2 v)) /\
  (forall u v, let d := distance3 (F32 L) u v in finite d -> / IZR (2 ^ 62) <= b2r d -> Forall2 (fun x y => Rabs (rnd (b2r x - b2r y)) <= b2r d) (l3 u) (l3 v)) /\
  (forall u v, let d := distance4 (F32 L) u v in finite d -> / IZR (2 ^ 62) <= b2r d -> Forall2 (fun x y => Rabs (rnd (b2r x - b2r y)) <= b2r d) (l4 u) (l4 v)).
Proof. exact C82_distance_pf. Qed.
Print Assumptions C82_distance.

(** Normalizing a vector along an axis need not give the unit vector of that axis: normalize(41, 0) = (0.99999994, 0);
    and below 2^-63 a component may exceed the length: length(2^-80, 0) = 0. *)
Theorem C82_axis_refuted : forall L : Libm, let h := Bldexp mode_NE (f32_lit 1 0) (-80) in
  normalize2 (F32 L) (V2 (f32_ofZ 41) (f32_ofZ 0)) = V2 (f32_lit 999999940395355 (-15)) (f32_ofZ 0) /\
  b2r (f32_lit 999999940395355 (-15)) = 1 - / IZR (2 ^ 24) /\ 
  length2 (F32 L) (V2 h (f32_ofZ 0)) = f32_ofZ 0 /\ 0 < b2r h.
Proof. exact C82_axis_refuted_pf. Qed.
Print Assumptions C82_axis_refuted.

(** (1, -2, 2) and (3, -4, 12) meet the hypotheses of the length laws; the axis vector (0, -41, 0) those of C82_axis *)
Definition od_u : vec3 f32 := V3 (f32_ofZ 1) (f32_ofZ (-2)) (f32_ofZ 2).
Definition od_v : vec3 f32 := V3 (f32_ofZ 3) (f32_ofZ (-4)) (f32_ofZ 12).
Lemma od_Z (n : Z) : (Z.abs n <=? 2 ^ 24)%Z = true -> is_nan (f32_ofZ n) = false -> is_finite (f32_ofZ n) = true -> Rabs (xr (f32_ofZ n)) = IZR (Z.abs n).
Proof. intros H _ F. rewrite xr_finite by exact F. change (Rabs (b2r (f32_ofZ n)) = IZR (Z.abs n)). rewrite ofZ_exact by exact H. symmetry. apply abs_IZR. Qed.
Example C81_case : Forall2 (fun x y => is_nan x = false /\ is_nan y = false /\ Rabs (xr x) <= Rabs (xr y)) (l3 od_u) (l3 od_v) /\
  grown [f32_ofZ 1; f32_ofZ 0] [f32_ofZ 2; f32_ofZ 0] /\ ieee_lt (length3 (F32 L0) od_u) (length3 (F32 L0) od_v).
Proof.
  split; [|split].
  - change (Forall2 (fun x y : f32 => is_nan x = false /\ is_nan y = false /\ Rabs (xr x) <= Rabs (xr y)) [f32_ofZ 1; f32_ofZ (-2); f32_ofZ 2] [f32_ofZ 3; f32_ofZ (-4); f32_ofZ 12]).
    repeat apply Forall2_cons; try apply Forall2_nil; (split; [reflexivity|]; split; [reflexivity|]; rewrite !od_Z by reflexivity; apply IZR_le; lia).
  - repeat apply Forall2_cons; try apply Forall2_nil; rewrite !ofZ_exact by reflexivity; lra.
  - apply Bltb_ieee. vm_compute. reflexivity.
Qed.
Example C82_case : finite (length2_3 (F32 L0) od_v) /\ b2r (length2_3 (F32 L0) od_v) = 169 /\ / IZR (2 ^ 126) <= 169 /\
  length3 (F32 L0) (V3 (f32_ofZ 0) (f32_ofZ (-41)) (f32_ofZ 0)) = f32_ofZ 41.
Proof.
  assert (E : length2_3 (F32 L0) od_v = f32_ofZ 169) by (apply f32_by_sf; vm_compute; reflexivity).
  split; [vm_compute; reflexivity|]. split; [rewrite E; now rewrite ofZ_exact|]. split.
  - apply Rle_trans with 1; [|lra]. rewrite <- Rinv_1. apply Rinv_le_contravar; [lra|]. apply IZR_le. discriminate.
  - apply f32_by_sf; vm_compute; reflexivity.
Qed.
