(** * Proofs: componentwise functions and colour conversions *)
From Coq Require Import ZArith Bool Reals List Lra.
From Flocq Require Import Core IEEE754.BinarySingleNaN.
From Verif Require Import Scalar IEEE32 F32Tac RealInst FloatBasics Outcome Types Spec SpecF32 ModelVec ModelCommon ModelQuat
  ModelExp ModelTrig ModelColor.
Import ListNotations.
(*HEADER END*)
From Verif Require Import PfOrder.

Ltac ands := repeat match goal with |- _ /\ _ => split end.


(** C26: trigonometric and hyperbolic functions, for any scalar type and any libm. *)
Lemma C26_trigonometric_pf : forall S : Scalar,
  (forall x : S, cos_f S x = mcos x) /\
  (forall v, l2 (cos2 S v) = map mcos (l2 v)) /\
  (forall v, l3 (cos3 S v) = map mcos (l3 v)) /\
  (forall v, l4 (cos4 S v) = map mcos (l4 v)) /\
  (forall x : S, sin_f S x = msin x) /\
  (forall v, l2 (sin2 S v) = map msin (l2 v)) /\
  (forall v, l3 (sin3 S v) = map msin (l3 v)) /\
  (forall v, l4 (sin4 S v) = map msin (l4 v)) /\
  (forall x : S, acos_f S x = macos x) /\
  (forall v, l2 (acos2 S v) = map macos (l2 v)) /\
  (forall v, l3 (acos3 S v) = map macos (l3 v)) /\
  (forall v, l4 (acos4 S v) = map macos (l4 v)) /\
  (forall x : S, acosh_f S x = macosh x) /\
  (forall v, l2 (acosh2 S v) = map macosh (l2 v)) /\
  (forall v, l3 (acosh3 S v) = map macosh (l3 v)) /\
  (forall v, l4 (acosh4 S v) = map macosh (l4 v)) /\
  (forall x : S, asin_f S x = masin x) /\
  (forall v, l2 (asin2 S v) = map masin (l2 v)) /\
  (forall v, l3 (asin3 S v) = map masin (l3 v)) /\
  (forall v, l4 (asin4 S v) = map masin (l4 v)) /\
  (forall x : S, asinh_f S x = masinh x) /\
  (forall v, l2 (asinh2 S v) = map masinh (l2 v)) /\
  (forall v, l3 (asinh3 S v) = map masinh (l3 v)) /\
  (forall v, l4 (asinh4 S v) = map masinh (l4 v)) /\
  (forall x : S, atan_f S x = matan x) /\
  (forall v, l2 (atan2 S v) = map matan (l2 v)) /\
  (forall v, l3 (atan3 S v) = map matan (l3 v)) /\
  (forall v, l4 (atan4 S v) = map matan (l4 v)) /\
  (forall x : S, atanh_f S x = matanh x) /\
  (forall v, l2 (atanh2 S v) = map matanh (l2 v)) /\
  (forall v, l3 (atanh3 S v) = map matanh (l3 v)) /\
  (forall v, l4 (atanh4 S v) = map matanh (l4 v)) /\
  (forall x : S, cosh_f S x = mcosh x) /\
  (forall v, l2 (cosh2 S v) = map mcosh (l2 v)) /\
  (forall v, l3 (cosh3 S v) = map mcosh (l3 v)) /\
  (forall v, l4 (cosh4 S v) = map mcosh (l4 v)) /\
  (forall x : S, sinh_f S x = msinh x) /\
  (forall v, l2 (sinh2 S v) = map msinh (l2 v)) /\
  (forall v, l3 (sinh3 S v) = map msinh (l3 v)) /\
  (forall v, l4 (sinh4 S v) = map msinh (l4 v)) /\
  (forall x : S, tan_f S x = mtan x) /\
  (forall v, l2 (tan2 S v) = map mtan (l2 v)) /\
  (forall v, l3 (tan3 S v) = map mtan (l3 v)) /\
  (forall v, l4 (tan4 S v) = map mtan (l4 v)) /\
  (forall x : S, tanh_f S x = mtanh x) /\
  (forall v, l2 (tanh2 S v) = map mtanh (l2 v)) /\
  (forall v, l3 (tanh3 S v) = map mtanh (l3 v)) /\
  (forall v, l4 (tanh4 S v) = map mtanh (l4 v)) /\
  (forall v, l2 (degrees2 S v) = map (degrees_f S) (l2 v)) /\
  (forall v, l3 (degrees3 S v) = map (degrees_f S) (l3 v)) /\
  (forall v, l4 (degrees4 S v) = map (degrees_f S) (l4 v)) /\
  (forall v, l2 (radians2 S v) = map (radians_f S) (l2 v)) /\
  (forall v, l3 (radians3 S v) = map (radians_f S) (l3 v)) /\
  (forall v, l4 (radians4 S v) = map (radians_f S) (l4 v)) /\
  (forall y x : S, atan2_f S y x = matan2 y x) /\
  (forall y x, l2 (atan2_2 S y x) = zip matan2 (l2 y) (l2 x)) /\
  (forall y x, l3 (atan2_3 S y x) = zip matan2 (l3 y) (l3 x)) /\
  (forall y x, l4 (atan2_4 S y x) = zip matan2 (l4 y) (l4 x)).
Proof.
  intros S; ands; intros; reflexivity.
Qed.

(** C26: exponential functions. *)
Lemma C26_exponential_pf : forall S : Scalar,
  (forall x : S, sqrt_f S x = ssqrt x) /\
  (forall v, l2 (sqrt2 S v) = map ssqrt (l2 v)) /\
  (forall v, l3 (sqrt3 S v) = map ssqrt (l3 v)) /\
  (forall v, l4 (sqrt4 S v) = map ssqrt (l4 v)) /\
  (forall q, lq (sqrt_q S q) = map ssqrt (lq q)) /\
  (forall x : S, log_f S x = mlog x) /\
  (forall v, l2 (log2 S v) = map mlog (l2 v)) /\
  (forall v, l3 (log3 S v) = map mlog (l3 v)) /\
  (forall v, l4 (log4 S v) = map mlog (l4 v)) /\
  (forall q, lq (log_q S q) = map mlog (lq q)) /\
  (forall x : S, log2_f S x = mlog2 x) /\
  (forall v, l2 (log22 S v) = map mlog2 (l2 v)) /\
  (forall v, l3 (log23 S v) = map mlog2 (l3 v)) /\
  (forall v, l4 (log24 S v) = map mlog2 (l4 v)) /\
  (forall q, lq (log2_q S q) = map mlog2 (lq q)) /\
  (forall x : S, exp_f S x = mexp x) /\
  (forall v, l2 (exp2 S v) = map mexp (l2 v)) /\
  (forall v, l3 (exp3 S v) = map mexp (l3 v)) /\
  (forall v, l4 (exp4 S v) = map mexp (l4 v)) /\
  (forall q, lq (exp_q S q) = map mexp (lq q)) /\
  (forall x : S, cbrt_f S x = mcbrt x) /\
  (forall v, l2 (cbrt2 S v) = map mcbrt (l2 v)) /\
  (forall v, l3 (cbrt3 S v) = map mcbrt (l3 v)) /\
  (forall v, l4 (cbrt4 S v) = map mcbrt (l4 v)) /\
  (forall q, lq (cbrt_q S q) = map mcbrt (lq q)) /\
  (forall v, l2 (exp22 S v) = map (exp2_f S) (l2 v)) /\
  (forall v, l3 (exp23 S v) = map (exp2_f S) (l3 v)) /\
  (forall v, l4 (exp24 S v) = map (exp2_f S) (l4 v)) /\
  (forall q, lq (exp2_q S q) = map (exp2_f S) (lq q)) /\
  (forall v, l2 (inversesqrt2 S v) = map (inversesqrt_f S) (l2 v)) /\
  (forall v, l3 (inversesqrt3 S v) = map (inversesqrt_f S) (l3 v)) /\
  (forall v, l4 (inversesqrt4 S v) = map (inversesqrt_f S) (l4 v)) /\
  (forall q, lq (inversesqrt_q S q) = map (inversesqrt_f S) (lq q)) /\
  (forall x y : S, pow_f S x y = mpow x y) /\
  (forall x y, l2 (pow2 S x y) = zip mpow (l2 x) (l2 y)) /\
  (forall x y, l3 (pow3 S x y) = zip mpow (l3 x) (l3 y)) /\
  (forall x y, l4 (pow4 S x y) = zip mpow (l4 x) (l4 y)) /\
  (forall q (y : S), lq (pow_q S q y) = map (fun x => mpow x y) (lq q)).
Proof.
  intros S; ands; intros; reflexivity.
Qed.

(** C26: the functions of common.cpp, with vector and with scalar last operands. *)
Lemma C26_common_pf : forall S : Scalar,
  (forall v, l2 (abs2 S v) = map (abs_f S) (l2 v)) /\
  (forall v, l3 (abs3 S v) = map (abs_f S) (l3 v)) /\
  (forall v, l4 (abs4 S v) = map (abs_f S) (l4 v)) /\
  (forall v, l2 (ceil2 S v) = map (ceil_f S) (l2 v)) /\
  (forall v, l3 (ceil3 S v) = map (ceil_f S) (l3 v)) /\
  (forall v, l4 (ceil4 S v) = map (ceil_f S) (l4 v)) /\
  (forall v, l2 (floor2 S v) = map (floor_f S) (l2 v)) /\
  (forall v, l3 (floor3 S v) = map (floor_f S) (l3 v)) /\
  (forall v, l4 (floor4 S v) = map (floor_f S) (l4 v)) /\
  (forall v, l2 (fract2 S v) = map (fract_f S) (l2 v)) /\
  (forall v, l3 (fract3 S v) = map (fract_f S) (l3 v)) /\
  (forall v, l4 (fract4 S v) = map (fract_f S) (l4 v)) /\
  (forall v, l2 (round2 S v) = map (round_f S) (l2 v)) /\
  (forall v, l3 (round3 S v) = map (round_f S) (l3 v)) /\
  (forall v, l4 (round4 S v) = map (round_f S) (l4 v)) /\
  (forall v, l2 (roundEven2 S v) = map (roundEven_f S) (l2 v)) /\
  (forall v, l3 (roundEven3 S v) = map (roundEven_f S) (l3 v)) /\
  (forall v, l4 (roundEven4 S v) = map (roundEven_f S) (l4 v)) /\
  (forall v, l2 (sign2 S v) = map (sign_f S) (l2 v)) /\
  (forall v, l3 (sign3 S v) = map (sign_f S) (l3 v)) /\
  (forall v, l4 (sign4 S v) = map (sign_f S) (l4 v)) /\
  (forall v, l2 (signNotZero2 S v) = map (signNotZero_f S) (l2 v)) /\
  (forall v, l3 (signNotZero3 S v) = map (signNotZero_f S) (l3 v)) /\
  (forall v, l4 (signNotZero4 S v) = map (signNotZero_f S) (l4 v)) /\
  (forall v, l2 (trunc2 S v) = map (trunc_f S) (l2 v)) /\
  (forall v, l3 (trunc3 S v) = map (trunc_f S) (l3 v)) /\
  (forall v, l4 (trunc4 S v) = map (trunc_f S) (l4 v)) /\
  (forall u v, l2 (max2 S u v) = zip (max_f S) (l2 u) (l2 v)) /\
  (forall u v, l3 (max3 S u v) = zip (max_f S) (l3 u) (l3 v)) /\
  (forall u v, l4 (max4 S u v) = zip (max_f S) (l4 u) (l4 v)) /\
  (forall u v, l2 (min2 S u v) = zip (min_f S) (l2 u) (l2 v)) /\
  (forall u v, l3 (min3 S u v) = zip (min_f S) (l3 u) (l3 v)) /\
  (forall u v, l4 (min4 S u v) = zip (min_f S) (l4 u) (l4 v)) /\
  (forall u v, l2 (mod2 S u v) = zip (mod_f S) (l2 u) (l2 v)) /\
  (forall u v, l3 (mod3 S u v) = zip (mod_f S) (l3 u) (l3 v)) /\
  (forall u v, l4 (mod4 S u v) = zip (mod_f S) (l4 u) (l4 v)) /\
  (forall u v, l2 (step2 S u v) = zip (step_f S) (l2 u) (l2 v)) /\
  (forall u v, l3 (step3 S u v) = zip (step_f S) (l3 u) (l3 v)) /\
  (forall u v, l4 (step4 S u v) = zip (step_f S) (l4 u) (l4 v)) /\
  (forall u v w, l2 (clamp2 S u v w) = zip3 (clamp_f S) (l2 u) (l2 v) (l2 w)) /\
  (forall u v w, l3 (clamp3 S u v w) = zip3 (clamp_f S) (l3 u) (l3 v) (l3 w)) /\
  (forall u v w, l4 (clamp4 S u v w) = zip3 (clamp_f S) (l4 u) (l4 v) (l4 w)) /\
  (forall u v w, l2 (fma2 S u v w) = zip3 (fma_f S) (l2 u) (l2 v) (l2 w)) /\
  (forall u v w, l3 (fma3 S u v w) = zip3 (fma_f S) (l3 u) (l3 v) (l3 w)) /\
  (forall u v w, l4 (fma4 S u v w) = zip3 (fma_f S) (l4 u) (l4 v) (l4 w)) /\
  (forall u v w, l2 (smoothstep2 S u v w) = zip3 (smoothstep_f S) (l2 u) (l2 v) (l2 w)) /\
  (forall u v w, l3 (smoothstep3 S u v w) = zip3 (smoothstep_f S) (l3 u) (l3 v) (l3 w)) /\
  (forall u v w, l4 (smoothstep4 S u v w) = zip3 (smoothstep_f S) (l4 u) (l4 v) (l4 w)) /\
  (forall u v w, l2 (mix2 S u v w) = zip3 (mix_f S) (l2 u) (l2 v) (l2 w)) /\
  (forall u v w, l3 (mix3 S u v w) = zip3 (mix_f S) (l3 u) (l3 v) (l3 w)) /\
  (forall u v w, l4 (mix4 S u v w) = zip3 (mix_f S) (l4 u) (l4 v) (l4 w)) /\
  (forall v (y : S), l2 (mod2_sc S v y) = map (fun x => mod_f S x y) (l2 v)) /\
  (forall u v (t : S), l2 (mix2_sc S u v t) = zip (fun x y => mix_f S x y t) (l2 u) (l2 v)) /\
  (forall v (y : S), l3 (mod3_sc S v y) = map (fun x => mod_f S x y) (l3 v)) /\
  (forall u v (t : S), l3 (mix3_sc S u v t) = zip (fun x y => mix_f S x y t) (l3 u) (l3 v)) /\
  (forall v (y : S), l4 (mod4_sc S v y) = map (fun x => mod_f S x y) (l4 v)) /\
  (forall u v (t : S), l4 (mix4_sc S u v t) = zip (fun x y => mix_f S x y t) (l4 u) (l4 v)).
Proof.
  intros S; ands; intros; reflexivity.
Qed.

(*PROPS
Example C26_ex : floor2 (F32 L0) (V2 (f32_lit 15 (-1)) (f32_lit (-15) (-1))) = V2 (f32_lit 1 0) (f32_lit (-2) 0).
Proof. f32_eq. Qed.

PROPS*)
(** ** C27 *)
(** C27: exp2 calls expf in every overload, whatever the scalar type and libm. *)
Lemma C27_exp2_is_exp_pf : forall S : Scalar,
  (forall x : S, exp2_f S x = mexp x) /\
  (forall v, l2 (exp22 S v) = map mexp (l2 v)) /\ (forall v, l3 (exp23 S v) = map mexp (l3 v)) /\
  (forall v, l4 (exp24 S v) = map mexp (l4 v)) /\ (forall q, lq (exp2_q S q) = map mexp (lq q)).
Proof.
  intros S; ands; intros; reflexivity.
Qed.

(** C27: over the reals it is a power of two only at 0. *)
Lemma C27_exp2_wrong_pf : forall x : R, exp2_f RS x = Rpower 2 x <-> x = 0%R.
Proof.
  intros x. unfold exp2_f; cbn [mexp RS]. unfold Rpower.
  pose proof (exp_pos 1) as He. pose proof exp_ineq1 1 as H1.
  assert (L2 : (ln 2 < 1)%R).
  { rewrite <- (ln_exp 1). apply ln_increasing; lra. }
  split.
  - intros E. apply exp_inv in E. nra.
  - intros ->. now rewrite Rmult_0_l.
Qed.

(** ** C62 *)
(** C62: every vec4 conversion keeps alpha and treats the three colour channels alike and
    independently, for every scalar type and every powf. *)
Lemma C62_channels_pf : forall S : Scalar,
  (exists f : S -> S -> S, forall (c : vec4 S) (g : S), l4 (linearToSRGB4_g S c g) = map (fun x => f x g) [x4 c; y4 c; z4 c] ++ [w4 c]) /\
  (exists f : S -> S, forall c : vec4 S, l4 (linearToSRGB4 S c) = map f [x4 c; y4 c; z4 c] ++ [w4 c]) /\
  (exists f : S -> S -> S, forall (c : vec4 S) (g : S), l4 (sRGBToLinear4_g S c g) = map (fun x => f x g) [x4 c; y4 c; z4 c] ++ [w4 c]) /\
  (exists f : S -> S, forall c : vec4 S, l4 (sRGBToLinear4 S c) = map f [x4 c; y4 c; z4 c] ++ [w4 c]).
Proof.
  intros S. ands; eexists.
  - intros c g. exact (eq_refl (map (fun x => x3 (linearToSRGB3_g S (V3 x x x) g)) [x4 c; y4 c; z4 c] ++ [w4 c])).
  - intros c. exact (eq_refl (map (fun x => x3 (linearToSRGB3 S (V3 x x x))) [x4 c; y4 c; z4 c] ++ [w4 c])).
  - intros c g. exact (eq_refl (map (fun x => x3 (sRGBToLinear3_g S (V3 x x x) g)) [x4 c; y4 c; z4 c] ++ [w4 c])).
  - intros c. exact (eq_refl (map (fun x => x3 (sRGBToLinear3 S (V3 x x x))) [x4 c; y4 c; z4 c] ++ [w4 c])).
Qed.

(** C62: the vec3 conversions are the vec4 conversions without alpha. *)
Lemma C62_vec3_vec4_pf : forall (S : Scalar) (c : vec4 S) (g : S),
  rgb4 S (linearToSRGB4_g S c g) = linearToSRGB3_g S (rgb4 S c) g /\
  rgb4 S (linearToSRGB4 S c) = linearToSRGB3 S (rgb4 S c) /\
  rgb4 S (sRGBToLinear4_g S c g) = sRGBToLinear3_g S (rgb4 S c) g /\
  rgb4 S (sRGBToLinear4 S c) = sRGBToLinear3 S (rgb4 S c) /\
  sRGBToLinear4 S c = sRGBToLinear4_g S c (slit 24 (-1)).
Proof.
  intros S [? ? ? ?] g. ands; reflexivity.
Qed.

(** C62: with an explicit gamma, linear-to-sRGB only sees the colour clamped to [0,1], in binary32. *)
Lemma C62_clamped_pf : forall (L : Libm) (c : vec3 f32) (g : f32),
  let zero := f32_lit 0 0 in let one := f32_lit 1 0 in
  linearToSRGB3_g (F32 L) (clamp3 (F32 L) c (V3 zero zero zero) (V3 one one one)) g = linearToSRGB3_g (F32 L) c g.
Proof.
  intros L c g zero one. unfold linearToSRGB3_g.
  assert (E : forall x : f32, clamp_f (F32 L) (clamp_f (F32 L) x zero one) zero one = clamp_f (F32 L) x zero one).
  { intros x. assert (H : ieee_le zero one) by (apply Bleb_ieee; vm_compute; reflexivity).
    destruct (C16_clamp_pf L x zero one H) as (_ & _ & _ & _ & E & _). exact E. }
  assert (EV : clamp3 (F32 L) (clamp3 (F32 L) c (V3 zero zero zero) (V3 one one one)) (V3 zero zero zero) (V3 one one one)
               = clamp3 (F32 L) c (V3 zero zero zero) (V3 one one one)).
  { destruct c as [a b d]. pose proof (E a) as Ea. pose proof (E b) as Eb. pose proof (E d) as Ed.
    unfold clamp_f in Ea, Eb, Ed. unfold clamp3, max3, min3. cbn [x3 y3 z3]. now rewrite Ea, Eb, Ed. }
  change (vec3_i (F32 L) 0) with (V3 (f32_ofZ 0) (f32_ofZ 0) (f32_ofZ 0)).
  change (vec3_i (F32 L) 1) with (V3 (f32_ofZ 1) (f32_ofZ 1) (f32_ofZ 1)).
  assert (f32_ofZ 0 = zero) as -> by f32_eq. assert (f32_ofZ 1 = one) as -> by f32_eq.
  now rewrite EV.
Qed.

(*PROPS
(** alpha passes through unchanged even when it is NaN *)
Example C62_ex : w4 (sRGBToLinear4 (F32 L0) (V4 (f32_lit 1 0) (f32_lit 0 0) (f32_lit 5 (-1)) B754_nan)) = B754_nan.
Proof. reflexivity. Qed.
PROPS*)
