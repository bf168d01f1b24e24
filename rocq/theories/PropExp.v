(** * Properties: square roots, angle units, named constants and gamma curves *)

From Coq Require Import ZArith Bool Reals List Lra.
From Flocq Require Import Core IEEE754.BinarySingleNaN.
From Verif Require Import Scalar IEEE32 F32Tac RealInst FloatBasics Outcome Types Spec SpecF32 SpecR RealTac ModelVec ModelCommon
  ModelQuat ModelExp ModelTrig ModelConst ModelColor.
From Verif Require Import PfExp.
Import ListNotations.
Local Open Scope R_scope.


(** C28: sqrt is the correctly rounded square root, with the IEEE special cases. *)
Theorem C28_sqrt : forall (L : Libm) (x : f32), let r := sqrt_f (F32 L) x in
  (finite x -> 0 <= b2r x -> finite r /\ b2r r = rnd (sqrt (b2r x))) /\
  (ieee_lt x (B754_zero false) -> is_nan r = true) /\ (is_nan x = true -> is_nan r = true) /\
  (x = B754_infinity false -> r = B754_infinity false) /\ (forall s, x = B754_zero s -> r = B754_zero s).
Proof. exact C28_sqrt_pf. Qed.
Print Assumptions C28_sqrt.

(** C28: inversesqrt has relative error at most 2^-22 on every positive finite float, subnormals included, never
    overflows there, and has the IEEE special cases. *)
Theorem C28_inversesqrt : forall (L : Libm) (x : f32), let r := inversesqrt_f (F32 L) x in
  (finite x -> 0 < b2r x -> finite r /\ Rabs (b2r r - / sqrt (b2r x)) <= bpow radix2 (-22) * / sqrt (b2r x)) /\
  (forall s, x = B754_zero s -> r = B754_infinity s) /\ (x = B754_infinity false -> r = B754_zero false) /\
  (ieee_lt x (B754_zero false) -> is_nan r = true) /\ (is_nan x = true -> is_nan r = true).
Proof. exact C28_inversesqrt_pf. Qed.
Print Assumptions C28_inversesqrt.

(** C28: in exact arithmetic exp and log are inverse, pow(x, y) = exp(y log x) for x > 0, log2 inverts 2^x, sqrt and
    cbrt invert the square and the cube. *)
Theorem C28_exact : forall x y : R,
  log_f RS (exp_f RS x) = x /\ (0 < x -> exp_f RS (log_f RS x) = x) /\
  (0 < x -> pow_f RS x y = exp_f RS (y * log_f RS x)%R) /\
  log2_f RS (pow_f RS 2 x) = x /\ (0 < x -> pow_f RS 2 (log2_f RS x) = x) /\
  (0 <= x -> 0 <= sqrt_f RS x /\ (sqrt_f RS x)^2 = x) /\ (cbrt_f RS x)^3 = x /\
  (0 < x -> inversesqrt_f RS x * sqrt_f RS x = 1).
Proof. exact C28_exact_pf. Qed.
Print Assumptions C28_exact.

(** the smallest subnormal and a negative number *)
Example C28_ex : let tiny := @B754_finite 24 128 false 1 (-149) eq_refl in
  finite tiny /\ 0 < b2r tiny /\ ieee_lt (Bopp tiny) (B754_zero false).
Proof.
  cbv zeta. assert (0 < b2r (@B754_finite 24 128 false 1 (-149) eq_refl)) as H by (unfold B2R; apply Float_prop.F2R_gt_0; reflexivity).
  ands; try reflexivity; try exact H. unfold ieee_lt. ands; try reflexivity. change (xr (B754_zero false)) with 0.
  rewrite xr_finite by reflexivity. rewrite B2R_Bopp. lra.
Qed.


(** C29: radians and degrees multiply by the floats nearest to pi/180 and 180/pi, have relative error at most 2^-22
    whenever the product is in the normal range, and are inverse up to relative error 2^-21. *)
Theorem C29_angles : forall L : Libm, let rad := radians_f (F32 L) in let deg := degrees_f (F32 L) in
  (exists c, b2r c = rnd (PI / 180) /\ forall x, rad x = Bmult mode_NE x c) /\
  (exists c, b2r c = rnd (180 / PI) /\ forall x, deg x = Bmult mode_NE x c) /\
  (forall d, finite d -> bpow radix2 (-119) <= Rabs (b2r d) -> finite (rad d) /\
     Rabs (b2r (rad d) - b2r d * (PI / 180)) <= bpow radix2 (-22) * Rabs (b2r d * (PI / 180))) /\
  (forall r, finite r -> bpow radix2 (-125) <= Rabs (b2r r) <= bpow radix2 120 -> finite (deg r) /\
     Rabs (b2r (deg r) - b2r r * (180 / PI)) <= bpow radix2 (-22) * Rabs (b2r r * (180 / PI))) /\
  (forall d, finite d -> bpow radix2 (-118) <= Rabs (b2r d) <= bpow radix2 125 -> finite (deg (rad d)) /\
     Rabs (b2r (deg (rad d)) - b2r d) <= bpow radix2 (-21) * Rabs (b2r d)) /\
  (forall r, finite r -> bpow radix2 (-124) <= Rabs (b2r r) <= bpow radix2 120 -> finite (rad (deg r)) /\
     Rabs (b2r (rad (deg r)) - b2r r) <= bpow radix2 (-21) * Rabs (b2r r)).
Proof. exact C29_angles_pf. Qed.
Print Assumptions C29_angles.

(** one is in every range *)
Example C29_ex : finite (f32_lit 1 0) /\ bpow radix2 (-118) <= Rabs (b2r (f32_lit 1 0)) <= bpow radix2 120.
Proof.
  split; [reflexivity|]. replace (b2r (f32_lit 1 0)) with (bpow radix2 0) by (unfold f32_lit; vm_compute; Lra.lra).
  rewrite Rabs_pos_eq by apply bpow_ge_0. split; apply bpow_le; discriminate.
Qed.


(** C30: every function of constants.hpp returns the float nearest to the real number it names. *)
Theorem C30_constants : forall L : Libm, let S := F32 L in
  Forall (fun p => finite (fst p) /\ b2r (fst p) = rnd (snd p))
   [(c_zero S, 0); (c_one S, 1);
    (c_pi S, PI);
    (c_two_pi S, 2 * PI);
    (c_root_pi S, sqrt PI);
    (c_half_pi S, PI / 2);
    (c_three_over_two_pi S, 3 / 2 * PI);
    (c_quarter_pi S, PI / 4);
    (c_one_over_pi S, 1 / PI);
    (c_one_over_two_pi S, 1 / (2 * PI));
    (c_two_over_pi S, 2 / PI);
    (c_four_over_pi S, 4 / PI);
    (c_two_over_root_pi S, 2 / sqrt PI);
    (c_one_over_root_two S, 1 / sqrt 2);
    (c_root_half_pi S, sqrt (PI / 2));
    (c_root_two_pi S, sqrt (2 * PI));
    (c_root_ln_four S, sqrt (ln 4));
    (c_e S, exp 1);
    (c_root_two S, sqrt 2);
    (c_root_three S, sqrt 3);
    (c_root_five S, sqrt 5);
    (c_ln_two S, ln 2);
    (c_ln_ten S, ln 10);
    (c_ln_ln_two S, ln (ln 2));
    (c_third S, 1 / 3);
    (c_two_thirds S, 2 / 3);
    (c_golden_ratio S, (1 + sqrt 5) / 2)].
Proof. exact C30_constants_pf. Qed.
Print Assumptions C30_constants.

(** C30: the Euler constant, against its definition as a limit (which exists). *)
Theorem C30_euler : let gamma g := Un_cv (fun n => sum_f_R0 (fun k => / INR (S k)) n - ln (INR (S n))) g in
  (exists g, gamma g) /\ forall (L : Libm) g, gamma g -> finite (c_euler (F32 L)) /\ b2r (c_euler (F32 L)) = rnd g.
Proof. exact C30_euler_pf. Qed.
Print Assumptions C30_euler.

(** C30: epsilon is the distance from 1 to the next float. *)
Theorem C30_epsilon : forall L : Libm, let eps := b2r (c_epsilon (F32 L)) in
  (exists y : f32, finite y /\ b2r y = 1 + eps) /\ 0 < eps /\ forall y : f32, finite y -> 1 < b2r y -> 1 + eps <= b2r y.
Proof. exact C30_epsilon_pf. Qed.
Print Assumptions C30_epsilon.

(** C63: from sRGB to linear and back, in exact arithmetic, channel by channel.  With exponent g on the way there and 1/g
    on the way back the channel is returned up to 10^-30 on the power branch and on the linear toe; with the standard
    exponent 2.4 it is returned up to 10^-7 on the whole range [0,1]. *)
Theorem C63_roundtrip : forall (v : vec3 R) (i : nat), (i < 3)%nat ->
  let ch (u : vec3 R) := nth i (l3 u) 0 in let s := ch v in
  let lin g := sRGBToLinear3_g RS v g in let back g h := ch (linearToSRGB3_g RS (lin g) h) in
  (forall g, 0 < g -> 0.04045 < s <= 1 -> 0.0031308 <= ch (lin g) -> Rabs (back g (1 / g)%R - s) <= / 10^30) /\
  (forall g h, 0 <= s <= 0.04045 -> ch (lin g) < 0.0031308 -> Rabs (back g h - s) <= / 10^30) /\
  (0 <= s <= 1 -> Rabs (back 2.4 (1 / 2.4)%R - s) <= / 10^7).
Proof. exact C63_roundtrip_pf. Qed.
Print Assumptions C63_roundtrip.

(** C63: with the same exponent g > 1 both ways (the parameter has the same name and the same documented meaning) the
    result on the power branch is strictly darker than the round trip above, *)
Theorem C63_same_gamma : forall (v : vec3 R) (i : nat) (g : R), (i < 3)%nat ->
  let ch (u : vec3 R) := nth i (l3 u) 0 in let s := ch v in let l := sRGBToLinear3_g RS v g in
  1 < g -> 0.04045 < s <= 0.999 -> 0.0031308 <= ch l ->
  ch (linearToSRGB3_g RS l g) < ch (linearToSRGB3_g RS l (1 / g)%R).
Proof. exact C63_same_gamma_pf. Qed.
Print Assumptions C63_same_gamma.

(** C63: ... and with the default exponent 2.4 mid-grey even comes back negative. *)
Theorem C63_same_gamma_refuted : exists s : R, 0 <= s <= 1 /\
  let l := sRGBToLinear3 RS (V3 s s s) in Forall (fun c => c < 0) (l3 (linearToSRGB3_g RS l 2.4)).
Proof. exact C63_same_gamma_refuted_pf. Qed.
Print Assumptions C63_same_gamma_refuted.

(** mid-grey meets the hypotheses of the power branch, a dark grey those of the toe *)
Example C63_ex : 0.04045 < 0.5 <= 0.999 /\ 0.0031308 <= nth 0 (l3 (sRGBToLinear3_g RS (V3 0.5 0.5 0.5) 2.4)) 0 /\ 0 <= 0.04 <= 0.04045.
Proof. split; [Lra.lra|]. split; [exact mid_above|Lra.lra]. Qed.

