(** * Properties: ramps, interpolation and remainders in binary32 *)

From Coq Require Import ZArith Bool Reals List Lra Lia.
From Flocq Require Import Core IEEE754.BinarySingleNaN.
From Verif Require Import Scalar IEEE32 RealInst Types Outcome Spec SpecR SpecF32 SpecErr SpecOrd SpecDom SpecAcc SpecProj SpecRamp FloatBasics FloatOps
  ModelVec ModelCommon F32Tac RealTac NumLib PfOrder.
From Verif Require Import PfRamp.
Import ListNotations.
Local Open Scope R_scope.


(** C95: smoothstep is within 7 * 2^-24 of the cubic ramp, for all finite edges in order whose difference does not
    overflow and every finite x ... *)
Theorem C95_smoothstep : forall (L : Libm) (e0 e1 x : f32), finite e0 -> finite e1 -> ieee_lt e0 e1 -> finite (@ssub (F32 L) e1 e0) -> finite x ->
  Rabs (b2r (smoothstep_f (F32 L) e0 e1 x) - ramp (b2r e0) (b2r e1) (b2r x)) <= 7 * ulp_half.
Proof. exact C95_smoothstep_pf. Qed.
Print Assumptions C95_smoothstep.

(** ... so rounding breaks its monotonicity (C81) by at most 14 * 2^-24. *)
Theorem C95_almost_monotone : forall (L : Libm) (e0 e1 x y : f32), finite e0 -> finite e1 -> ieee_lt e0 e1 -> finite (@ssub (F32 L) e1 e0) -> finite x -> finite y -> b2r x <= b2r y ->
  b2r (smoothstep_f (F32 L) e0 e1 x) <= b2r (smoothstep_f (F32 L) e0 e1 y) + 14 * ulp_half.
Proof. exact C95_almost_monotone_pf. Qed.
Print Assumptions C95_almost_monotone.

(** C95: mix is within 5.1 * 2^-24 of the exact interpolation, relative to the larger endpoint; t in [0, 1], endpoints
    up to 2^126. *)
Theorem C95_mix : forall (L : Libm) (x y t : f32), finite x -> finite y -> between 0 1 t -> Rabs (b2r x) <= IZR (2 ^ 126) -> Rabs (b2r y) <= IZR (2 ^ 126) ->
  finite (mix_f (F32 L) x y t) /\
  Rabs (b2r (mix_f (F32 L) x y t) - (b2r x + b2r t * (b2r y - b2r x))) <= 51/10 * ulp_half * Rmax (Rabs (b2r x)) (Rabs (b2r y)) + 2 * tiny.
Proof. exact C95_mix_pf. Qed.
Print Assumptions C95_mix.

(** C95: fract is the correctly rounded fractional part, to half an ulp of itself ... *)
Theorem C95_fract : forall (L : Libm) (x : f32), finite x -> rel_close 1 (fract_f (F32 L) x) (b2r x - IZR (Zfloor (b2r x))).
Proof. exact C95_fract_pf. Qed.
Print Assumptions C95_fract.

(** ... and mod is within 2.1 * 2^-24 (|x| + |y|) of the floored remainder or, when that is as close to y, of the same
    point past the wrap-around; y is not zero and |x/y| <= 2^23. *)
Theorem C95_mod : forall (L : Libm) (x y : f32), finite x -> finite y -> b2r y <> 0 -> Rabs (b2r x) <= IZR (2 ^ 126) -> Rabs (b2r y) <= IZR (2 ^ 126) ->
  Rabs (b2r x) <= IZR (2 ^ 23) * Rabs (b2r y) ->
  let m := floored (b2r x) (b2r y) in let e := 21/10 * ulp_half * (Rabs (b2r x) + Rabs (b2r y)) + 2 * tiny in
  finite (mod_f (F32 L) x y) /\
  (Rabs (b2r (mod_f (F32 L) x y) - m) <= e \/ Rabs (b2r (mod_f (F32 L) x y) - (m - b2r y)) <= e /\ Rabs (m - b2r y) <= e).
Proof. exact C95_mod_pf. Qed.
Print Assumptions C95_mod.

(** the wrap-around happens: 0.7f / 0.1f is below 7 and rounds to 7, so mod(0.7f, 0.1f) is 0 while the exact remainder is
    just below 0.1 *)
Example C95_wrap_case : let x := f32_lit 7 (-1) in let y := f32_lit 1 (-1) in
  Rabs (b2r x) <= IZR (2 ^ 23) * Rabs (b2r y) /\ mod_f (F32 L0) x y = f32_lit 0 0 /\ 999/10000 < floored (b2r x) (b2r y) < b2r y.
Proof.
  intros x y. assert (Ex : b2r x = 11744051 / 16777216) by (unfold x, f32_lit; vm_compute; lra). assert (Ey : b2r y = 13421773 / 134217728) by (unfold y, f32_lit; vm_compute; lra).
  split; [rewrite Ex, Ey, !Rabs_pos_eq by lra; lra|]. split; [apply f32_by_sf; vm_compute; reflexivity|].
  assert (F : Zfloor (b2r x / b2r y) = 6%Z) by (apply Zfloor_imp; rewrite Ex, Ey; cbn; lra). unfold floored. rewrite F, Ex, Ey. lra.
Qed.
(** edges and argument meeting the hypotheses; a third of the way up the ramp *)
Example C95_ramp_case : ieee_lt (f32_lit 0 0) (f32_lit 3 0) /\ finite (@ssub (F32 L0) (f32_lit 3 0) (f32_lit 0 0)) /\ ramp 0 3 1 = 7/27.
Proof.
  split; [apply Bltb_ieee; vm_compute; reflexivity|]. split; [reflexivity|]. unfold ramp. cbv zeta. rewrite Rmax_left, Rmin_left by lra. field.
Qed.
