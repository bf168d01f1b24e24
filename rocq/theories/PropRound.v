(** * Properties: rounding functions, ramps and interpolation *)

From Coq Require Import ZArith Bool Reals List Lra Lia.
From Flocq Require Import Core IEEE754.BinarySingleNaN.
From Verif Require Import Scalar IEEE32 F32Tac RealInst FloatBasics Outcome Types Spec SpecF32 ModelVec ModelCommon.
From Verif Require Import PfRound.
Import ListNotations.
Local Open Scope R_scope.


(** C18: floor. *)
Theorem C18_floor : forall (L : Libm) (x : f32), finite x ->
  exists n : Z, finite (floor_f (F32 L) x) /\ b2r (floor_f (F32 L) x) = IZR n /\ IZR n <= b2r x < IZR n + 1.
Proof. exact C18_floor_pf. Qed.
Print Assumptions C18_floor.

(** C18: ceil. *)
Theorem C18_ceil : forall (L : Libm) (x : f32), finite x ->
  exists n : Z, finite (ceil_f (F32 L) x) /\ b2r (ceil_f (F32 L) x) = IZR n /\ IZR n - 1 < b2r x <= IZR n.
Proof. exact C18_ceil_pf. Qed.
Print Assumptions C18_ceil.

(** C18: trunc. *)
Theorem C18_trunc : forall (L : Libm) (x : f32), finite x ->
  exists n : Z, finite (trunc_f (F32 L) x) /\ b2r (trunc_f (F32 L) x) = IZR n /\
    Rabs (IZR n) <= Rabs (b2r x) < Rabs (IZR n) + 1 /\ 0 <= IZR n * b2r x.
Proof. exact C18_trunc_pf. Qed.
Print Assumptions C18_trunc.

(** C18: round, ties away from zero. *)
Theorem C18_round : forall (L : Libm) (x : f32), finite x ->
  exists n : Z, finite (round_f (F32 L) x) /\ b2r (round_f (F32 L) x) = IZR n /\
    Rabs (b2r x - IZR n) <= / 2 /\ (Rabs (b2r x - IZR n) = / 2 -> Rabs (b2r x) < Rabs (IZR n)).
Proof. exact C18_round_pf. Qed.
Print Assumptions C18_round.

(** C18: infinities and NaN pass through all four. *)
Theorem C18_nonfinite : forall (L : Libm) (x : f32), is_finite x = false ->
  floor_f (F32 L) x = x /\ ceil_f (F32 L) x = x /\ trunc_f (F32 L) x = x /\ round_f (F32 L) x = x.
Proof. exact C18_nonfinite_pf. Qed.
Print Assumptions C18_nonfinite.

Example C18_ex : floor_f (F32 L0) (f32_lit (-15) (-1)) = f32_lit (-2) 0 /\ round_f (F32 L0) (f32_lit (-25) (-1)) = f32_lit (-3) 0
  /\ round_f (F32 L0) (f32_lit 5 (-1)) = f32_lit 1 0.
Proof. split; [|split]; f32_eq. Qed.


(** C19: fract is in [0,1] for every finite float. *)
Theorem C19_range : forall (L : Libm) (x : f32), finite x ->
  finite (fract_f (F32 L) x) /\ 0 <= b2r (fract_f (F32 L) x) <= 1.
Proof. exact C19_range_pf. Qed.
Print Assumptions C19_range.

(** C19: it is exact, and below 1, for x >= 0 ... *)
Theorem C19_exact_nonneg : forall (L : Libm) (x : f32), finite x -> 0 <= b2r x ->
  b2r (fract_f (F32 L) x) = b2r x - IZR (Zfloor (b2r x)) /\ b2r (fract_f (F32 L) x) < 1.
Proof. exact C19_exact_nonneg_pf. Qed.
Print Assumptions C19_exact_nonneg.

(** ... and 0 exactly on the integers, for x of either sign. *)
Theorem C19_zero : forall (L : Libm) (x : f32), finite x ->
  (b2r (fract_f (F32 L) x) = 0 <-> exists n : Z, b2r x = IZR n).
Proof. exact C19_zero_pf. Qed.
Print Assumptions C19_zero.

(** C19: in exact arithmetic fract is below 1, x minus fract is an integer. *)
Theorem C19_real : forall x : R, 0 <= fract_f RS x < 1 /\ exists n : Z, x = IZR n + fract_f RS x.
Proof. exact C19_real_pf. Qed.
Print Assumptions C19_real.

(** C19: the bound is attained in binary32: fract(-1e-10) is 1. *)
Theorem C19_below_one_refuted : exists x : f32, finite x /\ fract_f (F32 L0) x = f32_lit 1 0.
Proof. exact C19_below_one_refuted_pf. Qed.
Print Assumptions C19_below_one_refuted.

(** C20: mod over the reals. *)
Theorem C20_real : forall x y : R, y <> 0 ->
  (0 < y -> 0 <= mod_f RS x y < y) /\ (y < 0 -> y < mod_f RS x y <= 0) /\ exists n : Z, x = y * IZR n + mod_f RS x y.
Proof. exact C20_real_pf. Qed.
Print Assumptions C20_real.

(** C20: in binary32 the remainder can leave [0,y) at either end. *)
Theorem C20_range_refuted :
  (exists x y : f32, ieee_lt (f32_lit 0 0) y /\ finite x /\ finite y /\ ieee_lt (mod_f (F32 L0) x y) (f32_lit 0 0)) /\
  (exists x y : f32, ieee_lt (f32_lit 0 0) y /\ finite x /\ finite y /\ mod_f (F32 L0) x y = y).
Proof. exact C20_range_refuted_pf. Qed.
Print Assumptions C20_range_refuted.

(** C21: roundEven returns an even integer at distance at most 1. *)
Theorem C21_even : forall (L : Libm) (x : f32), finite x ->
  exists n : Z, finite (roundEven_f (F32 L) x) /\ b2r (roundEven_f (F32 L) x) = IZR (2 * n) /\ Rabs (b2r x - IZR (2 * n)) <= 1.
Proof. exact C21_even_pf. Qed.
Print Assumptions C21_even.

(** C21: it agrees with the nearest integer (ties to even) exactly when some even integer is within 1/2. *)
Theorem C21_agreement : forall (L : Libm) (x : f32), finite x ->
  (b2r (roundEven_f (F32 L) x) = IZR (ZnearestE (b2r x)) <-> exists k : Z, Rabs (b2r x - IZR (2 * k)) <= / 2).
Proof. exact C21_agreement_pf. Qed.
Print Assumptions C21_agreement.

(** C21: on every odd integer the result differs from the argument. *)
Theorem C21_odd_integers : forall (L : Libm) (x : f32) (k : Z), finite x -> b2r x = IZR (2 * k + 1) ->
  Rabs (b2r (roundEven_f (F32 L) x) - b2r x) = 1.
Proof. exact C21_odd_integers_pf. Qed.
Print Assumptions C21_odd_integers.

Example C21_ex : roundEven_f (F32 L0) (f32_lit 1 0) = f32_lit 0 0 /\ roundEven_f (F32 L0) (f32_lit 3 0) = f32_lit 4 0
  /\ roundEven_f (F32 L0) (f32_lit 25 (-1)) = f32_lit 2 0.
Proof. split; [|split]; f32_eq. Qed.


(** C22: step. *)
Theorem C22_step : forall (L : Libm) (edge x : f32),
  (ieee_lt x edge -> step_f (F32 L) edge x = f32_lit 0 0) /\ (~ ieee_lt x edge -> step_f (F32 L) edge x = f32_lit 1 0).
Proof. exact C22_step_pf. Qed.
Print Assumptions C22_step.

(** C22: smoothstep stays in [0,1], is 0 at and below the lower edge and 1 at and above the upper
    edge, for all finite edges whose difference does not overflow and every x that is not NaN. *)
Theorem C22_smoothstep : forall (L : Libm) (e0 e1 x : f32), finite e0 -> finite e1 -> ieee_lt e0 e1 -> is_nan x = false ->
  finite (@ssub (F32 L) e1 e0) ->
  finite (smoothstep_f (F32 L) e0 e1 x) /\ 0 <= b2r (smoothstep_f (F32 L) e0 e1 x) <= 1 /\
  (ieee_le x e0 -> b2r (smoothstep_f (F32 L) e0 e1 x) = 0) /\
  (ieee_le e1 x -> b2r (smoothstep_f (F32 L) e0 e1 x) = 1).
Proof. exact C22_smoothstep_pf. Qed.
Print Assumptions C22_smoothstep.

(** C22: over the reals smoothstep is monotone. *)
Theorem C22_monotone : forall e0 e1 x y : R, e0 < e1 -> x <= y -> smoothstep_f RS e0 e1 x <= smoothstep_f RS e0 e1 y.
Proof. exact C22_monotone_pf. Qed.
Print Assumptions C22_monotone.

Example C22_ex : ieee_lt (f32_lit 0 0) (f32_lit 2 0) /\ finite (@ssub (F32 L0) (f32_lit 2 0) (f32_lit 0 0))
  /\ smoothstep_f (F32 L0) (f32_lit 0 0) (f32_lit 2 0) (f32_lit 1 0) = f32_lit 5 (-1).
Proof. split; [apply PfOrder.Bltb_ieee; vm_compute; reflexivity|]. split; [reflexivity|f32_eq]. Qed.


(** C23: at t = 0 mix returns x (under ==) whenever y - x does not overflow; it returns x for all
    finite t when x and y are equal. *)
Theorem C23_start : forall (L : Libm) (x y t : f32), finite x -> finite y -> finite t ->
  (b2r t = 0 -> finite (@ssub (F32 L) y x) -> ieee_eq (mix_f (F32 L) x y t) x) /\
  (ieee_eq x y -> ieee_eq (mix_f (F32 L) x y t) x).
Proof. exact C23_start_pf. Qed.
Print Assumptions C23_start.

(** C23: over the reals. *)
Theorem C23_real : forall x y t : R,
  mix_f RS x y 0 = x /\ mix_f RS x y 1 = y /\
  (0 <= t <= 1 -> x <= y -> x <= mix_f RS x y t <= y) /\ (0 <= t <= 1 -> y <= x -> y <= mix_f RS x y t <= x).
Proof. exact C23_real_pf. Qed.
Print Assumptions C23_real.

(** C23: in binary32 mix(x,y,1) need not be y: mix(1e8,1,1) is 0. *)
Theorem C23_end_refuted : exists x y : f32, finite x /\ finite y /\
  mix_f (F32 L0) x y (f32_lit 1 0) = f32_lit 0 0 /\ ~ ieee_eq (f32_lit 0 0) y.
Proof. exact C23_end_refuted_pf. Qed.
Print Assumptions C23_end_refuted.

(** C23: the boolean forms select. *)
Theorem C23_select : forall (S : Scalar),
  (forall (x y : S) (t : bool), mix_b S x y t = if t then y else x) /\
  (forall x y t, l2 (mix2_b S x y t) = zip3 (fun a b (c : bool) => if c then b else a) (l2 x) (l2 y) (l2 t)) /\
  (forall x y t, l3 (mix3_b S x y t) = zip3 (fun a b (c : bool) => if c then b else a) (l3 x) (l3 y) (l3 t)) /\
  (forall x y t, l4 (mix4_b S x y t) = zip3 (fun a b (c : bool) => if c then b else a) (l4 x) (l4 y) (l4 t)).
Proof. exact C23_select_pf. Qed.
Print Assumptions C23_select.

Example C23_ex : mix_f (F32 L0) (f32_lit 2 0) (f32_lit 4 0) (f32_lit 5 (-1)) = f32_lit 3 0.
Proof. f32_eq. Qed.
