(** * Specification vocabulary: values updated in a loop *)
From Coq Require Import ZArith Reals List.
From Flocq Require Import Core IEEE754.BinarySingleNaN.
From Verif Require Import IEEE32 FloatBasics Types Spec SpecR SpecF32 SpecMat SpecErr SpecDom SpecChain.
Import ListNotations.
Local Open Scope R_scope.

(** component [i] as a real number *)
Definition component {V} (comps : V -> list f32) (i : nat) (v : V) : R := nth i (vals (comps v)) 0.
(** x := mix(x, y, t), [n] times: the distance from [y] shrinks by 1 - t + 4u per step, down to a level given by rounding *)
Definition smoothing_ok {V} (comps : V -> list f32) (mix : V -> V -> f32 -> V) : Prop :=
  forall (x y : V) (t : f32) (n : nat), all_finite (comps x) -> all_finite (comps y) ->
  bounded_by (IZR (2 ^ 120)) (comps x) -> bounded_by (IZR (2 ^ 120)) (comps y) -> between (/ IZR (2 ^ 20)) 1 t ->
  let r := Nat.iter n (fun v => mix v y t) x in
  all_finite (comps r) /\
  forall i, (i < length (comps r))%nat ->
  Rabs (component comps i r - component comps i y) <=
  (1 - b2r t + 4 * ulp_half) ^ n * Rabs (component comps i x - component comps i y) + 2 * (ulp_half * Rabs (component comps i y) + 2 * tiny) / b2r t.
(** v := v * k, [n] times *)
Definition damping_ok {V} (comps : V -> list f32) (scale : V -> f32 -> V) : Prop :=
  forall (v : V) (k : f32) (n : nat), all_finite (comps v) -> between (-1) 1 k ->
  let r := Nat.iter n (fun v => scale v k) v in
  all_finite (comps r) /\
  forall i, (i < length (comps r))%nat ->
  Rabs (component comps i r) <= Rabs (component comps i v) /\
  Rabs (component comps i r - b2r k ^ n * component comps i v) <=
  (growth 1 n - 1) * Rabs (b2r k ^ n * component comps i v) + INR n * growth 1 n * tiny.
(** the predecessor of 1, the smallest positive number and 2^24 *)
Definition pred_one : f32 := @B754_finite 24 128 false 16777215 (-24) eq_refl.
Definition smallest : f32 := @B754_finite 24 128 false 1 (-149) eq_refl.
Definition two24 : f32 := @B754_finite 24 128 false 8388608 1 eq_refl.
