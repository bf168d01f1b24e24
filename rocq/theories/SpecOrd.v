(** * Specification vocabulary: order and range laws in binary32 *)
From Coq Require Import ZArith Reals List.
From Flocq Require Import Core IEEE754.BinarySingleNaN.
From Verif Require Import IEEE32 FloatBasics Spec SpecF32 SpecErr ErrExpr.
Import ListNotations.
Local Open Scope R_scope.

(** an expression without minus signs *)
Fixpoint positive_expr (e : expr) : bool :=
  match e with
  | EVar _ | EHalf => true
  | ELit m | EInt m => (0 <=? m)%Z
  | EAdd a b | EMul a b => positive_expr a && positive_expr b
  | ESub _ _ | ENeg _ => false
  end.
(** [0 <= l_i <= l'_i] for all i *)
Definition grown (l l' : list f32) : Prop := Forall2 (fun x y => 0 <= b2r x <= b2r y) l l'.
(** larger nonnegative inputs give larger nonnegative outputs; the smaller ones are finite if the larger are *)
Definition increases (i i' o o' : list f32) : Prop := all_finite i -> grown i i' -> all_finite o' -> all_finite o /\ grown o o'.
(** [f] preserves (reverses) the IEEE order, where its results are numbers *)
Definition nondecreasing (f : f32 -> f32) : Prop := forall x y, ieee_le x y -> is_nan (f x) = false -> is_nan (f y) = false -> ieee_le (f x) (f y).
Definition nonincreasing (f : f32 -> f32) : Prop := forall x y, ieee_le x y -> is_nan (f x) = false -> is_nan (f y) = false -> ieee_le (f y) (f x).
(** componentwise |u_i| <= |v_i| implies [len u <= len v], infinities included *)
Definition length_monotone {V} (comps : V -> list f32) (len : V -> f32) : Prop :=
  forall u v, Forall2 (fun x y => is_nan x = false /\ is_nan y = false /\ Rabs (xr x) <= Rabs (xr y)) (comps u) (comps v) -> ieee_le (len u) (len v).
(** no component exceeds the length, if the squared length is a normal number *)
Definition length_dominates {V} (comps : V -> list f32) (sq len : V -> f32) : Prop :=
  forall v, finite (sq v) -> / IZR (2 ^ 126) <= b2r (sq v) -> finite (len v) /\ bounded_by (b2r (len v)) (comps v).
(** a vector with one nonzero component has the absolute value of that component as length *)
Definition axis_length {V} (comps : V -> list f32) (len : V -> f32) : Prop :=
  forall v (k : nat), all_finite (comps v) -> (forall i, i <> k -> nth i (vals (comps v)) 0 = 0) -> let x := nth k (vals (comps v)) 0 in
  / IZR (2 ^ 63) <= Rabs x < IZR (2 ^ 63) -> finite (len v) /\ b2r (len v) = Rabs x.
(** every component of the normalized vector lies in [-1, 1] *)
Definition unit_range {V} (comps : V -> list f32) (sq : V -> f32) (nrm : V -> V) : Prop :=
  forall v, finite (sq v) -> / IZR (2 ^ 126) <= b2r (sq v) -> all_finite (comps (nrm v)) /\ bounded_by 1 (comps (nrm v)).
