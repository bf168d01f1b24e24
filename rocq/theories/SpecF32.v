(** * Specification vocabulary for binary32

    The IEEE 754 relations are stated through [xr], the value of a float as a real
    number (infinities at plus or minus 2^128), not through the model's operators. *)
From Coq Require Import ZArith Bool Reals List.
From Flocq Require Import Core IEEE754.BinarySingleNaN.
From Verif Require Import IEEE32 FloatBasics.
Import ListNotations.
Local Open Scope R_scope.

Definition ieee_eq (x y : f32) : Prop := is_nan x = false /\ is_nan y = false /\ xr x = xr y.
Definition ieee_lt (x y : f32) : Prop := is_nan x = false /\ is_nan y = false /\ xr x < xr y.
Definition ieee_le (x y : f32) : Prop := is_nan x = false /\ is_nan y = false /\ xr x <= xr y.

Definition no_nan (l : list f32) : Prop := Forall (fun x => is_nan x = false) l.
Definition some_nan (l : list f32) : Prop := Exists (fun x => is_nan x = true) l.
Definition finite (x : f32) : Prop := is_finite x = true.
Definition all_finite (l : list f32) : Prop := Forall finite l.

(** The booleans [bs] decide [R] position by position. *)
Fixpoint decides (R : f32 -> f32 -> Prop) (bs : list bool) (u v : list f32) : Prop :=
  match bs, u, v with
  | [], [], [] => True
  | b :: bs', x :: u', y :: v' => (b = true <-> R x y) /\ decides R bs' u' v'
  | _, _, _ => False
  end.

(** [eq] and [ne] are IEEE equality and its negation on the components. *)
Definition equality_ok {V} (comps : V -> list f32) (eq ne : V -> V -> bool) : Prop :=
  (forall u v, eq u v = true <-> Forall2 ieee_eq (comps u) (comps v)) /\
  (forall u v, ne u v = negb (eq u v)) /\
  (forall u v, eq u v = eq v u) /\
  (forall u v w, eq u v = true -> eq v w = true -> eq u w = true) /\
  (forall u, eq u u = true <-> no_nan (comps u)).

(** [eq] and [ne] are identity and its negation. *)
Definition identity_ok {V} (eq ne : V -> V -> bool) : Prop :=
  (forall u v, eq u v = true <-> u = v) /\ (forall u v, ne u v = negb (eq u v)).

(** [m] is a least (greatest) member of [l]. *)
Definition is_least (m : f32) (l : list f32) : Prop := In m l /\ Forall (ieee_le m) l.
Definition is_greatest (m : f32) (l : list f32) : Prop := In m l /\ Forall (fun a => ieee_le a m) l.

(** rounding to binary32, to nearest even, with unbounded exponent above *)
Definition rnd (x : R) : R := round radix2 (SpecFloat.fexp 24 128) ZnearestE x.
