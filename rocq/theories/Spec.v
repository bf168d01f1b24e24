(** * Specification vocabulary

    Everything here is independent of the model of the code: lists of components,
    componentwise maps, single-element update, exactness of integer operations,
    the lexicographic order. *)
From Coq Require Import ZArith NArith Bool List.
From Verif Require Import Outcome Types.
Import ListNotations.

(** ** Values as lists, in storage order *)
Definition l2 {A} (v : vec2 A) : list A := [x2 v; y2 v].
Definition l3 {A} (v : vec3 A) : list A := [x3 v; y3 v; z3 v].
Definition l4 {A} (v : vec4 A) : list A := [x4 v; y4 v; z4 v; w4 v].
Definition lq {A} (q : quat A) : list A := [qx q; qy q; qz q; qw q].
Definition lm2 {A} (m : mat2 A) : list A := concat [l2 (m2c0 m); l2 (m2c1 m)].
Definition lm3 {A} (m : mat3 A) : list A := concat [l3 (m3c0 m); l3 (m3c1 m); l3 (m3c2 m)].
Definition lm4 {A} (m : mat4 A) : list A :=
  concat [l4 (m4c0 m); l4 (m4c1 m); l4 (m4c2 m); l4 (m4c3 m)].
(** columns *)
Definition cm2 {A} (m : mat2 A) : list (vec2 A) := [m2c0 m; m2c1 m].
Definition cm3 {A} (m : mat3 A) : list (vec3 A) := [m3c0 m; m3c1 m; m3c2 m].
Definition cm4 {A} (m : mat4 A) : list (vec4 A) := [m4c0 m; m4c1 m; m4c2 m; m4c3 m].

(** ** Componentwise functions *)
Fixpoint zip {A B C} (f : A -> B -> C) (u : list A) (v : list B) : list C :=
  match u, v with
  | a :: u', b :: v' => f a b :: zip f u' v'
  | _, _ => []
  end.
Fixpoint zip3 {A B C D} (f : A -> B -> C -> D) (u : list A) (v : list B) (w : list C) : list D :=
  match u, v, w with
  | a :: u', b :: v', c :: w' => f a b c :: zip3 f u' v' w'
  | _, _, _ => []
  end.

(** ** Replacing one element *)
Fixpoint upd {A} (l : list A) (i : nat) (a : A) : list A :=
  match l, i with
  | [], _ => []
  | _ :: t, O => a :: t
  | h :: t, S j => h :: upd t j a
  end.

(** ** Outcomes *)
Definition omap {A B} (f : A -> B) (m : outcome A) : outcome B :=
  match m with Ret a => Ret (f a) | AssertFail => AssertFail | Undefined => Undefined end.

(** What reading element [i] of a container whose components are [l] must do: an
    in-range read returns the component in both builds. *)
Definition index_ok {A} (f : build -> N -> outcome A) (l : list A) : Prop :=
  forall (b : build) (i : N),
    (N.to_nat i < length l)%nat -> exists a, nth_error l (N.to_nat i) = Some a /\ f b i = Ret a.
(** ... an out-of-range read is stopped by the assertion in a debug build. *)
Definition index_guarded {A} (f : build -> N -> outcome A) (l : list A) : Prop :=
  forall i : N, (length l <= N.to_nat i)%nat -> f Debug i = AssertFail.
(** ... and never returns a component without the assertion. *)
Definition index_ub {A} (f : build -> N -> outcome A) (l : list A) : Prop :=
  forall i : N, (length l <= N.to_nat i)%nat -> f Release i = Undefined.
(** What writing element [i] must do: the new components are the old ones with
    the [i]-th replaced. *)
Definition index_set_ok {V A} (f : build -> V -> N -> A -> outcome V) (comps : V -> list A) : Prop :=
  forall (b : build) (v : V) (i : N) (a : A), (N.to_nat i < length (comps v))%nat ->
    exists v', f b v i a = Ret v' /\ comps v' = upd (comps v) (N.to_nat i) a.

(** ** Exact integer operations *)
(** The result is the exact [op] in every component when [ok] holds for every
    component pair, and undefined otherwise. *)
Definition exact_or_undefined {V} (comps : V -> list Z) (op : Z -> Z -> Z) (ok : Z -> Z -> Prop)
    (u v : list Z) (res : outcome V) : Prop :=
  (Forall2 ok u v -> omap comps res = Ret (zip op u v)) /\ (~ Forall2 ok u v -> res = Undefined).

Local Open Scope Z_scope.
Definition fits (z : Z) : Prop := - 2 ^ 31 <= z <= 2 ^ 31 - 1.
Definition ok_add (a b : Z) : Prop := fits (a + b).
Definition ok_sub (a b : Z) : Prop := fits (a - b).
Definition ok_mul (a b : Z) : Prop := fits (a * b).
Definition ok_div (a b : Z) : Prop := b <> 0 /\ fits (Z.quot a b).
Definition ok_any (a b : Z) : Prop := True.
Definition ok_shift (a b : Z) : Prop := 0 <= b < 32.
(** C++14: the left operand is not negative and the product fits 32 unsigned bits *)
Definition ok_shl (a b : Z) : Prop := 0 <= b < 32 /\ 0 <= a /\ a * 2 ^ b < 2 ^ 32.
(** the int with the same low 32 bits *)
Definition int_of_u32 (z : Z) : Z := if z <? 2 ^ 31 then z else z - 2 ^ 32.
Definition ok_neg (a : Z) : Prop := fits (- a).

(** ** Lexicographic order *)
Fixpoint lex_lt (u v : list Z) : Prop :=
  match u, v with
  | a :: u', b :: v' => a < b \/ a = b /\ lex_lt u' v'
  | _, _ => False
  end.

(** ** Left-to-right reductions of ints *)
Fixpoint prefixes_fit (op : Z -> Z -> Z) (acc : Z) (l : list Z) : Prop :=
  match l with
  | [] => True
  | b :: t => fits (op acc b) /\ prefixes_fit op (op acc b) t
  end.
Definition reduction_exact (op : Z -> Z -> Z) (l : list Z) (res : outcome Z) : Prop :=
  match l with
  | [] => False
  | a :: t => (prefixes_fit op a t -> res = Ret (fold_left op t a)) /\
              (~ prefixes_fit op a t -> res = Undefined)
  end.
(** [m] is a least (greatest) element of the list *)
Definition is_min (m : Z) (l : list Z) : Prop := In m l /\ Forall (fun a => m <= a) l.
Definition is_max (m : Z) (l : list Z) : Prop := In m l /\ Forall (fun a => a <= m) l.
