(** * Specification vocabulary: fixed-point inputs and scaling by powers of two *)
From Coq Require Import ZArith Reals List.
From Flocq Require Import Core IEEE754.BinarySingleNaN.
From Verif Require Import IEEE32 FloatBasics SpecR SpecMat SpecF32 SpecErr ErrExpr.
Import ListNotations.
Local Open Scope R_scope.

(** [r] is an integer multiple of 2^-s *)
Definition on_grid (s : Z) (r : R) : Prop := exists z : Z, r = IZR z * bpow radix2 (- s).
(** finite numbers with [s] fractional bits *)
Definition fixed_point (s : nat) (l : list f32) : Prop := Forall (fun x => finite x /\ on_grid (Z.of_nat s) (b2r x)) l.
(** on inputs with [s] fractional bits and magnitude at most M the function computes the exact result, if c (2^s M)^d <= 2^24 *)
Definition exact_on_grid (c : R) (d : nat) (inputs outputs : list f32) (exact : list R) : Prop :=
  forall (s : nat) (M : R), 1 <= M -> fixed_point s inputs -> bounded_by M inputs -> c * (IZR (2 ^ Z.of_nat s) * M) ^ d <= IZR (2 ^ 24) ->
  all_finite outputs /\ vals outputs = exact.
(** number of halvings *)
Fixpoint halves (e : expr) : nat :=
  match e with
  | EVar _ | ELit _ | EInt _ => 0
  | EHalf => 1
  | EAdd a b | ESub a b => Nat.max (halves a) (halves b)
  | EMul a b => halves a + halves b
  | ENeg a => halves a
  end.
(** [f] gives the exact quotients [cof / determinant] when the determinant is a power of two up to sign *)
Definition exact_inverse {M} (n : nat) (c : R) (comps : M -> list f32) (cof : list R -> list R) (f : M -> M) : Prop :=
  forall (s : nat) (B : R) (k : Z) (m : M), let D := leibniz n (vals (comps m)) in
  1 <= B -> fixed_point s (comps m) -> bounded_by B (comps m) -> c * (IZR (2 ^ Z.of_nat s) * B) ^ n <= IZR (2 ^ 24) -> Rabs D = bpow radix2 k ->
  all_finite (comps (f m)) /\ vals (comps (f m)) = map (fun x => x / D) (cof (vals (comps m))).

(** ** Scaling by powers of two *)
(** [y] is 2^p times [x], both finite *)
Definition scaled (p : Z) (x y : f32) : Prop := finite x /\ finite y /\ b2r y = b2r x * bpow radix2 p.
(** component i scaled by 2^(p_i) *)
Fixpoint scaled_by (ps : list Z) (l l' : list f32) : Prop :=
  match ps, l, l' with
  | [], [], [] => True
  | p :: ps, x :: l, y :: l' => scaled p x y /\ scaled_by ps l l'
  | _, _, _ => False
  end.
(** every component is zero or at least 2^-t in absolute value *)
Definition above (t : nat) (l : list f32) : Prop := Forall (fun x => b2r x = 0 \/ bpow radix2 (- Z.of_nat t) <= Rabs (b2r x)) l.
(** [o'] is 2^q times [o] when nothing overflows and no product of [d] inputs (and [h] halvings) underflows *)
Definition scales (d h : nat) (ps : list Z) (q : Z) (i i' o o' : list f32) : Prop :=
  forall t : nat, (d * (t + 23) + h <= 149)%nat -> scaled_by ps i i' -> above t i -> above t i' -> all_finite o -> all_finite o' ->
  Forall2 (scaled q) o o'.
(** the power of 2 by which an expression is scaled when input n is scaled by 2^(p n), if that is determined by its form *)
Fixpoint hdeg (p : nat -> Z) (e : expr) : option Z :=
  match e with
  | EVar n => Some (p n)
  | ELit _ | EInt _ | EHalf => Some 0%Z
  | EAdd a b | ESub a b => match hdeg p a, hdeg p b with
      | Some x, Some y => if Z.eqb x y then Some x else None | _, _ => None end
  | EMul a b => match hdeg p a, hdeg p b with Some x, Some y => Some (x + y)%Z | _, _ => None end
  | ENeg a => hdeg p a
  end.
Definition length_scales {V} (n : nat) (comps : V -> list f32) (len : V -> f32) : Prop :=
  forall (t : nat) (p : Z) v v', (2 * (t + 23) <= 149)%nat -> scaled_by (repeat p n) (comps v) (comps v') -> above t (comps v) -> above t (comps v') ->
  finite (len v) -> finite (len v') -> scaled p (len v) (len v').
Definition distance_scales {V} (n : nat) (comps : V -> list f32) (dist : V -> V -> f32) : Prop :=
  forall (t : nat) (p : Z) u v u' v', (2 * (t + 23) <= 149)%nat -> scaled_by (repeat p n ++ repeat p n) (comps u ++ comps v) (comps u' ++ comps v') ->
  above t (comps u ++ comps v) -> above t (comps u' ++ comps v') -> finite (dist u v) -> finite (dist u' v') -> scaled p (dist u v) (dist u' v').
(** the direction does not depend on the scale *)
Definition normalize_scales {V} (n : nat) (comps : V -> list f32) (sq : V -> f32) (nrm : V -> V) : Prop :=
  forall (t : nat) (p : Z) v v', (2 * (t + 23) <= 149)%nat -> scaled_by (repeat p n) (comps v) (comps v') -> above t (comps v) -> above t (comps v') ->
  finite (sq v) -> finite (sq v') -> 0 < b2r (sq v) -> all_finite (comps (nrm v)) -> all_finite (comps (nrm v')) /\ vals (comps (nrm v')) = vals (comps (nrm v)).
