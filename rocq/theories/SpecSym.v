(** * Specification vocabulary: sign symmetry in binary32 *)
From Coq Require Import ZArith Bool Reals List.
From Flocq Require Import Core IEEE754.BinarySingleNaN.
From Verif Require Import IEEE32 FloatBasics ErrExpr.
Import ListNotations.

(** identical, or both zero *)
Definition alike (x y : f32) : Prop := x = y \/ (iszero x = true /\ iszero y = true).
Definition neg_if (s : bool) (x : f32) : f32 := if s then Bopp x else x.

(** negating the argument negates every component of the result, or leaves it as it is *)
Definition odd_under {A} (neg : A -> A) (f : A -> list f32) : Prop := forall a, Forall2 alike (f (neg a)) (map (fun x => Bopp x) (f a)).
Definition even_under {A} (neg : A -> A) (f : A -> list f32) : Prop := forall a, Forall2 alike (f (neg a)) (f a).

(** the sign an expression gets when the variables marked by [p] are negated, if that is determined by its form *)
Fixpoint parity (p : nat -> bool) (e : expr) : option bool :=
  match e with
  | EVar n => Some (p n)
  | ELit _ | EInt _ | EHalf => Some false
  | EAdd a b | ESub a b => match parity p a, parity p b with
      | Some s, Some t => if Bool.eqb s t then Some s else None | _, _ => None end
  | EMul a b => match parity p a, parity p b with Some s, Some t => Some (xorb s t) | _, _ => None end
  | ENeg a => parity p a
  end.
(** both *)
Definition odd_in_both {A B} (negA : A -> A) (negB : B -> B) (f : A -> B -> list f32) : Prop :=
  (forall b, odd_under negA (fun a => f a b)) /\ (forall a, odd_under negB (f a)).
