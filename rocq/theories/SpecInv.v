(** * Specification vocabulary: error of matrix inverses *)
From Coq Require Import ZArith Reals List.
From Flocq Require Import Core IEEE754.BinarySingleNaN.
From Verif Require Import IEEE32 FloatBasics Spec SpecF32 SpecMat SpecErr.
Import ListNotations.
Local Open Scope R_scope.

(** every computed entry [c] is close to the exact quotient A / D: [d] bounds the error of the determinant D, [e P] that of
    the cofactor A whose magnitude is P, and [r] counts the roundings of the division *)
Fixpoint quotients (D d r : R) (e : R -> R) (computed : list f32) (cof mag : list R) : Prop :=
  match computed, cof, mag with
  | [], [], [] => True
  | c :: cs, A :: As, P :: Ps =>
      Rabs (b2r c - A / D) <= (Rabs A * (r * ulp_half + d / Rabs D) + (1 + r * ulp_half) * e P) / (Rabs D - d) + tiny /\
      quotients D d r e cs As Ps
  | _, _, _ => False
  end.
(** [f] computes the entries [cof] divided by the determinant.  The determinant takes [kd] roundings relative to the permanent
    of the absolute values, the cofactors [ka] relative to [mag]; [wd], [dd], [wa], [da] bound the underflow.  It is assumed
    that the determinant exceeds the bound on its own error. *)
Definition inverse_error_ok {M} (n : nat) (c : R) (kd : nat) (wd : R) (dd : nat) (ka : nat) (wa : R) (da : nat) (r : R)
    (comps : M -> list f32) (cof mag : list R -> list R) (f : M -> M) : Prop :=
  forall a B, 1 <= B -> all_finite (comps a) -> bounded_by B (comps a) -> c * B ^ n < IZR (2 ^ 127) ->
  let D := leibniz n (vals (comps a)) in
  let d := gam kd * permanent n (mags (comps a)) + wd * B ^ dd * tiny in
  d < Rabs D <= IZR (2 ^ 125) -> all_finite (comps (f a)) ->
  quotients D d r (fun P => gam ka * P + wa * B ^ da * tiny) (comps (f a)) (cof (vals (comps a))) (mag (mags (comps a))).
(** every entry is a cofactor up to [k] roundings *)
Definition cofactor_error_ok {M} (k : nat) (w : R) (d : nat) (comps : M -> list f32) (cof mag : list R -> list R) (adj : M -> M) : Prop :=
  forall a B, all_finite (comps (adj a)) -> 1 <= B -> bounded_by B (comps a) ->
    nears k (w * B ^ d * tiny) (comps (adj a)) (cof (vals (comps a))) (mag (mags (comps a))).
