(** * Specification vocabulary: domains of the library functions *)
From Coq Require Import ZArith Reals List.
From Flocq Require Import Core IEEE754.BinarySingleNaN.
From Verif Require Import IEEE32 FloatBasics SpecF32 SpecErr.
Import ListNotations.
Local Open Scope R_scope.

(** finite, and between the given reals *)
Definition between (a b : R) (x : f32) : Prop := finite x /\ a <= b2r x <= b.
(** what C promises of acos and asin on [-1, 1]: a number within 1/4 of the range of the exact function *)
Definition acos_domain (L : Libm) : Prop := forall x, between (-1) 1 x -> between 0 4 (l_acos L x).
Definition asin_domain (L : Libm) : Prop := forall x, between (-1) 1 x -> between (-2) 2 (l_asin L x).
(** sin of a finite number is a number in [-1, 1]; it is not tiny for angles in [2^-12, 2], and acos reaches
    [2^-12, 2] on [0, 1 - 2^-23]; the exact bounds are sin >= 2^-13 and acos >= 2^-11 *)
Definition slerp_libm (L : Libm) : Prop :=
  (forall x, finite x -> between (-1) 1 (l_sin L x)) /\
  (forall x, between (/ IZR (2 ^ 12)) 2 x -> between (/ IZR (2 ^ 13)) 1 (l_sin L x)) /\
  (forall x, between 0 (1 - / IZR (2 ^ 23)) x -> between (/ IZR (2 ^ 12)) 2 (l_acos L x)).
(** pow maps [0, 1] to [0, 1] for this exponent *)
Definition pow_unit (L : Libm) (g : f32) : Prop := forall x, between 0 1 x -> between 0 1 (l_pow L x g).
(** every component finite and at most 2^k, some component at least 2^-k *)
Definition sized (k : Z) (l : list f32) : Prop := all_finite l /\ bounded_by (IZR (2 ^ k)) l /\ Exists (fun x => / IZR (2 ^ k) <= Rabs (b2r x)) l.
