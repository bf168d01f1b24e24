(** * Specification vocabulary: sRGB conversions in binary32 *)
From Coq Require Import ZArith Reals List.
From Flocq Require Import Core IEEE754.BinarySingleNaN.
From Verif Require Import IEEE32 Types FloatBasics SpecF32 SpecErr SpecDom SpecProj SpecColor.
Import ListNotations.
Local Open Scope R_scope.

(** powf is within [k] half-ulps, relatively, for moderate bases and exponents *)
Definition pow_accurate (L : Libm) (k : R) : Prop :=
  forall x y, between (/ 1024) 2 x -> between (/ 4) 4 y -> rel_close k (l_pow L x y) (Rpower (b2r x) (b2r y)).
(** the exponent a caller passes for 1/2.4 *)
Definition encoding_exponent (g : f32) : Prop := finite g /\ Rabs (b2r g - / 2.4) <= ulp_half.
(** computed channel [c] against the standard curves *)
Definition decoded (k : R) (s c : f32) : Prop :=
  between 0 1 s -> finite c /\ Rabs (b2r c - srgb_decode (b2r s)) <= (k + 11) * ulp_half * srgb_decode (b2r s) + tiny.
Definition encoded (k : R) (x c : f32) : Prop :=
  finite x -> finite c /\ Rabs (b2r c - srgb_encode (Rmin (Rmax (b2r x) 0) 1)) <= (11/10 * k + 5) * ulp_half.
Definition returned (k : R) (s c : f32) : Prop :=
  between 0 1 s -> finite c /\ Rabs (b2r c - b2r s) <= (16/10 * k + 10) * ulp_half.
