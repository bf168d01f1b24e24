(** * Specification vocabulary: angle and axis of a rotation *)
From Coq Require Import ZArith Reals List.
From Flocq Require Import Core IEEE754.BinarySingleNaN.
From Verif Require Import IEEE32 RealInst Types FloatBasics SpecF32 SpecR SpecGeo SpecErr SpecDom SpecEuler.
Import ListNotations.
Local Open Scope R_scope.

(** sinf and cosf on [-4, 4] and acosf on [-1, 1] are within [k] half-ulps of 1, absolutely *)
Definition arcs_accurate (L : Libm) (k : R) : Prop :=
  (forall x, between (-4) 4 x -> within_u k (l_sin L x) (sin (b2r x)) /\ within_u k (l_cos L x) (cos (b2r x))) /\
  (forall x, between (-1) 1 x -> within_u k (l_acos L x) (acos (b2r x))).
(** the square of the sine of half the angle of a unit quaternion, and its axis *)
Definition sine_sq (p : quat R) : R := 1 - qw p * qw p.
Definition axis_of (p : quat R) : list R := map (fun c => c / sqrt (sine_sq p)) [qx p; qy p; qz p].
(** cosf rounds correctly near 0 *)
Definition cos_nearest (L : Libm) : Prop :=
  forall x, between (-1) 1 x -> finite (l_cos L x) /\ b2r (l_cos L x) = rnd (cos (b2r x)).
