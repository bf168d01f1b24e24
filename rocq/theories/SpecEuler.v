(** * Specification vocabulary: Euler angles *)
From Coq Require Import ZArith Reals List.
From Flocq Require Import Core IEEE754.BinarySingleNaN.
From Verif Require Import IEEE32 RealInst Types FloatBasics SpecF32 SpecR SpecGeo SpecErr SpecDom.
Import ListNotations.
Local Open Scope R_scope.

(** a number within [k] half-ulps of 1, absolutely *)
Definition within_u (k : R) (c : f32) (x : R) : Prop := finite c /\ Rabs (b2r c - x) <= k * ulp_half.
(** sinf and cosf on [-2, 2], asinf on [-1, 1] and atan2f away from the origin are that close *)
Definition angles_accurate (L : Libm) (k : R) : Prop :=
  (forall x, between (-2) 2 x -> within_u k (l_sin L x) (sin (b2r x)) /\ within_u k (l_cos L x) (cos (b2r x))) /\
  (forall x, between (-1) 1 x -> within_u k (l_asin L x) (asin (b2r x))) /\
  (forall y x, finite y -> finite x -> b2r x <> 0 \/ b2r y <> 0 -> within_u k (l_atan2 L y x) (Ratan2 (b2r y) (b2r x))).

(** the rotations about the axes and their product: about x, then y, then z *)
Definition about_x (a : R) : quat R := Quat (sin (a / 2)) 0 0 (cos (a / 2)).
Definition about_y (a : R) : quat R := Quat 0 (sin (a / 2)) 0 (cos (a / 2)).
Definition about_z (a : R) : quat R := Quat 0 0 (sin (a / 2)) (cos (a / 2)).
Definition of_angles (pitch yaw roll : R) : quat R := ham (about_z roll) (ham (about_y yaw) (about_x pitch)).

(** the sine of the middle angle of a rotation: minus the third coordinate of where it takes the x axis *)
Definition sin_yaw (q : quat R) : R := 2 * (qw q * qy q - qx q * qz q).
(** how far apart two directions of the plane are *)
Definition chord (a b : R) : R := sqrt ((cos a - cos b) * (cos a - cos b) + (sin a - sin b) * (sin a - sin b)).
