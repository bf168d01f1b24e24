(** * Specification vocabulary: mirrors and refraction *)
From Coq Require Import ZArith Reals List.
From Flocq Require Import Core IEEE754.BinarySingleNaN.
From Verif Require Import IEEE32 Types FloatBasics Spec SpecF32 SpecR SpecErr SpecDom SpecAcc.
Import ListNotations.
Local Open Scope R_scope.

(** the mirror image: the part along the mirror stays, the part across it is turned over *)
Definition mirrored (i n : list R) : list R := zip Rminus (tangential i n) (map (Rmult (ip i n)) n).
(** the squared sine of the angle of incidence *)
Definition sine2 (i n : list R) : R := ip (tangential i n) (tangential i n).
(** Snell's law: the part along the surface is multiplied by [eta], and the direction has length 1 on the far side of the surface *)
Definition snell (eta : R) (i n : list R) : list R :=
  zip Rminus (map (Rmult eta) (tangential i n)) (map (Rmult (sqrt (1 - eta * eta * sine2 i n))) n).

(** computed from vectors within [d] of unit vectors *)
Definition near_units {V} (comps : V -> list f32) (d : R) (i n : V) (I N : list R) : Prop :=
  norm I = 1 /\ norm N = 1 /\ 0 <= d <= / 1000 /\ all_close d (comps i) I /\ all_close d (comps n) N.
Definition reflect_accurate {V} (comps : V -> list f32) (refl : V -> V -> V) : Prop :=
  forall i n I N d, near_units comps d i n I N -> all_close (12 * d + 16 * ulp_half) (comps (refl i n)) (mirrored I N).
(** how close to total reflection the outcome is open *)
Definition margin (eta d : R) : R := 9 * (eta * eta) * d + (14 * (eta * eta) + 2) * ulp_half.
Definition refract_accurate {V} (comps : V -> list f32) (refr : V -> V -> f32 -> V) : Prop :=
  forall i n I N eta d, near_units comps d i n I N -> between 0 4 eta ->
    let h := b2r eta in let K := 1 - h * h * sine2 I N in
    (forall s, 0 < s -> s * s <= K -> 4 * margin h d <= s * s ->
       all_close (((9 * (h * h) + 7 * h + 2) * d + (14 * (h * h) + 11 * h + 8) * ulp_half) / s) (comps (refr i n eta)) (snell h I N)) /\
    (K < - margin h d -> Forall (fun x => x = B754_zero false) (comps (refr i n eta))).
(** the side is decided correctly unless the incident vector is along the surface up to the errors *)
Definition facing_accurate {V} (comps : V -> list f32) (neg : V -> V) (face : V -> V -> V -> V) : Prop :=
  forall n i r I N d, near_units comps d i r I N ->
    (ip N I < - (5 * d + 5 * ulp_half) -> face n i r = n) /\ (5 * d + 5 * ulp_half < ip N I -> face n i r = neg n).
