(** * Properties: sRGB conversions against the standard curves *)

From Coq Require Import ZArith Bool Reals List Lra Lia.
From Flocq Require Import Core.
From Verif Require Import Scalar RealInst Types Spec SpecColor ModelVec ModelCommon ModelExp ModelColor.
From Verif Require Import PfColor.
Import ListNotations.
Local Open Scope R_scope.


(** convertLinearToSRGB(c, 1/2.4) is the standard encoding of the colour clamped to [0,1]; convertSRGBToLinear(c) is
    the standard decoding up to 10^-28, the error of its two literal reciprocals. *)
Theorem C73_standard : forall (v : vec3 R) (i : nat), (i < 3)%nat ->
  let ch (u : vec3 R) := nth i (l3 u) 0 in
  ch (linearToSRGB3_g RS v (/ 2.4)) = srgb_encode (Rmin (Rmax (ch v) 0) 1) /\
  (0 <= ch v <= 1 -> Rabs (ch (sRGBToLinear3 RS v) - srgb_decode (ch v)) <= / 10 ^ 28).
Proof. exact C73_standard_pf. Qed.
Print Assumptions C73_standard.

(** convertLinearToSRGB without exponent approximates the standard curve: within 0.001 on the power segment, within
    0.037 on all of [0,1]; it is strictly increasing from 0.000016 upwards and stays between -0.039 and 1. *)
Theorem C73_approximation : forall (v : vec3 R) (i : nat), (i < 3)%nat ->
  let ch (u : vec3 R) := nth i (l3 u) 0 in let x := ch v in let y := ch (linearToSRGB3 RS v) in
  (0.0031308 <= x <= 1 -> Rabs (y - srgb_encode x) <= 0.001) /\
  (0 <= x <= 1 -> Rabs (y - srgb_encode x) <= 0.037 /\ - 0.039 <= y < 1) /\
  (forall u, 0.000016 <= x < ch u -> ch u <= 1 -> y < ch (linearToSRGB3 RS u)).
Proof. exact C73_approximation_pf. Qed.
Print Assumptions C73_approximation.

(** ... but it is negative for every dark channel in (0, 0.00075], so in-range colours are encoded out of range. *)
Theorem C73_dark_refuted : forall (v : vec3 R) (i : nat), (i < 3)%nat ->
  0 < nth i (l3 v) 0 <= 0.00075 -> nth i (l3 (linearToSRGB3 RS v)) 0 < 0.
Proof. exact C73_dark_refuted_pf. Qed.
Print Assumptions C73_dark_refuted.

(** mid-grey is on the power segment, 0.0005 is a dark channel *)
Example C73_case : let v := V3 0.2 0.0005 1 in 0.0031308 <= nth 0 (l3 v) 0 <= 1 /\ 0 < nth 1 (l3 v) 0 <= 0.00075.
Proof. cbn. lra. Qed.
