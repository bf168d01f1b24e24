(** * Properties: reflection and refraction in binary32 *)

From Coq Require Import ZArith Bool Reals List Lra Lia.
From Flocq Require Import Core IEEE754.BinarySingleNaN.
From Verif Require Import Scalar IEEE32 RealInst Types Spec SpecR SpecF32 SpecErr SpecOrd SpecDom SpecAcc SpecRefract FloatBasics FloatOps
  ModelVec ModelCommon ModelExp ModelGeom F32Tac RealTac.
From Verif Require Import PfRefract.
Import ListNotations.
Local Open Scope R_scope.


(** For incident and normal vectors within d of unit vectors, reflect is within 12d + 16 half-ulps of 1 of the mirror image in each component. *)
Theorem C93_reflect : forall L : Libm,
  reflect_accurate l2 (reflect2 (F32 L)) /\ reflect_accurate l3 (reflect3 (F32 L)) /\ reflect_accurate l4 (reflect4 (F32 L)).
Proof. exact C93_reflect_pf. Qed.
Print Assumptions C93_reflect.

(** For eta in [0, 4] the refracted vector is within ((9 eta^2 + 7 eta + 2) d + (14 eta^2 + 11 eta + 8) half-ulps of 1)/s of the direction Snell's law
    gives, where s > 0 is at most the cosine of the angle of refraction; beyond the angle of total reflection, up to a small margin, the result is
    exactly the zero vector. *)
Theorem C93_refract : forall L : Libm,
  refract_accurate l2 (refract2 (F32 L)) /\ refract_accurate l3 (refract3 (F32 L)) /\ refract_accurate l4 (refract4 (F32 L)).
Proof. exact C93_refract_pf. Qed.
Print Assumptions C93_refract.

(** faceforward picks the right sign whenever the cosine of the angle between incident and reference vector exceeds 5d + 5 half-ulps of 1. *)
Theorem C93_faceforward : forall L : Libm,
  facing_accurate l2 (vec2_neg (F32 L)) (faceforward2 (F32 L)) /\ facing_accurate l3 (vec3_neg (F32 L)) (faceforward3 (F32 L)) /\
  facing_accurate l4 (vec4_neg (F32 L)) (faceforward4 (F32 L)).
Proof. exact C93_faceforward_pf. Qed.
Print Assumptions C93_faceforward.

(** light at a slope of 3:4 falling on a horizontal surface: refracted for eta = 1/2, reflected totally for eta = 2 *)
Example C93_case : let i := V2 (f32_lit 6 (-1)) (f32_lit (-8) (-1)) in let n := V2 (f32_lit 0 0) (f32_lit 1 0) in
  let I := [6/10; - (8/10)] in let N := [0; 1] in
  near_units l2 ulp_half i n I N /\ sine2 I N = 36/100 /\ 9/10 * (9/10) <= 1 - / 2 * / 2 * sine2 I N /\ 4 * margin (/ 2) ulp_half <= 9/10 * (9/10) /\
  1 - 2 * 2 * sine2 I N < - margin 2 ulp_half.
Proof.
  cbv zeta. assert (V0 : b2r (f32_lit 0 0) = 0) by (vm_compute; lra). assert (V1 : b2r (f32_lit 1 0) = 1) by (vm_compute; lra).
  assert (V6 : b2r (f32_lit 6 (-1)) = 10066330 / 16777216) by (unfold f32_lit; vm_compute; lra). assert (V8 : b2r (f32_lit (-8) (-1)) = - 13421773 / 16777216) by (unfold f32_lit; vm_compute; lra).
  assert (UV : ulp_half = / 16777216) by reflexivity.
  assert (S : sine2 [6/10; - (8/10)] [0; 1] = 36/100) by (unfold sine2, tangential, ip; cbn; lra). rewrite S.
  split; [|split; [reflexivity|unfold margin; rewrite UV; lra]].
  unfold near_units. split; [unfold norm, ip; cbn; replace (_ + _) with (1 * 1) by lra; apply sqrt_square; lra|]. split; [unfold norm, ip; cbn; replace (_ + _) with (1 * 1) by lra; apply sqrt_square; lra|]. split; [lra|]. split; unfold all_close, l2; cbn [x2 y2].
  - apply Forall2_cons; [split; [reflexivity|rewrite V6, UV; apply Rabs_le; lra]|]. apply Forall2_cons; [split; [reflexivity|rewrite V8, UV; apply Rabs_le; lra]|]. apply Forall2_nil.
  - apply Forall2_cons; [split; [reflexivity|rewrite V0, UV; apply Rabs_le; lra]|]. apply Forall2_cons; [split; [reflexivity|rewrite V1, UV; apply Rabs_le; lra]|]. apply Forall2_nil.
Qed.
