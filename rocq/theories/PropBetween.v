(** * Properties: accuracy of the rotation between two vectors *)

From Coq Require Import ZArith Bool Reals List Lra Lia.
From Flocq Require Import Core IEEE754.BinarySingleNaN.
From Verif Require Import Scalar IEEE32 RealInst Types Outcome Spec SpecR SpecMat SpecGeo SpecF32 SpecErr SpecOrd SpecDom SpecAcc SpecProj FloatBasics FloatOps
  ModelVec ModelCommon ModelExp ModelGeom ModelQuat ModelQuaternion ModelConst F32Tac RealTac.
From Verif Require Import PfBetween.
Import ListNotations.
Local Open Scope R_scope.


(** With a and b of lengths between 2^-18 and 2^30 and h at most the cosine of half the angle between them, h >= 1/1000, the components are
    within 11/h + 9 half-ulps of those of the exact rotation: the cross product with the product of the lengths plus the dot product, normalized. *)
Theorem C91_between : forall (L : Libm) (a b : vec3 f32) (h : R), all_finite (l3 a) -> all_finite (l3 b) ->
  let U := vals (l3 a) in let V := vals (l3 b) in let n := norm U * norm V in
  / IZR (2 ^ 18) <= norm U <= IZR (2 ^ 30) -> / IZR (2 ^ 18) <= norm V <= IZR (2 ^ 30) -> / 1000 <= h -> 2 * h * h * n <= n + ip U V ->
  all_close ((11 / h + 9) * ulp_half) (lq (quat_from_to (F32 L) a b)) (unit_of (cross_l U V ++ [n + ip U V])).
Proof. exact C91_between_pf. Qed.
Print Assumptions C91_between.

(** That rotation takes the direction of a to the direction of b, and the computed one does up to 8.01 times that error. *)
Theorem C91_turns : forall (L : Libm) (a b : vec3 f32) (h : R), all_finite (l3 a) -> all_finite (l3 b) ->
  let U := vals (l3 a) in let V := vals (l3 b) in let n := norm U * norm V in
  / IZR (2 ^ 18) <= norm U <= IZR (2 ^ 30) -> / IZR (2 ^ 18) <= norm V <= IZR (2 ^ 30) -> / 1000 <= h -> 2 * h * h * n <= n + ip U V ->
  let q := quat_from_to (F32 L) a b in
  norm (vsub (turned (b2r (qx q)) (b2r (qy q)) (b2r (qz q)) (b2r (qw q)) (unit_of U)) (unit_of V)) <= 801/100 * ((11 / h + 9) * ulp_half).
Proof. exact C91_turns_pf. Qed.
Print Assumptions C91_turns.

(** For nearly opposite vectors the result is a half turn about an axis across a, which takes a to the opposite of a: what is left
    is the distance from there to b. *)
Theorem C91_opposed : forall (L : Libm) (a b : vec3 f32), all_finite (l3 a) -> all_finite (l3 b) ->
  let U := vals (l3 a) in let V := vals (l3 b) in let n := norm U * norm V in
  / IZR (2 ^ 18) <= norm U <= IZR (2 ^ 30) -> / IZR (2 ^ 18) <= norm V <= IZR (2 ^ 30) -> n + ip U V <= 4/10 * / 1000000 * n ->
  let q := quat_from_to (F32 L) a b in
  norm (vsub (turned (b2r (qx q)) (b2r (qy q)) (b2r (qz q)) (b2r (qw q)) (unit_of U)) (unit_of V)) <= 73 * ulp_half + sqrt (2 * ((n + ip U V) / n)).
Proof. exact C91_opposed_pf. Qed.
Print Assumptions C91_opposed.

(** At any angle at all, the result takes the direction of a to within 1/80 of the direction of b. *)
Theorem C91_any_angle : forall (L : Libm) (a b : vec3 f32), all_finite (l3 a) -> all_finite (l3 b) ->
  let U := vals (l3 a) in let V := vals (l3 b) in
  / IZR (2 ^ 18) <= norm U <= IZR (2 ^ 30) -> / IZR (2 ^ 18) <= norm V <= IZR (2 ^ 30) ->
  let q := quat_from_to (F32 L) a b in
  norm (vsub (turned (b2r (qx q)) (b2r (qy q)) (b2r (qz q)) (b2r (qw q)) (unit_of U)) (unit_of V)) <= / 80.
Proof. exact C91_any_angle_pf. Qed.
Print Assumptions C91_any_angle.

(** The quarter turn from (1, 0, 0) to (0, 2, 0). *)
Example C91_case : forall (L : Libm), let a := V3 (f32_lit 1 0) (f32_lit 0 0) (f32_lit 0 0) in let b := V3 (f32_lit 0 0) (f32_lit 2 0) (f32_lit 0 0) in
  let U := vals (l3 a) in let V := vals (l3 b) in
  all_finite (l3 a) /\ all_finite (l3 b) /\ norm U = 1 /\ norm V = 2 /\ ip U V = 0 /\
  all_close (31 * ulp_half) (lq (quat_from_to (F32 L) a b)) (unit_of [0; 0; 2; 2]).
Proof.
  intros L a b U V. assert (Fa : all_finite (l3 a)) by (repeat constructor). assert (Fb : all_finite (l3 b)) by (repeat constructor).
  assert (EU : U = [1; 0; 0]) by (unfold U, vals, a; cbn; repeat f_equal; vm_compute; lra). assert (EV : V = [0; 2; 0]) by (unfold V, vals, b; cbn; repeat f_equal; vm_compute; lra).
  assert (NU : norm U = 1) by (rewrite EU; unfold norm, ip; cbn; replace (1 * 1 + (0 * 0 + (0 * 0 + 0))) with (1 * 1) by ring; apply sqrt_square; lra).
  assert (NV : norm V = 2) by (rewrite EV; unfold norm, ip; cbn; replace (0 * 0 + (2 * 2 + (0 * 0 + 0))) with (2 * 2) by ring; apply sqrt_square; lra).
  assert (I : ip U V = 0) by (rewrite EU, EV; unfold ip; cbn; ring).
  split; [exact Fa|]. split; [exact Fb|]. split; [exact NU|]. split; [exact NV|]. split; [exact I|].
  assert (P18 : / IZR (2 ^ 18) <= 1) by (rewrite <- Rinv_1; apply Rinv_le_contravar; [lra|now apply (IZR_le 1)]).
  assert (P30 : 2 <= IZR (2 ^ 30)) by (now apply (IZR_le 2)).
  pose proof (C91_between L a b (1/2) Fa Fb) as H. cbv zeta in H. fold U in H. fold V in H. rewrite NU, NV, I in H.
  replace (cross_l U V ++ [1 * 2 + 0]) with [0; 0; 2; 2] in H by (rewrite EU, EV; unfold cross_l; cbn; repeat (apply f_equal2; [ring|]); reflexivity).
  replace (11 / (1 / 2) + 9) with 31 in H by field. apply H; lra.
Qed.
