(** * Properties: accuracy of spherical interpolation *)

From Coq Require Import ZArith Bool Reals List Lra Lia.
From Flocq Require Import Core IEEE754.BinarySingleNaN.
From Verif Require Import Scalar IEEE32 RealInst Types Outcome Spec SpecR SpecMat SpecGeo SpecF32 SpecErr SpecOrd SpecDom SpecAcc SpecProj SpecSlerp FloatBasics FloatOps
  ModelVec ModelCommon ModelExp ModelTrig ModelGeom ModelMat ModelMatrix ModelQuat ModelQuaternion ModelConst ErrLib OvfLib F32Tac RealTac.
From Verif Require Import PfSlerp.
Import ListNotations.
Local Open Scope R_scope.


(** slerp in binary32 between quaternions within dl of unit quaternions X and Y that are not nearly orthogonal is, component by component, within
    7 dl + (10 k + 18)*2^-24 of the exact slerp of X and Y, for a C library whose sin and acos are within k half-ulps: however small the angle, and
    whichever of the two branches is taken. *)
Theorem C88_slerp : forall (L : Libm) (k dl : R) (x y : quat f32) (X Y : quat R) (t : f32),
  0 <= k <= 16 -> sin_acos_accurate L k -> 0 <= dl <= / 1000 -> unit_quat X -> unit_quat Y ->
  all_close dl (lq x) (lq X) -> all_close dl (lq y) (lq Y) -> between 0 1 t -> 5 * dl + 5 * ulp_half <= Rabs (ip (lq X) (lq Y)) ->
  all_close (7 * dl + (10 * k + 18) * ulp_half) (lq (slerp (F32 L) x y t)) (lq (slerp RS X Y (b2r t))).
Proof. exact C88_slerp_pf. Qed.
Print Assumptions C88_slerp.

(** The same for quaternions that the program itself normalized: slerp(normalize(p), normalize(q), t) against the exact
    interpolation between p/|p| and q/|q|. *)
Theorem C88_normalized : forall (L : Libm) (k : R) (p q : quat f32) (t : f32),
  let N := norm (vals (lq p)) in let M := norm (vals (lq q)) in
  let X := Quat (b2r (qx p) / N) (b2r (qy p) / N) (b2r (qz p) / N) (b2r (qw p) / N) in
  let Y := Quat (b2r (qx q) / M) (b2r (qy q) / M) (b2r (qz q) / M) (b2r (qw q) / M) in
  0 <= k <= 16 -> sin_acos_accurate L k -> all_finite (lq p) -> all_finite (lq q) ->
  / IZR (2 ^ 48) <= N <= IZR (2 ^ 62) -> / IZR (2 ^ 48) <= M <= IZR (2 ^ 62) -> between 0 1 t ->
  46 * ulp_half <= Rabs (ip (lq X) (lq Y)) ->
  all_close ((10 * k + 75) * ulp_half) (lq (slerp (F32 L) (normalize_q (F32 L) p) (normalize_q (F32 L) q) t)) (lq (slerp RS X Y (b2r t))).
Proof. exact C88_normalized_pf. Qed.
Print Assumptions C88_normalized.

(** Its length is close to one. *)
Theorem C88_length : forall (L : Libm) (k dl : R) (x y : quat f32) (X Y : quat R) (t : f32),
  0 <= k <= 16 -> sin_acos_accurate L k -> 0 <= dl <= / 1000 -> unit_quat X -> unit_quat Y ->
  all_close dl (lq x) (lq X) -> all_close dl (lq y) (lq Y) -> between 0 1 t -> 5 * dl + 5 * ulp_half <= Rabs (ip (lq X) (lq Y)) ->
  Rabs (norm (vals (lq (slerp (F32 L) x y t))) - 1) <= 14 * dl + (20 * k + 37) * ulp_half.
Proof. exact C88_length_pf. Qed.
Print Assumptions C88_length.

(** a C library that returns the nearest binary32 number for sin and acos meets the hypothesis with k = 1 *)
Example C88_rounded_library : forall L0 : Libm, exists L, sin_acos_accurate L 1 /\ l_cos L = l_cos L0.
Proof.
  intros L0. exists (mkLibm (l_cos L0) (fun x => nearest (sin (b2r x))) (l_tan L0) (fun x => nearest (acos (b2r x))) (l_asin L0) (l_atan L0) (l_atan2 L0)
    (l_cosh L0) (l_sinh L0) (l_tanh L0) (l_acosh L0) (l_asinh L0) (l_atanh L0) (l_pow L0) (l_exp L0) (l_log L0) (l_log2 L0) (l_cbrt L0)).
  split; [|reflexivity]. split; intros x H; [now apply nearest_sin|now apply nearest_acos].
Qed.
(** two unit quaternions 60 degrees apart that meet the hypotheses exactly, with t = 1/2 *)
Example C88_case : let x := Quat (f32_ofZ 1) (f32_ofZ 0) (f32_ofZ 0) (f32_ofZ 0) in
  let y := Quat (f32_lit 5 (-1)) (f32_lit 5 (-1)) (f32_lit 5 (-1)) (f32_lit 5 (-1)) in
  let X := Quat 1 0 0 0 in let Y := Quat (/ 2) (/ 2) (/ 2) (/ 2) in let t := f32_lit 5 (-1) in
  unit_quat X /\ unit_quat Y /\ all_close 0 (lq x) (lq X) /\ all_close 0 (lq y) (lq Y) /\ between 0 1 t /\
  5 * 0 + 5 * ulp_half <= Rabs (ip (lq X) (lq Y)).
Proof.
  cbv zeta. assert (H : b2r (f32_lit 5 (-1)) = / 2) by (vm_compute; lra). assert (A : b2r (f32_ofZ 1) = 1) by (vm_compute; lra).
  assert (Z : b2r (f32_ofZ 0) = 0) by reflexivity.
  assert (K : forall (a : f32) r, finite a -> b2r a = r -> finite a /\ Rabs (b2r a - r) <= 0).
  { intros a r F ->. split; [exact F|]. rewrite Rminus_diag_eq, Rabs_R0 by reflexivity. lra. }
  repeat split.
  - unfold unit_quat, norm, ip. cbn. transitivity (sqrt 1); [f_equal; lra|apply sqrt_1].
  - unfold unit_quat, norm, ip. cbn. transitivity (sqrt 1); [f_equal; lra|apply sqrt_1].
  - unfold all_close, lq. cbv [qx qy qz qw]. repeat (apply Forall2_cons; [apply K; [reflexivity|assumption]|]). apply Forall2_nil.
  - unfold all_close, lq. cbv [qx qy qz qw]. repeat (apply Forall2_cons; [apply K; [reflexivity|assumption]|]). apply Forall2_nil.
  - rewrite H. lra.
  - rewrite H. lra.
  - unfold ip, ulp_half. cbn [lq qx qy qz qw zip fold_right]. rewrite Rabs_pos_eq by lra. change (IZR (2 ^ 24)) with 16777216. lra.
Qed.
