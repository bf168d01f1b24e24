(** * Properties: angle and axis of a quaternion in binary32 *)

From Coq Require Import ZArith Bool Reals List Lra Lia.
From Flocq Require Import Core IEEE754.BinarySingleNaN.
From Verif Require Import Scalar IEEE32 RealInst Types Outcome Spec SpecR SpecMat SpecGeo SpecF32 SpecErr SpecOrd SpecDom SpecAcc SpecEuler SpecAxis FloatBasics FloatOps
  ModelVec ModelCommon ModelExp ModelGeom ModelQuat ModelTrig ModelQuaternion ErrLib OvfLib F32Tac RealTac PfSlerp PfEuler.
From Verif Require Import PfAxis.
Import ListNotations.
Local Open Scope R_scope.


(** A unit quaternion is rebuilt from its angle and its axis: when the sine of the half-angle is at least s the components come back within
    (5/2 k + 6 + 2/s) half-ulps of 1, where k is the error of acosf, sinf and cosf. *)
Theorem C97_roundtrip : forall (L : Libm) (k s : R) (q : quat f32), arcs_accurate L k -> 0 <= k <= 16 -> all_finite (lq q) ->
  let Q := Quat (b2r (qx q)) (b2r (qy q)) (b2r (qz q)) (b2r (qw q)) in
  0 < s -> s * s <= sine_sq Q -> 100 * ulp_half <= s * s -> ip (lq Q) (lq Q) <= 1 + s * s / 10 ->
  all_close ((5 / 2 * k + 6 + 2 / s) * ulp_half) (lq (angleAxis (F32 L) (angle (F32 L) q) (axis (F32 L) q))) (lq Q).
Proof. exact C97_roundtrip_pf. Qed.
Print Assumptions C97_roundtrip.

(** The axis and the angle of a quaternion within d of the unit quaternion Q whose half-angle has a sine of at least s: the axis is within
    (3 d + 6 half-ulps)/s^2 of the axis of Q and the angle within 21/10 d/s plus 2 k half-ulps of 2 arccos of its real part. *)
Theorem C97_accuracy : forall (L : Libm) (k d s : R) (q : quat f32) (Q : quat R), arcs_accurate L k -> 0 <= k <= 16 -> unit_quat Q -> all_close d (lq q) (lq Q) ->
  0 < s -> s * s <= sine_sq Q -> 200 * ulp_half <= s * s -> 100 * d <= s * s ->
  all_close ((3 * d + 6 * ulp_half) / (s * s)) (l3 (axis (F32 L) q)) (axis_of Q) /\
  all_close (21 / 10 * (d / s) + 2 * k * ulp_half) [angle (F32 L) q] [2 * acos (qw Q)].
Proof. exact C97_accuracy_pf. Qed.
Print Assumptions C97_accuracy.

(** A rotation of at most 2^-12 radians loses its angle and its axis: with a correctly rounded cosine the real part is exactly 1, the angle
    read back is 2 acosf(1) and the axis (0,0,1), whatever they were. *)
Theorem C97_small_rotation_refuted : forall (L : Libm), cos_nearest L -> forall (a : f32) (n : vec3 f32), finite a -> Rabs (b2r a) <= / IZR (2 ^ 12) ->
  let q := angleAxis (F32 L) a n in
  qw q = f32_lit 1 0 /\ axis (F32 L) q = V3 (f32_ofZ 0) (f32_ofZ 0) (f32_ofZ 1) /\ angle (F32 L) q = Bmult mode_NE (l_acos L (f32_lit 1 0)) (f32_lit 2 0).
Proof. exact C97_small_rotation_refuted_pf. Qed.
Print Assumptions C97_small_rotation_refuted.

(** The same axis is returned whenever the real part is 1 or more in size. *)
Theorem C97_default_axis : forall (L : Libm) (q : quat f32), finite (qw q) -> 1 <= Rabs (b2r (qw q)) <= IZR (2 ^ 60) ->
  axis (F32 L) q = V3 (f32_ofZ 0) (f32_ofZ 0) (f32_ofZ 1).
Proof. exact C97_default_axis_pf. Qed.
Print Assumptions C97_default_axis.

(** a C library that returns the nearest binary32 number meets both hypotheses, with k = 4 *)
Example C97_rounded_library : forall L0 : Libm, exists L, arcs_accurate L 4 /\ cos_nearest L /\ l_tan L = l_tan L0.
Proof.
  intros L0. exists (mkLibm (fun x => nearest (cos (b2r x))) (fun x => nearest (sin (b2r x))) (l_tan L0) (fun x => nearest (acos (b2r x))) (l_asin L0) (l_atan L0) (l_atan2 L0)
    (l_cosh L0) (l_sinh L0) (l_tanh L0) (l_acosh L0) (l_asinh L0) (l_atanh L0) (l_pow L0) (l_exp L0) (l_log L0) (l_log2 L0) (l_cbrt L0)).
  split; [split|split; [|reflexivity]]; intros x _; [apply nearest_trig|apply nearest_acos4|apply nearest_ok, cos_small_range].
Qed.
(** The turn by 120 degrees about (1,1,1) comes back within 20 half-ulps with such a library, and its axis is within 24 half-ulps of (1,1,1)/sqrt 3. *)
Example C97_case : forall L, arcs_accurate L 4 -> let h := f32_lit 5 (-1) in let q := Quat h h h h in
  all_close (20 * ulp_half) (lq (angleAxis (F32 L) (angle (F32 L) q) (axis (F32 L) q))) [/ 2; / 2; / 2; / 2] /\
  all_close (24 * ulp_half) (l3 (axis (F32 L) q)) (axis_of (Quat (/ 2) (/ 2) (/ 2) (/ 2))).
Proof.
  intros L HL h q. assert (H : b2r h = / 2) by (vm_compute; lra). assert (U : ulp_half = / 16777216) by (unfold ulp_half; cbn; lra). split.
  - pose proof (C97_roundtrip L 4 (/ 2) q HL) as R. cbv zeta in R. unfold q in R at 5. unfold sine_sq in R. cbn [lq qx qy qz qw q] in R. rewrite H in R.
    replace (20 * ulp_half) with ((5 / 2 * 4 + 6 + 2 / / 2) * ulp_half) by (rewrite U; field). apply R; try lra; [repeat constructor|]. unfold ip. cbn. lra.
  - replace (24 * ulp_half) with ((3 * 0 + 6 * ulp_half) / (/ 2 * / 2)) by (rewrite U; field).
    apply (C97_accuracy L 4 0 (/ 2) q (Quat (/ 2) (/ 2) (/ 2) (/ 2)) HL); try lra.
    + unfold unit_quat, norm, ip. cbn. replace (_ + _) with (1 * 1) by lra. apply sqrt_square. lra.
    + unfold all_close, lq. cbn [qx qy qz qw q]. repeat constructor; rewrite H, Rminus_diag_eq, Rabs_R0; trivial; lra.
    + unfold sine_sq. cbn. lra.
Qed.
(** a ten-thousandth of a radian is lost; -1 is a real part to which the fourth theorem applies *)
Example C97_small_case : finite (f32_lit 1 (-4)) /\ Rabs (b2r (f32_lit 1 (-4))) <= / IZR (2 ^ 12) /\ 1 <= Rabs (b2r (f32_ofZ (-1))) <= IZR (2 ^ 60).
Proof.
  split; [reflexivity|]. split.
  - change (/ IZR (2 ^ 12)) with (/ 4096). apply Rabs_le. vm_compute. lra.
  - assert (E : b2r (f32_ofZ (-1)) = -1) by (apply (ErrLib.ofZ_exact (-1)); lia). rewrite E, Rabs_left by lra. split; [lra|]. rewrite <- opp_IZR. apply IZR_le. lia.
Qed.
