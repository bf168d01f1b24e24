(** * Properties: Euler angles in binary32 *)

From Coq Require Import ZArith Bool Reals List Lra Lia.
From Flocq Require Import Core IEEE754.BinarySingleNaN.
From Verif Require Import Scalar IEEE32 RealInst Types Outcome Spec SpecR SpecMat SpecGeo SpecF32 SpecErr SpecOrd SpecDom SpecAcc SpecProj SpecEuler FloatBasics FloatOps
  ModelVec ModelCommon ModelExp ModelTrig ModelGeom ModelQuat ModelQuaternion ModelConst F32Tac RealTac NumLib PfSlerp.
From Verif Require Import PfEuler.
Import ListNotations.
Local Open Scope R_scope.


(** For angles in [-4, 4] and a C library whose sinf and cosf are within k <= 16 half-ulps of 1, the components of quat(vec3) are within 4.3k + 4
    half-ulps of 1 of the rotation about x, then y, then z. *)
Theorem C92_quat : forall (L : Libm) (k : R) (p y r : f32), angles_accurate L k -> 0 <= k <= 16 ->
  between (-4) 4 p -> between (-4) 4 y -> between (-4) 4 r ->
  all_close ((43/10 * k + 4) * ulp_half) (lq (quat_euler (F32 L) (V3 p y r))) (lq (of_angles (b2r p) (b2r y) (b2r r))).
Proof. exact C92_quat_pf. Qed.
Print Assumptions C92_quat.

(** For every quaternion with components within d of those of a rotation whose middle angle has a cosine of at least s, the quaternion of its Euler
    angles is that rotation again, up to sign, with an error that grows like 1/s. *)
Theorem C92_roundtrip : forall (L : Libm) (k d s : R) (q : quat f32) (Q : quat R), angles_accurate L k -> 0 <= k <= 16 ->
  unit_quat Q -> / 1000 <= s -> s * s <= 1 - sin_yaw Q * sin_yaw Q -> 0 <= d <= s / 4000 -> all_close d (lq q) (lq Q) ->
  all_close_sign ((23 * d + 24 * ulp_half) / s + (6 * k + 5) * ulp_half) (lq (quat_euler (F32 L) (eulerAngles (F32 L) q))) (lq Q).
Proof. exact C92_roundtrip_pf. Qed.
Print Assumptions C92_roundtrip.

(** Conversely, for every quaternion with components within d of those of the rotation by three angles, the middle one with a cosine of at least s,
    eulerAngles returns these angles modulo full turns, again with an error that grows like 1/s. *)
Theorem C92_angles : forall (L : Libm) (k d s : R) (q : quat f32) (P Y R0 : R), angles_accurate L k -> 0 <= k <= 16 ->
  / 1000 <= s <= cos Y -> 0 <= d <= s / 4000 -> all_close d (lq q) (lq (of_angles P Y R0)) ->
  let e := k * ulp_half + (12 * d + 12 * ulp_half) / s in
  let a := eulerAngles (F32 L) q in between (-4) 4 (x3 a) /\ between (-4) 4 (y3 a) /\ between (-4) 4 (z3 a) /\
  chord (b2r (x3 a)) P <= e /\ chord (b2r (y3 a)) Y <= e /\ chord (b2r (z3 a)) R0 <= e.
Proof. exact C92_angles_pf. Qed.
Print Assumptions C92_angles.

(** So quat and eulerAngles undo each other: from three angles, the middle one with a cosine of at least s >= 0.02, quat followed by eulerAngles returns
    the angles modulo full turns. *)
Theorem C92_recover : forall (L : Libm) (k s : R) (p y r : f32), angles_accurate L k -> 0 <= k <= 16 ->
  between (-4) 4 p -> between (-4) 4 y -> between (-4) 4 r -> / 50 <= s <= cos (b2r y) ->
  let e := (k + (52 * k + 60) / s) * ulp_half in
  let a := eulerAngles (F32 L) (quat_euler (F32 L) (V3 p y r)) in
  chord (b2r (x3 a)) (b2r p) <= e /\ chord (b2r (y3 a)) (b2r y) <= e /\ chord (b2r (z3 a)) (b2r r) <= e.
Proof. exact C92_recover_pf. Qed.
Print Assumptions C92_recover.

(** Near gimbal lock the round trip fails for every accurate C library: there is a quaternion whose squared length is within 1e-7 of 1 and whose Euler
    angles give back a quaternion that differs from it and from its negation by more than 1/2 in some component. *)
Theorem C92_gimbal_refuted : forall (L : Libm) (k : R), angles_accurate L k -> 0 <= k <= 16 -> exists q : quat f32,
  Rabs (ip (map b2r (lq q)) (map b2r (lq q)) - 1) <= / 10000000 /\
  ~ all_close_sign (/ 2) (lq (quat_euler (F32 L) (eulerAngles (F32 L) q))) (map b2r (lq q)).
Proof. exact C92_gimbal_refuted_pf. Qed.
Print Assumptions C92_gimbal_refuted.

(** a C library that returns the nearest binary32 number meets the hypothesis with k = 4 *)
Example C92_rounded_library : forall L0 : Libm, exists L, angles_accurate L 4 /\ l_tan L = l_tan L0.
Proof.
  intros L0. exists (mkLibm (fun x => nearest (cos (b2r x))) (fun x => nearest (sin (b2r x))) (l_tan L0) (l_acos L0) (fun x => nearest (asin (b2r x))) (l_atan L0) (fun y x => nearest (Ratan2 (b2r y) (b2r x)))
    (l_cosh L0) (l_sinh L0) (l_tanh L0) (l_acosh L0) (l_asinh L0) (l_atanh L0) (l_pow L0) (l_exp L0) (l_log L0) (l_log2 L0) (l_cbrt L0)).
  split; [|reflexivity]. split; [|split].
  - intros x _. apply nearest_trig.
  - intros x _. apply nearest_asin.
  - intros y x _ _ H. now apply nearest_atan2.
Qed.
(** a turn by 120 degrees about (1,1,1), far from gimbal lock, meets the hypotheses of the round trip exactly; a middle angle of 1 radian those of the other direction *)
Example C92_case : let q := Quat (f32_lit 5 (-1)) (f32_lit 5 (-1)) (f32_lit 5 (-1)) (f32_lit 5 (-1)) in
  let Q := Quat (/ 2) (/ 2) (/ 2) (/ 2) in unit_quat Q /\ 1 * 1 <= 1 - sin_yaw Q * sin_yaw Q /\ all_close 0 (lq q) (lq Q) /\
  between (-4) 4 (f32_lit 1 0) /\ / 2 <= cos (b2r (f32_lit 1 0)).
Proof.
  cbv zeta. assert (H : b2r (f32_lit 5 (-1)) = / 2) by (vm_compute; lra). assert (V : b2r (f32_lit 1 0) = 1) by (vm_compute; lra). rewrite V. split; [|split; [|split; [|split]]].
  - unfold unit_quat, norm, ip. cbn. replace (_ + _) with (1 * 1) by lra. apply sqrt_square. lra.
  - unfold sin_yaw. cbn. lra.
  - unfold all_close, lq. cbn [qx qy qz qw]. repeat constructor; rewrite H, Rminus_diag_eq, Rabs_R0; trivial; lra.
  - split; [reflexivity|]. rewrite V. lra.
  - replace (/ 2) with (1 / 2) by lra. rewrite <- cos_PI3. apply cos_decr_1; pose proof PI2_1; pose proof PI_4; pose proof NumLib.PI_bounds; lra.
Qed.
