(** * Properties: Euler angles, interpolation of quaternions, rotation between vectors *)

From Coq Require Import ZArith Bool Reals List Lra.
From Flocq Require Import Core IEEE754.BinarySingleNaN.
From Verif Require Import Scalar IEEE32 FloatBasics F32Tac RealInst Outcome Types Spec SpecF32 SpecR SpecMat SpecGeo RealTac
  ModelVec ModelCommon ModelQuat ModelExp ModelTrig ModelConst ModelGeom ModelMat ModelMatrix ModelQuaternion.
From Verif Require Import PfInterp.
Import ListNotations.
Local Open Scope R_scope.


(** C58: quat(vec3) is the unit quaternion of the rotation about x, then y, then z, and eulerAngles inverts it. *)
Theorem C58_euler : forall p y r : R,
  unit_quat (quat_euler RS (V3 p y r)) /\
  quat_euler RS (V3 p y r) = ham (ham (angleAxis RS r (V3 0 0 1)) (angleAxis RS y (V3 0 1 0))) (angleAxis RS p (V3 1 0 0)) /\
  (forall v, quat_mul_vec RS (quat_euler RS (V3 p y r)) v =
     quat_mul_vec RS (angleAxis RS r (V3 0 0 1)) (quat_mul_vec RS (angleAxis RS y (V3 0 1 0)) (quat_mul_vec RS (angleAxis RS p (V3 1 0 0)) v))) /\
  (- PI < p <= PI -> - (PI / 2) < y < PI / 2 -> - PI < r <= PI -> eulerAngles RS (quat_euler RS (V3 p y r)) = V3 p y r).
Proof. exact C58_euler_pf. Qed.
Print Assumptions C58_euler.

Example C58_ex : eulerAngles RS (quat_euler RS (V3 3 (-1) 2)) = V3 3 (-1) 2.
Proof. pose proof PI2_3_2. pose proof PI_4. apply C58_euler_pf; lra. Qed.


(** C58: quat(eulerAngles(q)) is q or -q, the same rotation, for every unit quaternion, gimbal lock included; the
    angles lie in their ranges away from gimbal lock. *)
Theorem C58_roundtrip : forall q, unit_quat q ->
  (quat_euler RS (eulerAngles RS q) = q \/ quat_euler RS (eulerAngles RS q) = quat_neg RS q) /\
  - (PI / 2) <= yaw RS q <= PI / 2 /\ - PI < roll RS q <= PI /\
  (Rabs (yaw RS q) < PI / 2 -> - PI < pitch RS q <= PI).
Proof. exact C58_roundtrip_pf. Qed.
Print Assumptions C58_roundtrip.

(** C58: whatever the quaternion, in binary32 the argument passed to asin is NaN or in [-1, 1]. *)
Theorem C58_asin_domain : forall (L : Libm) (q : quat f32), exists a : f32,
  yaw (F32 L) q = l_asin L a /\ (is_nan a = false -> -1 <= b2r a <= 1 /\ finite a).
Proof. exact C58_asin_domain_pf. Qed.
Print Assumptions C58_asin_domain.

(** C59: in binary32 lerp's assertions fire exactly for t outside [0,1] (NaN included); nothing else can stop it. *)
Theorem C59_lerp_assert : forall (L : Libm) (x y : quat f32) (t : f32),
  (lerp (F32 L) Debug x y t = AssertFail <-> ~ (is_nan t = false /\ 0 <= xr t <= 1)) /\
  (lerp (F32 L) Debug x y t <> AssertFail -> lerp (F32 L) Debug x y t = lerp (F32 L) Release x y t) /\
  is_ret (lerp (F32 L) Release x y t) = true /\
  (nlerp (F32 L) Debug x y t = AssertFail <-> lerp (F32 L) Debug x y t = AssertFail).
Proof. exact C59_lerp_assert_pf. Qed.
Print Assumptions C59_lerp_assert.

(** C59: lerp is the straight line from x to y; nlerp is the unit vector along it wherever it is not zero. *)
Theorem C59_lerp : forall (b : build) (x y : quat R) (t : R), 0 <= t <= 1 ->
  exists q, lerp RS b x y t = Ret q /\ lq q = vadd (vscale (1 - t) (lq x)) (vscale t (lq y)) /\
  (t = 0 -> q = x) /\ (t = 1 -> q = y) /\
  (~ zeros (lq q) -> exists r, nlerp RS b x y t = Ret r /\ lq r = unit_of (lq q) /\ unit_quat r) /\
  (unit_quat x -> unit_quat y -> -1 < ip (lq x) (lq y) -> ~ zeros (lq q)).
Proof. exact C59_lerp_pf. Qed.
Print Assumptions C59_lerp.

Example C59_lerp_ex : unit_quat (Quat 0 0 0 1) /\ unit_quat (Quat (3 / 5) 0 0 (4 / 5)) /\
  -1 < ip (lq (Quat 0 0 0 1)) (lq (Quat (3 / 5) 0 0 (4 / 5))).
Proof. split; [|split]; [apply norm1_ip|apply norm1_ip|]; unfold ip; cbn; lra. Qed.


(** C59: slerp between unit quaternions starts at x and ends at y or -y, whichever is nearer (ties: y).  Off the linear
    branch (|cos| <= 1 - FLT_EPSILON) it stays on the unit sphere and the angle between its values at s and t is (t-s) times
    the angle between the ends, at most a right angle.  On the linear branch its squared length is within FLT_EPSILON/2
    of one for t in [0,1]. *)
Theorem C59_slerp : forall x y : quat R, unit_quat x -> unit_quat y ->
  let d := ip (lq x) (lq y) in let near := if Rlt_dec d 0 then quat_neg RS y else y in
  slerp RS x y 0 = x /\ slerp RS x y 1 = near /\ 0 <= ip (lq x) (lq near) /\
  (Rabs d <= 1 - / 2 ^ 23 ->
     exists theta, 0 < theta <= PI / 2 /\ cos theta = ip (lq x) (lq near) /\
     forall s t, unit_quat (slerp RS x y t) /\ ip (lq (slerp RS x y s)) (lq (slerp RS x y t)) = cos ((t - s) * theta)) /\
  (1 - / 2 ^ 23 < Rabs d -> forall t, 0 <= t <= 1 ->
     1 - / 2 ^ 24 <= ip (lq (slerp RS x y t)) (lq (slerp RS x y t)) <= 1).
Proof. exact C59_slerp_pf. Qed.
Print Assumptions C59_slerp.

Example C59_slerp_ex : unit_quat (Quat 0 0 0 1) /\ unit_quat (Quat (-3 / 5) 0 0 (-4 / 5)) /\
  Rabs (ip (lq (Quat 0 0 0 1)) (lq (Quat (-3 / 5) 0 0 (-4 / 5)))) <= 1 - / 2 ^ 23.
Proof.
  split; [|split]; [apply norm1_ip|apply norm1_ip|]; unfold ip; cbn; try lra.
  match goal with |- Rabs ?a <= _ => replace a with (- (4 / 5)) by lra end. rewrite Rabs_Ropp, Rabs_pos_eq; lra.
Qed.


(** C59: the end points of lerp are exact in binary32 (under ==) for finite quaternions. *)
Theorem C59_lerp_endpoints_f32 : forall (L : Libm) (b : build) (x y : quat f32), all_finite (lq x) -> all_finite (lq y) ->
  exists p q, lerp (F32 L) b x y (f32_lit 0 0) = Ret p /\ Forall2 ieee_eq (lq p) (lq x) /\
    lerp (F32 L) b x y (f32_lit 1 0) = Ret q /\ Forall2 ieee_eq (lq q) (lq y).
Proof. exact C59_lerp_endpoints_f32_pf. Qed.
Print Assumptions C59_lerp_endpoints_f32.

(** C60: quat(u, v) is a unit quaternion that turns u onto the ray of v, exactly unless the vectors are within the cone
    u.v < -(1 - 10^-6) |u||v|, and there up to 2 * 10^-6 (squared distance of the directions); in that cone it is a half
    turn, and exactly opposite vectors are turned exactly. *)
Theorem C60_between : forall u v : vec3 R, ~ zeros (l3 u) -> ~ zeros (l3 v) ->
  let q := quat_from_to RS u v in let n := norm (l3 u) * norm (l3 v) in let d := ip (l3 u) (l3 v) in
  let gap := vsub (unit_of (l3 (quat_mul_vec RS q u))) (unit_of (l3 v)) in
  unit_quat q /\
  (- (1 - / 1000000) * n <= d -> l3 (quat_mul_vec RS q u) = vscale (norm (l3 u) / norm (l3 v)) (l3 v)) /\
  ip gap gap <= 2 * / 1000000 /\
  (d < - (1 - / 1000000) * n -> qw q = 0 /\ l3 (quat_mul_vec RS q u) = vscale (-1) (l3 u)) /\
  (d = - n -> qw q = 0 /\ l3 (quat_mul_vec RS q u) = vscale (norm (l3 u) / norm (l3 v)) (l3 v)).
Proof. exact C60_between_pf. Qed.
Print Assumptions C60_between.

(** both regimes occur *)
Example C60_ex : ~ zeros (l3 (V3 1 0 0)) /\ ~ zeros (l3 (V3 0 2 0)) /\
  - (1 - / 1000000) * (norm (l3 (V3 1 0 0)) * norm (l3 (V3 0 2 0))) <= ip (l3 (V3 1 0 0)) (l3 (V3 0 2 0)) /\
  ip (l3 (V3 1 0 0)) (l3 (V3 (-1) 0 0)) = - (norm (l3 (V3 1 0 0)) * norm (l3 (V3 (-1) 0 0))).
Proof.
  assert (N : forall x y z a, 0 <= a -> x * x + y * y + z * z = a * a -> norm (l3 (V3 x y z)) = a).
  { intros x y z a A H. unfold norm. rewrite <- (sqrt_square a) by exact A. f_equal. rewrite <- H. unfold ip. cbn. ring. }
  rewrite (N 1 0 0 1), (N 0 2 0 2), (N (-1) 0 0 1) by lra. ands; try (unfold ip; cbn; lra); cbn; intros Z; inversion Z as [|? ? ? Z1]; subst; try lra.
  inversion Z1. lra.
Qed.

