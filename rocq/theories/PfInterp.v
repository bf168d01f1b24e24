(** * Proofs: Euler angles, interpolation of quaternions, rotation between vectors *)
From Coq Require Import ZArith Bool Reals List Lra.
From Flocq Require Import Core IEEE754.BinarySingleNaN.
From Verif Require Import Scalar IEEE32 FloatBasics F32Tac RealInst Outcome Types Spec SpecF32 SpecR SpecMat SpecGeo RealTac
  ModelVec ModelCommon ModelQuat ModelExp ModelTrig ModelConst ModelGeom ModelMat ModelMatrix ModelQuaternion.
Import ListNotations.
Local Open Scope R_scope.
(*HEADER END*)
From Verif Require Import FloatOps FloatAlg PfOrder PfFloat MatTac PfMat PfQuat RotLib PfRot.

(** ** C58 *)
(** polar coordinates *)
Lemma atan_range x : - (PI / 2) < atan x < PI / 2.
Proof. pose proof (atan_bound x). lra. Qed.
Lemma cos_atan_pos x : 0 < cos (atan x).
Proof. apply cos_gt_0; pose proof (atan_range x); lra. Qed.
Lemma atan_polar x y : x <> 0 -> let a := atan (y / x) in
  sin a * sin a + cos a * cos a = 1 /\ 0 < cos a /\ x * sin a = y * cos a.
Proof.
  intros N a. pose proof (sin2_cos2 a) as H. unfold Rsqr in H. ands; [lra|apply cos_atan_pos|].
  assert (T : tan a = y / x) by apply tan_atan. unfold tan in T. pose proof (cos_atan_pos (y / x)). fold a in H0.
  assert (sin a = y / x * cos a) as -> by (rewrite <- T; field; lra). field. exact N.
Qed.
Lemma Ratan2_polar y x r : 0 < r -> r * r = x * x + y * y ->
  cos (Ratan2 y x) = x / r /\ sin (Ratan2 y x) = y / r /\ - PI < Ratan2 y x <= PI.
Proof.
  intros Hr E. pose proof PI_RGT_0. unfold Ratan2.
  assert (K : forall c s, c * c + s * s = 1 -> x * s = y * c -> 0 < c * x -> c = x / r /\ s = y / r).
  { intros c s U P Q. assert (C : (c * r) * (c * r) = x * x).
    { transitivity (c * c * (x * x) + c * c * (y * y)); [rewrite <- Rmult_plus_distr_l, <- E; ring|].
      transitivity (c * c * (x * x) + (y * c) * (y * c)); [ring|]. rewrite <- P.
      transitivity ((c * c + s * s) * (x * x)); [ring|rewrite U; ring]. }
    assert (c * r = x).
    { assert ((c * r - x) * (c * r + x) = 0) as Z by lra. apply Rmult_integral in Z. destruct Z as [Z|Z]; [lra|].
      exfalso. assert (x = - (c * r)) by lra. subst x. assert (0 <= c * c * r) by (apply Rmult_le_pos; [apply Rle_0_sqr|lra]). lra. }
    assert (x <> 0) by (intros ->; lra).
    split; [field_simplify_eq; lra|]. apply Rmult_eq_reg_l with x; [|assumption]. rewrite P, <- H0. field. lra. }
  destruct (Rlt_bool_spec 0 x) as [P|P].
  - destruct (atan_polar x y) as (A & B & C); [lra|]. pose proof (atan_range (y / x)). revert A B C H0. generalize (atan (y / x)). intros a A B C Ra.
    destruct (K (cos a) (sin a)); [lra|exact C|nra|]. ands; try assumption; lra.
  - destruct (Rlt_bool_spec x 0) as [N|N].
    + destruct (atan_polar x y) as (A & B & C); [lra|]. pose proof (atan_range (y / x)) as Ra.
      assert (Sg : (0 <= y -> atan (y / x) <= 0) /\ (y < 0 -> 0 < atan (y / x))).
      { pose proof atan_0 as A0. split; intros Hy.
        - destruct Hy as [Hy|<-]; [|unfold Rdiv; rewrite Rmult_0_l; lra].
          assert (0 < y * / - x) by (apply Rmult_lt_0_compat; [exact Hy|apply Rinv_0_lt_compat; lra]).
          pose proof (atan_increasing (y / x) 0) as I. replace (y / x) with (- (y * / - x)) in * by (field; lra). lra.
        - assert (0 < (- y) * / - x) by (apply Rmult_lt_0_compat; [lra|apply Rinv_0_lt_compat; lra]).
          pose proof (atan_increasing 0 (y / x)) as I. replace (y / x) with ((- y) * / - x) in * by (field; lra). lra. }
      revert A B C Ra Sg. generalize (atan (y / x)). intros a A B C Ra [S1 S2].
      destruct (K (- cos a) (- sin a)) as [K1 K2]; [lra|lra|nra|].
      destruct (Rle_bool_spec 0 y) as [Y|Y].
      * rewrite neg_cos, neg_sin. specialize (S1 Y). ands; try assumption; lra.
      * assert (cos (a - PI) = - cos a) as -> by (rewrite cos_minus, cos_PI, sin_PI; ring).
        assert (sin (a - PI) = - sin a) as -> by (rewrite sin_minus, cos_PI, sin_PI; ring).
        specialize (S2 Y). ands; try assumption; lra.
    + assert (x = 0) by lra. subst x. assert (Hy : y <> 0) by (intros ->; rewrite !Rmult_0_l in E; assert (0 < r * r) by nra; lra).
      rewrite Rmult_0_l, Rplus_0_l in E. destruct (Rlt_bool_spec 0 y) as [Y|Y].
      * rewrite cos_PI2, sin_PI2. assert (r = y) by nra. subst. ands; try (field; lra); lra.
      * rewrite Rlt_bool_true by lra. rewrite cos_neg, sin_neg, cos_PI2, sin_PI2. assert (r = - y) by nra. subst. ands; try (field; lra); lra.
Qed.
Lemma angle_unique a b : - PI < a <= PI -> - PI < b <= PI -> cos a = cos b -> sin a = sin b -> a = b.
Proof.
  intros A B C S. assert (D : cos (a - b) = 1). { rewrite cos_minus, C, S. pose proof (sin2_cos2 b) as H. unfold Rsqr in H. lra. }
  assert (E : sin ((a - b) / 2) = 0).
  { destruct (half_angle (a - b)) as (X & _ & Y). assert (sin ((a - b) / 2) * sin ((a - b) / 2) = 0) as Z by lra.
    apply Rmult_integral in Z. tauto. }
  destruct (Rtotal_order ((a - b) / 2) 0) as [L|[L|L]]; [|lra|]; exfalso.
  - pose proof (sin_lt_0_var ((a - b) / 2)). lra.
  - pose proof (sin_gt_0 ((a - b) / 2)). lra.
Qed.
Lemma Ratan2_angle k a : 0 < k -> - PI < a <= PI -> Ratan2 (k * sin a) (k * cos a) = a.
Proof.
  intros K A. pose proof (sin2_cos2 a) as H. unfold Rsqr in H.
  destruct (Ratan2_polar (k * sin a) (k * cos a) k K) as (C & S & B).
  { transitivity (k * k * (sin a * sin a + cos a * cos a)); [rewrite H|]; ring. }
  apply angle_unique; [exact B|exact A|rewrite C|rewrite S]; field; lra.
Qed.
Lemma quat_euler_eq (p y r : R) : quat_euler RS (V3 p y r) =
  quat_mul RS (quat_mul RS (angleAxis RS r (V3 0 0 1)) (angleAxis RS y (V3 0 1 0))) (angleAxis RS p (V3 1 0 0)).
Proof. rewrite !angleAxis_eq. ms. replace (p * (5 / 10)) with (p / 2) by field. replace (y * (5 / 10)) with (y / 2) by field.
  replace (r * (5 / 10)) with (r / 2) by field. parts; field. Qed.
Lemma unit_axes a : unit_quat (angleAxis RS a (V3 0 0 1)) /\ unit_quat (angleAxis RS a (V3 0 1 0)) /\ unit_quat (angleAxis RS a (V3 1 0 0)).
Proof. ands; apply angleAxis_unit; apply norm1_ip; ms; ring. Qed.
Lemma euler_unit e : unit_quat (quat_euler RS e).
Proof. destruct e as [p y r]. rewrite quat_euler_eq. repeat apply unit_mul; apply unit_axes. Qed.
(** the entries of the Euler rotation that the extraction reads *)
Lemma euler_entries (p y r : R) : let q := quat_euler RS (V3 p y r) in
  2 * (qy q * qz q + qw q * qx q) = cos y * sin p /\
  qw q * qw q - qx q * qx q - qy q * qy q + qz q * qz q = cos y * cos p /\
  - (2) * (qx q * qz q - qw q * qy q) = sin y /\
  2 * (qx q * qy q + qw q * qz q) = cos y * sin r /\
  qw q * qw q + qx q * qx q - qy q * qy q - qz q * qz q = cos y * cos r.
Proof.
  cbv zeta. rewrite quat_euler_eq, !angleAxis_eq.
  destruct (half_angle p) as (-> & -> & P), (half_angle y) as (-> & -> & Y), (half_angle r) as (-> & -> & Rr). ms.
  revert P Y Rr. generalize (sin (p / 2)) (cos (p / 2)) (sin (y / 2)) (cos (y / 2)) (sin (r / 2)) (cos (r / 2)).
  intros sp cp sy cy sr cr P Y Rr.
  assert (P' : cp * cp = 1 - sp * sp) by lra. assert (Y' : cy * cy = 1 - sy * sy) by lra. assert (R' : cr * cr = 1 - sr * sr) by lra.
  ands; field_simplify; replace (cp ^ 2) with (1 - sp * sp) by (rewrite <- P'; ring); replace (cy ^ 2) with (1 - sy * sy) by (rewrite <- Y'; ring);
    replace (cr ^ 2) with (1 - sr * sr) by (rewrite <- R'; ring); field.
Qed.
Lemma euler_entries' (p y r : R) (q : quat R) : quat_euler RS (V3 p y r) = q ->
  2 * (qy q * qz q + qw q * qx q) = cos y * sin p /\
  qw q * qw q - qx q * qx q - qy q * qy q + qz q * qz q = cos y * cos p /\
  - (2) * (qx q * qz q - qw q * qy q) = sin y /\
  2 * (qx q * qy q + qw q * qz q) = cos y * sin r /\
  qw q * qw q + qx q * qx q - qy q * qy q - qz q * qz q = cos y * cos r.
Proof. intros <-. apply euler_entries. Qed.
Lemma yaw_arg q : unit_quat q -> -1 <= - (2) * (qx q * qz q - qw q * qy q) <= 1.
Proof.
  intros U. apply unit_quat_eq in U. destruct q as [x y z w]. cbn in *.
  pose proof (Rle_0_sqr (w - y)). pose proof (Rle_0_sqr (x + z)). pose proof (Rle_0_sqr (w + y)). pose proof (Rle_0_sqr (x - z)). unfold Rsqr in *. lra.
Qed.
Lemma clamp_id x : -1 <= x <= 1 -> clamp_f RS x (- (1))%R 1%R = x.
Proof.
  intros H. unfold clamp_f, min_f, max_f. change (@slt RS) with Rlt_bool. rewrite (Rlt_bool_false x (- (1))) by lra.
  rewrite (Rlt_bool_false 1 x) by lra. reflexivity.
Qed.
Lemma yaw_eq q : unit_quat q -> yaw RS q = asin (- (2) * (qx q * qz q - qw q * qy q)).
Proof.
  intros U. unfold yaw. change (asin_f RS) with asin. f_equal. exact (clamp_id _ (yaw_arg q U)).
Qed.

(** C58: quat(vec3) is the unit quaternion of the rotation about x, then y, then z, and eulerAngles inverts it. *)
Lemma C58_euler_pf : forall p y r : R,
  unit_quat (quat_euler RS (V3 p y r)) /\
  quat_euler RS (V3 p y r) = ham (ham (angleAxis RS r (V3 0 0 1)) (angleAxis RS y (V3 0 1 0))) (angleAxis RS p (V3 1 0 0)) /\
  (forall v, quat_mul_vec RS (quat_euler RS (V3 p y r)) v =
     quat_mul_vec RS (angleAxis RS r (V3 0 0 1)) (quat_mul_vec RS (angleAxis RS y (V3 0 1 0)) (quat_mul_vec RS (angleAxis RS p (V3 1 0 0)) v))) /\
  (- PI < p <= PI -> - (PI / 2) < y < PI / 2 -> - PI < r <= PI -> eulerAngles RS (quat_euler RS (V3 p y r)) = V3 p y r).
Proof.
  intros p y r. ands.
  - apply euler_unit.
  - rewrite quat_euler_eq, !mul_is_ham. reflexivity.
  - intros v. rewrite quat_euler_eq. apply l3_inj. destruct C54_composition_pf as (C & _).
    assert (M : forall a b w, unit_quat a -> unit_quat b -> quat_mul_vec RS (quat_mul RS a b) w = quat_mul_vec RS a (quat_mul_vec RS b w)).
    { intros. now apply C. }
    rewrite !M; auto; try apply unit_mul; apply unit_axes.
  - intros Hp Hy Hr. destruct (euler_entries p y r) as (E1 & E2 & E3 & E4 & E5). pose proof (euler_unit (V3 p y r)) as U.
    assert (Cy : 0 < cos y) by (apply cos_gt_0; lra).
    revert E1 E2 E3 E4 E5 U. generalize (quat_euler RS (V3 p y r)). intros q E1 E2 E3 E4 E5 U. unfold eulerAngles. parts.
    + unfold pitch. cbv zeta.
      change (@smul RS) with Rmult. change (@sadd RS) with Rplus. change (@ssub RS) with Rminus. change (@slit RS 2%Z 0%Z) with 2%R. change (@slit RS 0%Z 0%Z) with 0%R.
      rewrite E1, E2. change (atan2_f RS) with Ratan2. change (@seq RS) with Req_bool.
      destruct (Req_bool_spec (cos y * cos p) 0) as [A|A]; [destruct (Req_bool_spec (cos y * sin p) 0) as [B|B]|]; cbn [andb].
      * exfalso. apply Rmult_integral in A. apply Rmult_integral in B. pose proof (sin2_cos2 p) as H. unfold Rsqr in H. destruct A, B; nra.
      * now apply Ratan2_angle.
      * now apply Ratan2_angle.
    + etransitivity; [apply (yaw_eq q U)|]. etransitivity; [apply (f_equal asin E3)|]. apply asin_sin. lra.
    + unfold roll. change (@smul RS) with Rmult. change (@sadd RS) with Rplus. change (@ssub RS) with Rminus. change (@slit RS 2%Z 0%Z) with 2%R.
      rewrite E4, E5. change (atan2_f RS) with Ratan2. now apply Ratan2_angle.
Qed.
(*PROPS
Example C58_ex : eulerAngles RS (quat_euler RS (V3 3 (-1) 2)) = V3 3 (-1) 2.
Proof. pose proof PI2_3_2. pose proof PI_4. apply C58_euler_pf; lra. Qed.

PROPS*)
Lemma rot_determined a b c d e f g h i d' e' g' h' :
  rot_eqs a b c d e f g h i -> rot_eqs a b c d' e' f g' h' i -> a * a + b * b <> 0 -> d = d' /\ e = e' /\ g = g' /\ h = h'.
Proof.
  intros ((_&_&_&A1&A2&_) & _ & (_&_&_&_&_&A3&_&_&A4)) ((_&_&_&B1&B2&_) & _ & (_&_&_&_&_&B3&_&_&B4)) N.
  assert (P : a * (d - d') + b * (e - e') = 0) by lra. assert (Q : a * (e - e') - b * (d - d') = 0) by lra.
  assert (P' : a * (g - g') + b * (h - h') = 0) by lra. assert (Q' : b * (g - g') - a * (h - h') = 0) by lra.
  assert (Z : forall u, (a * a + b * b) * u = 0 -> u = 0) by (intros u H; apply Rmult_integral in H; tauto).
  ands; apply Rminus_diag_uniq; apply Z.
  - transitivity (a * (a * (d - d') + b * (e - e')) - b * (a * (e - e') - b * (d - d'))); [ring|rewrite P, Q; ring].
  - transitivity (b * (a * (d - d') + b * (e - e')) + a * (a * (e - e') - b * (d - d'))); [ring|rewrite P, Q; ring].
  - transitivity (a * (a * (g - g') + b * (h - h')) + b * (b * (g - g') - a * (h - h'))); [ring|rewrite P', Q'; ring].
  - transitivity (b * (a * (g - g') + b * (h - h')) - a * (b * (g - g') - a * (h - h'))); [ring|rewrite P', Q'; ring].
Qed.
Lemma same_cast p q : unit_quat p -> unit_quat q -> mat3_cast RS p = mat3_cast RS q -> p = q \/ p = quat_neg RS q.
Proof.
  intros U V E. assert (NN : forall r, quat_neg RS (quat_neg RS r) = r) by (intros; vdestruct; ms; parts; ring).
  destruct (cast_pm p U) as [A|A], (cast_pm q V) as [B|B]; rewrite E in A; rewrite A in B.
  - now left.
  - now right.
  - right. rewrite <- B. symmetry. apply NN.
  - left. apply (f_equal (quat_neg RS)) in B. rewrite !NN in B. exact B.
Qed.
Definition e_sp (q : quat R) := 2 * (qy q * qz q + qw q * qx q).
Definition e_cp (q : quat R) := qw q * qw q - qx q * qx q - qy q * qy q + qz q * qz q.
Definition e_sy (q : quat R) := - (2) * (qx q * qz q - qw q * qy q).
Definition e_sr (q : quat R) := 2 * (qx q * qy q + qw q * qz q).
Definition e_cr (q : quat R) := qw q * qw q + qx q * qx q - qy q * qy q - qz q * qz q.
Lemma cast_entries q : unit_quat q -> exists d e g h,
  mat3_cast RS q = M3 (V3 (e_cr q) (e_sr q) (- e_sy q)) (V3 d e (e_sp q)) (V3 g h (e_cp q)).
Proof.
  intros U. apply unit_quat_eq in U. destruct q as [x y z w]. cbn in U. do 4 eexists. ms. parts; try reflexivity; try ring; lra.
Qed.
Lemma e_norms q : unit_quat q -> e_cp q * e_cp q + e_sp q * e_sp q = 1 - e_sy q * e_sy q /\
  e_cr q * e_cr q + e_sr q * e_sr q = 1 - e_sy q * e_sy q.
Proof.
  intros U. apply unit_quat_eq in U. destruct q as [x y z w]. unfold e_cp, e_sp, e_sy, e_cr, e_sr. cbn in *.
  split.
  - transitivity ((x * x + y * y + z * z + w * w) * (x * x + y * y + z * z + w * w) - 4 * (x * z - w * y) * (x * z - w * y)); [ring|rewrite U; ring].
  - transitivity ((x * x + y * y + z * z + w * w) * (x * x + y * y + z * z + w * w) - 4 * (x * z - w * y) * (x * z - w * y)); [ring|rewrite U; ring].
Qed.
Lemma pitch_eq q : pitch RS q = if Req_bool (e_cp q) 0 && Req_bool (e_sp q) 0 then 2 * Ratan2 (qx q) (qw q) else Ratan2 (e_sp q) (e_cp q).
Proof. reflexivity. Qed.
Lemma roll_eq q : roll RS q = Ratan2 (e_sr q) (e_cr q).
Proof. reflexivity. Qed.

(** C58: quat(eulerAngles(q)) is q or -q, the same rotation, for every unit quaternion, gimbal lock included; the
    angles lie in their ranges away from gimbal lock. *)
Lemma C58_roundtrip_pf : forall q, unit_quat q ->
  (quat_euler RS (eulerAngles RS q) = q \/ quat_euler RS (eulerAngles RS q) = quat_neg RS q) /\
  - (PI / 2) <= yaw RS q <= PI / 2 /\ - PI < roll RS q <= PI /\
  (Rabs (yaw RS q) < PI / 2 -> - PI < pitch RS q <= PI).
Proof.
  intros q U. pose proof (yaw_eq q U) as Yw. fold (e_sy q) in Yw. pose proof (yaw_arg q U) as B. fold (e_sy q) in B.
  destruct (e_norms q U) as [N1 N2]. unfold eulerAngles.
  assert (SY : sin (yaw RS q) = e_sy q) by (rewrite Yw; now apply sin_asin).
  assert (CY : cos (yaw RS q) = sqrt (1 - e_sy q * e_sy q)) by (rewrite Yw; rewrite cos_asin by exact B; reflexivity).
  assert (RY : - (PI / 2) <= yaw RS q <= PI / 2) by (rewrite Yw; pose proof (asin_bound (e_sy q)); lra).
  destruct (Req_dec (e_sy q * e_sy q) 1) as [L|L].
  - (* gimbal lock *)
    assert (Z1 : e_cp q = 0 /\ e_sp q = 0 /\ e_cr q = 0 /\ e_sr q = 0).
    { pose proof (Rle_0_sqr (e_cp q)). pose proof (Rle_0_sqr (e_sp q)). pose proof (Rle_0_sqr (e_cr q)). pose proof (Rle_0_sqr (e_sr q)). unfold Rsqr in *.
      assert (Z : forall x, x * x = 0 -> x = 0) by (intros x H'; apply Rmult_integral in H'; tauto).
      ands; apply Z; lra. }
    destruct Z1 as (Z1 & Z2 & Z3 & Z4).
    assert (PT : pitch RS q = 2 * Ratan2 (qx q) (qw q)) by (rewrite pitch_eq, Z1, Z2, Req_bool_true by reflexivity; reflexivity).
    assert (RL : roll RS q = 0).
    { rewrite roll_eq, Z3, Z4. unfold Ratan2. rewrite Rlt_bool_false by lra. reflexivity. }
    assert (YL : exists s, s * s = 1 /\ e_sy q = s /\ s * (PI / 2) = yaw RS q).
    { assert ((e_sy q - 1) * (e_sy q + 1) = 0) as Z by lra. apply Rmult_integral in Z. destruct Z as [Z|Z]; [exists 1|exists (-1)]; (ands; [ring|lra|]); rewrite Yw.
      - replace (e_sy q) with 1 by lra. rewrite asin_1. ring.
      - replace (e_sy q) with (Ropp 1) by lra. rewrite asin_opp, asin_1. ring. }
    destruct YL as (s & S1 & S2 & S3).
    assert (Rng : Rabs (yaw RS q) = PI / 2).
    { rewrite <- S3, Rabs_mult, (Rabs_pos_eq (PI / 2)) by (pose proof PI_RGT_0; lra).
      assert (Rabs s = 1) as ->; [|ring]. rewrite <- Rabs_R1. rewrite <- S1, Rabs_mult. pose proof (Rabs_pos s).
      assert (Rabs s * Rabs s = 1) by (rewrite <- Rabs_mult, S1; apply Rabs_R1). nra. }
    ands; [|apply RY|apply RY| | |]; try (rewrite RL; pose proof PI_RGT_0; lra); [|intros; lra..].
    left. rewrite PT, RL, <- S3.
    apply unit_quat_eq in U. destruct q as [x y z w]. cbn [qx qy qz qw] in *.
    assert (Hy : y = s * w /\ z = - s * x).
    { unfold e_sy in S2. cbn in S2. assert (Hq : (y - s * w) * (y - s * w) + (z + s * x) * (z + s * x) = 0).
      { transitivity (x * x * (s * s) + y * y + z * z + w * w * (s * s) - s * (2 * (w * y - x * z))); [ring|].
        replace (2 * (w * y - x * z)) with s by lra. rewrite S1. lra. }
      pose proof (Rle_0_sqr (y - s * w)). pose proof (Rle_0_sqr (z + s * x)). unfold Rsqr in *.
      assert (Z : forall u, u * u = 0 -> u = 0) by (intros u H'; apply Rmult_integral in H'; tauto).
      assert (y - s * w = 0) by (apply Z; lra). assert (z + s * x = 0) by (apply Z; lra). split; lra. }
    destruct Hy as [-> ->].
    assert (HU : 1 / 2 = w * w + x * x).
    { assert (x * x + s * s * (w * w) + s * s * (x * x) + w * w = 1) by lra. rewrite S1 in H. lra. }
    set (rr := sqrt (1 / 2)). assert (R1 : rr * rr = 1 / 2) by (apply sqrt_sqrt; lra).
    assert (R2 : 0 < rr) by (apply sqrt_lt_R0; lra).
    destruct (Ratan2_polar x w rr R2) as (C & S & _); [rewrite R1; exact HU|].
    rewrite quat_euler_eq, !angleAxis_eq. cbn [x3 y3 z3].
    replace (2 * Ratan2 x w / 2) with (Ratan2 x w) by field. rewrite C, S.
    replace (0 / 2) with 0 by field. rewrite sin_0, cos_0.
    assert (C4 : cos (s * (PI / 2) / 2) = rr /\ sin (s * (PI / 2) / 2) = s * rr).
    { assert (P4 : cos (PI / 4) = rr /\ sin (PI / 4) = rr).
      { rewrite sin_cos_PI4. assert (cos (PI / 4) = rr); [|tauto]. rewrite cos_PI4. unfold rr, Rdiv. rewrite !Rmult_1_l, sqrt_inv. reflexivity. }
      assert (s = 1 \/ s = -1) as [-> | ->] by (assert ((s - 1) * (s + 1) = 0) as Z by lra; apply Rmult_integral in Z; lra).
      - replace (1 * (PI / 2) / 2) with (PI / 4) by field. rewrite (proj1 P4), (proj2 P4). split; ring.
      - replace (-1 * (PI / 2) / 2) with (- (PI / 4)) by field. rewrite cos_neg, sin_neg, (proj1 P4), (proj2 P4). split; ring. }
    destruct C4 as [-> ->]. clearbody rr. clear - R2. ms. parts; field; lra.
  - (* regular *)
    assert (K2 : 0 < 1 - e_sy q * e_sy q) by (pose proof (Rle_0_sqr (e_cp q)); pose proof (Rle_0_sqr (e_sp q)); unfold Rsqr in *; lra).
    set (k := sqrt (1 - e_sy q * e_sy q)) in *. assert (K : 0 < k) by now apply sqrt_lt_R0.
    assert (KK : k * k = 1 - e_sy q * e_sy q) by (apply sqrt_sqrt; lra).
    destruct (Ratan2_polar (e_sp q) (e_cp q) k K) as (P1 & P2 & P3); [lra|].
    destruct (Ratan2_polar (e_sr q) (e_cr q) k K) as (Q1 & Q2 & Q3); [lra|].
    assert (PT : pitch RS q = Ratan2 (e_sp q) (e_cp q)).
    { rewrite pitch_eq. destruct (Req_bool_spec (e_cp q) 0) as [A|A]; [destruct (Req_bool_spec (e_sp q) 0) as [A'|A']|]; try reflexivity.
      exfalso. rewrite A, A' in N1. lra. }
    ands; [|apply RY|apply RY|apply Q3|apply Q3|rewrite PT; intros; apply P3..].
    pose proof (euler_unit (V3 (pitch RS q) (yaw RS q) (roll RS q))) as V.
    apply same_cast; [exact V|exact U|].
    remember (quat_euler RS (V3 (pitch RS q) (yaw RS q) (roll RS q))) as p eqn:Ep in *. symmetry in Ep.
    pose proof (euler_entries' (pitch RS q) (yaw RS q) (roll RS q) p Ep) as E. clear Ep. 
    destruct E as (E1 & E2 & E3 & E4 & E5).
    rewrite CY, PT, P2 in E1. rewrite CY, PT, P1 in E2. rewrite SY in E3. rewrite CY, roll_eq, Q2 in E4. rewrite CY, roll_eq, Q1 in E5.
    assert (X : forall t, k * (t / k) = t) by (intros; field; lra). rewrite X in E1, E2, E4, E5.
    fold (e_sp p) in E1. fold (e_cp p) in E2. fold (e_sy p) in E3. fold (e_sr p) in E4. fold (e_cr p) in E5.
    pose proof (mat3_cast_rotation p V) as Rp. pose proof (mat3_cast_rotation q U) as Rq.
    destruct (cast_entries p V) as (d & e & g & h & Mp). destruct (cast_entries q U) as (d' & e' & g' & h' & Mq).
    rewrite Mp in *. rewrite Mq in *. rewrite E1, E2, E3, E4, E5 in Rp. rewrite E1, E2, E3, E4, E5. apply rotation_eqs in Rp. apply rotation_eqs in Rq.
    destruct (rot_determined _ _ _ d e _ g h _ d' e' g' h' Rp Rq) as (-> & -> & -> & ->); [cbn [x3 y3 z3 m3c0]; lra|reflexivity].
Qed.

(** C58: whatever the quaternion, in binary32 the argument passed to asin is NaN or in [-1, 1]. *)
Lemma C58_asin_domain_pf : forall (L : Libm) (q : quat f32), exists a : f32,
  yaw (F32 L) q = l_asin L a /\ (is_nan a = false -> -1 <= b2r a <= 1 /\ finite a).
Proof.
  intros L q. eexists. split; [reflexivity|].
  match goal with |- is_nan (clamp_f _ ?x _ _) = false -> _ => generalize x; intros y end. change (car (F32 L)) with f32 in y.
  change (is_nan (clamp_f (F32 L) y (Bopp (f32_lit 1 0)) (f32_lit 1 0)) = false ->
    -1 <= b2r (clamp_f (F32 L) y (Bopp (f32_lit 1 0)) (f32_lit 1 0)) <= 1 /\ finite (clamp_f (F32 L) y (Bopp (f32_lit 1 0)) (f32_lit 1 0))).
  assert (O : ieee_le (Bopp (f32_lit 1 0)) (f32_lit 1 0)) by (apply Bleb_ieee; vm_compute; reflexivity).
  destruct (C16_clamp_pf L y _ _ O) as (A & _ & _ & _ & _ & D). intros N.
  destruct (is_nan y) eqn:Ny; [rewrite D in N by reflexivity; congruence|]. destruct (A eq_refl) as [(_ & _ & X) (_ & _ & Y)].
  revert N X Y. generalize (clamp_f (F32 L) y (Bopp (f32_lit 1 0)) (f32_lit 1 0)). intros z N X Y. change (car (F32 L)) with f32 in z.
  rewrite xr_m1 in X. rewrite xr_1 in Y. assert (F : finite z).
  { destruct z as [?|[]| |? ? ? ?]; try discriminate N; try reflexivity; cbn in X, Y; lra. }
  rewrite xr_finite in X, Y by exact F. split; [split|]; assumption.
Qed.
(** ** C59 *)
Definition dotq (p q : quat R) : R := qx p * qx q + qy p * qy q + qz p * qz q + qw p * qw q.
Lemma dotq_ip p q : dotq p q = ip (lq p) (lq q).
Proof. vdestruct. ms. ring. Qed.

(** C59: in binary32 lerp's assertions fire exactly for t outside [0,1] (NaN included); nothing else can stop it. *)
Lemma C59_lerp_assert_pf : forall (L : Libm) (x y : quat f32) (t : f32),
  (lerp (F32 L) Debug x y t = AssertFail <-> ~ (is_nan t = false /\ 0 <= xr t <= 1)) /\
  (lerp (F32 L) Debug x y t <> AssertFail -> lerp (F32 L) Debug x y t = lerp (F32 L) Release x y t) /\
  is_ret (lerp (F32 L) Release x y t) = true /\
  (nlerp (F32 L) Debug x y t = AssertFail <-> lerp (F32 L) Debug x y t = AssertFail).
Proof.
  intros L x y t.
  set (a := Bleb (f32_lit 0 0) t). set (b := Bleb t (f32_lit 1 0)).
  assert (H : (a = true /\ b = true) <-> (is_nan t = false /\ 0 <= xr t <= 1)).
  { unfold a, b. rewrite !Bleb_ieee. unfold ieee_le. rewrite xr_0, xr_1. split.
    - intros ((_ & ? & ?) & (? & _ & ?)). auto.
    - intros (? & ? & ?). auto 10. }
  rewrite <- H. change (lerp (F32 L) Debug x y t) with
    (bind (cassert Debug a) (fun _ => bind (cassert Debug b) (fun _ => lerp (F32 L) Release x y t))).
  change (nlerp (F32 L) Debug x y t) with
    (bind (bind (cassert Debug a) (fun _ => bind (cassert Debug b) (fun _ => lerp (F32 L) Release x y t))) (fun r => Ret (normalize_q (F32 L) r))).
  assert (RR : exists q, lerp (F32 L) Release x y t = Ret q) by (eexists; reflexivity). destruct RR as [q ->].
  destruct a, b; cbn; intuition congruence.
Qed.

(** C59: lerp is the straight line from x to y; nlerp is the unit vector along it wherever it is not zero. *)
Lemma C59_lerp_pf : forall (b : build) (x y : quat R) (t : R), 0 <= t <= 1 ->
  exists q, lerp RS b x y t = Ret q /\ lq q = vadd (vscale (1 - t) (lq x)) (vscale t (lq y)) /\
  (t = 0 -> q = x) /\ (t = 1 -> q = y) /\
  (~ zeros (lq q) -> exists r, nlerp RS b x y t = Ret r /\ lq r = unit_of (lq q) /\ unit_quat r) /\
  (unit_quat x -> unit_quat y -> -1 < ip (lq x) (lq y) -> ~ zeros (lq q)).
Proof.
  intros b x y t Ht. set (q := quat_add RS (quat_mul_sc RS x (1 - t)%R) (quat_mul_sc RS y t)). exists q.
  assert (E : lerp RS b x y t = Ret q).
  { change (lerp RS b x y t) with (bind (cassert b (Rle_bool 0 t)) (fun _ => bind (cassert b (Rle_bool t 1)) (fun _ => Ret q))).
    rewrite !Rle_bool_true by lra. destruct b; reflexivity. }
  assert (Q : lq q = vadd (vscale (1 - t) (lq x)) (vscale t (lq y))) by (subst q; clear; vdestruct; ents).
  ands.
  - exact E.
  - exact Q.
  - intros ->. subst q. clear. vdestruct. ms. parts; ring.
  - intros ->. subst q. clear. vdestruct. ms. parts; ring.
  - intros Z. exists (normalize_q RS q). ands.
    + unfold nlerp. rewrite E. reflexivity.
    + apply normalize_q_eq.
    + unfold unit_quat. rewrite normalize_q_eq. apply norm1_ip. now apply unit_of_ip.
  - intros Ux Uy D Z. apply ip_zero in Z. rewrite Q in Z. unfold unit_quat in *. apply norm1_ip in Ux. apply norm1_ip in Uy.
    assert (X : ip (vadd (vscale (1 - t) (lq x)) (vscale t (lq y))) (vadd (vscale (1 - t) (lq x)) (vscale t (lq y))) =
      (1 - t) * (1 - t) * ip (lq x) (lq x) + t * t * ip (lq y) (lq y) + 2 * t * (1 - t) * ip (lq x) (lq y)) by (clear; vdestruct; ms; ring).
    rewrite X, Ux, Uy in Z. destruct (Req_dec t 0) as [->|]; [lra|]. destruct (Req_dec t 1) as [->|]; [lra|].
    assert (0 < t * (1 - t)) by (apply Rmult_lt_0_compat; lra).
    assert (0 < t * (1 - t) * (1 + ip (lq x) (lq y))) by (apply Rmult_lt_0_compat; lra).
    pose proof (Rle_0_sqr (1 - t - t)). unfold Rsqr in *. lra.
Qed.

(*PROPS
Example C59_lerp_ex : unit_quat (Quat 0 0 0 1) /\ unit_quat (Quat (3 / 5) 0 0 (4 / 5)) /\
  -1 < ip (lq (Quat 0 0 0 1)) (lq (Quat (3 / 5) 0 0 (4 / 5))).
Proof. split; [|split]; [apply norm1_ip|apply norm1_ip|]; unfold ip; cbn; lra. Qed.

PROPS*)
Lemma dot_q_eq p q : dot_q RS p q = dotq p q.
Proof. vdestruct. ms. ring. Qed.
Definition slerp_to (x y : quat R) : quat R := if Rlt_bool (dotq x y) 0 then quat_neg RS y else y.
Lemma slerp_to_dot x y : dotq x (slerp_to x y) = Rabs (dotq x y).
Proof.
  unfold slerp_to. destruct (Rlt_bool_spec (dotq x y) 0).
  - rewrite Rabs_left by assumption. clear. vdestruct. ms. ring.
  - rewrite Rabs_pos_eq by assumption. reflexivity.
Qed.
Lemma slerp_eq x y (t : R) : slerp RS x y t =
  let z := slerp_to x y in let c := Rabs (dotq x y) in
  if Rlt_bool (1 - / 8388608) c then quat_add RS x (quat_mul_sc RS (quat_sub RS z x) t)
  else let a := acos c in quat_mul_sc RS (quat_add RS (quat_mul_sc RS x (sin ((1 - t) * a))%R) (quat_mul_sc RS z (sin (t * a))%R)) (/ sin a)%R.
Proof.
  unfold slerp. cbv zeta. rewrite dot_q_eq. change (@slt RS) with Rlt_bool. change (@slit RS 0%Z 0%Z) with 0. unfold slerp_to.
  destruct (Rlt_bool_spec (dotq x y) 0) as [H|H].
  - rewrite Rabs_left by exact H. unfold sgt.
    change (@slt RS (@ssub RS (@slit RS 1%Z 0%Z) (c_epsilon RS)) (@sneg RS (dotq x y))) with (Rlt_bool (1 - c_epsilon RS) (- dotq x y)).
    assert (c_epsilon RS = / 8388608) as -> by (cbv -[Rplus Rmult Rminus Ropp Rdiv Rinv IZR]; field).
    destruct (Rlt_bool (1 - / 8388608) (- dotq x y)).
    + clear. vdestruct. ms. parts; ring.
    + change (acos_f RS) with acos. change (sin_f RS) with sin. change (@sneg RS (dotq x y)) with (- dotq x y). change (@ssub RS (@slit RS 1%Z 0%Z) t) with (1 - t).
      change (@smul RS) with Rmult. generalize (sin ((1 - t) * acos (- dotq x y))) (sin (t * acos (- dotq x y))) (sin (acos (- dotq x y))). clear. intros. vdestruct. ms. parts; unfold Rdiv; ring.
  - rewrite Rabs_pos_eq by exact H. unfold sgt.
    change (@slt RS (@ssub RS (@slit RS 1%Z 0%Z) (c_epsilon RS)) (dotq x y)) with (Rlt_bool (1 - c_epsilon RS) (dotq x y)).
    assert (c_epsilon RS = / 8388608) as -> by (cbv -[Rplus Rmult Rminus Ropp Rdiv Rinv IZR]; field).
    destruct (Rlt_bool (1 - / 8388608) (dotq x y)).
    + clear. vdestruct. ms. parts; ring.
    + change (acos_f RS) with acos. change (sin_f RS) with sin. change (@ssub RS (@slit RS 1%Z 0%Z) t) with (1 - t).
      change (@smul RS) with Rmult. generalize (sin ((1 - t) * acos (dotq x y))) (sin (t * acos (dotq x y))) (sin (acos (dotq x y))). clear. intros. vdestruct. ms. parts; unfold Rdiv; ring.
Qed.
Lemma dotq_lin (x z : quat R) a b a' b' k : dotq (quat_mul_sc RS (quat_add RS (quat_mul_sc RS x a) (quat_mul_sc RS z b)) k)
    (quat_mul_sc RS (quat_add RS (quat_mul_sc RS x a') (quat_mul_sc RS z b')) k) =
  k * k * (a * a' * dotq x x + (a * b' + b * a') * dotq x z + b * b' * dotq z z).
Proof. vdestruct. ms. ring. Qed.
Lemma unit_dotq q : unit_quat q <-> dotq q q = 1.
Proof. apply unit_quat_eq. Qed.

(** C59: slerp between unit quaternions starts at x and ends at y or -y, whichever is nearer (ties: y).  Off the linear
    branch (|cos| <= 1 - FLT_EPSILON) it stays on the unit sphere and the angle between its values at s and t is (t-s) times
    the angle between the ends, at most a right angle.  On the linear branch its squared length is within FLT_EPSILON/2
    of one for t in [0,1]. *)
Lemma C59_slerp_pf : forall x y : quat R, unit_quat x -> unit_quat y ->
  let d := ip (lq x) (lq y) in let near := if Rlt_dec d 0 then quat_neg RS y else y in
  slerp RS x y 0 = x /\ slerp RS x y 1 = near /\ 0 <= ip (lq x) (lq near) /\
  (Rabs d <= 1 - / 2 ^ 23 ->
     exists theta, 0 < theta <= PI / 2 /\ cos theta = ip (lq x) (lq near) /\
     forall s t, unit_quat (slerp RS x y t) /\ ip (lq (slerp RS x y s)) (lq (slerp RS x y t)) = cos ((t - s) * theta)) /\
  (1 - / 2 ^ 23 < Rabs d -> forall t, 0 <= t <= 1 ->
     1 - / 2 ^ 24 <= ip (lq (slerp RS x y t)) (lq (slerp RS x y t)) <= 1).
Proof.
  intros x y Ux Uy d near. assert (N : near = slerp_to x y).
  { unfold near, slerp_to, d. rewrite <- dotq_ip. destruct (Rlt_dec (dotq x y) 0); [rewrite Rlt_bool_true by assumption|rewrite Rlt_bool_false by lra]; reflexivity. }
  assert (P : 2 ^ 23 = 8388608) by ring. rewrite P. assert (P4 : / 2 ^ 24 = / 8388608 / 2) by (simpl; lra). rewrite P4.
  rewrite N. clear near N. rewrite <- !dotq_ip. unfold d. clear d. rewrite <- dotq_ip.
  assert (Uz : dotq (slerp_to x y) (slerp_to x y) = 1).
  { unfold slerp_to. destruct (Rlt_bool (dotq x y) 0); [|now apply unit_dotq]. apply unit_dotq. now apply unit_neg. }
  apply unit_dotq in Ux. pose proof (slerp_to_dot x y) as D. pose proof (Rabs_pos (dotq x y)) as Dp.
  pose proof (fun t => slerp_eq x y t) as SE. cbv zeta in SE. rewrite D.
  revert SE D Dp Uz. generalize (slerp_to x y) (Rabs (dotq x y)). intros z c SE D Dp Uz.
  assert (Th : c <= 1 - / 8388608 -> 0 < acos c <= PI / 2 /\ cos (acos c) = c /\ 0 < sin (acos c)).
  { intros Hc. assert (Cc : cos (acos c) = c) by (apply cos_acos; lra).
    assert (A1 : acos c <= PI / 2). { destruct (Rle_or_lt (acos c) (PI / 2)) as [?|G]; [assumption|exfalso]. pose proof (acos_bound c).
      assert (cos (acos c) < 0) by (apply cos_lt_0; lra). lra. }
    assert (A2 : 0 < acos c). { pose proof (acos_bound c). destruct (Req_dec (acos c) 0) as [Z|Z]; [|lra]. rewrite Z, cos_0 in Cc. lra. }
    ands; try assumption. apply sin_gt_0; [assumption|]. pose proof PI_RGT_0. lra. }
  assert (E0 : slerp RS x y 0 = x).
  { rewrite SE. destruct (Rlt_bool_spec (1 - / 8388608) c) as [L|L].
    - clear. vdestruct. ms. parts; ring.
    - destruct (Th L) as (_ & _ & S). rewrite Rminus_0_r, Rmult_1_l, Rmult_0_l, sin_0. revert S. generalize (sin (acos c)). clear. intros k S.
      vdestruct. ms. parts; field; lra. }
  assert (E1 : slerp RS x y 1 = z).
  { rewrite SE. destruct (Rlt_bool_spec (1 - / 8388608) c) as [L|L].
    - clear. vdestruct. ms. parts; ring.
    - destruct (Th L) as (_ & _ & S). rewrite Rminus_diag_eq, Rmult_1_l, Rmult_0_l, sin_0 by reflexivity. revert S. generalize (sin (acos c)). clear. intros k S.
      vdestruct. ms. parts; field; lra. }
  ands; try assumption.
  - intros L. destruct (Th L) as (A & C & S). exists (acos c). ands; try apply A; [exact C|].
    assert (G : forall s t, dotq (slerp RS x y s) (slerp RS x y t) = cos ((t - s) * acos c)).
    { intros s t. rewrite !SE. rewrite Rlt_bool_false by exact L. rewrite dotq_lin, Ux, Uz, D.
      replace ((t - s) * acos c) with (t * acos c - s * acos c) by ring. replace ((1 - s) * acos c) with (acos c - s * acos c) by ring.
      replace ((1 - t) * acos c) with (acos c - t * acos c) by ring. rewrite !sin_minus, cos_minus, C.
      pose proof (sin2_cos2 (acos c)) as Q. unfold Rsqr in Q. rewrite C in Q. revert S Q. generalize (sin (acos c)). intros k S Q.
      assert (Q' : c * c = 1 - k * k) by lra.
      generalize (sin (s * acos c)) (cos (s * acos c)) (sin (t * acos c)) (cos (t * acos c)). intros ss cs st ct.
      apply Rmult_eq_reg_l with (k * k); [|nra]. field_simplify_eq; [|lra]. ring_simplify.
      replace (c ^ 2) with (1 - k * k) by (rewrite <- Q'; ring). ring. }
    intros s t. split; [|rewrite <- dotq_ip; apply G]. apply unit_dotq. rewrite G, Rminus_diag_eq, Rmult_0_l by reflexivity. apply cos_0.
  - intros L t Ht. rewrite <- dotq_ip, !SE, Rlt_bool_true by exact L.
    assert (X : dotq (quat_add RS x (quat_mul_sc RS (quat_sub RS z x) t)) (quat_add RS x (quat_mul_sc RS (quat_sub RS z x) t)) =
      (1 - t) * (1 - t) * dotq x x + 2 * t * (1 - t) * dotq x z + t * t * dotq z z) by (clear; vdestruct; ms; ring).
    rewrite X, Ux, Uz, D. assert (C1 : c <= 1).
    { pose proof (Rle_0_sqr (qx x - qx z)). pose proof (Rle_0_sqr (qy x - qy z)). pose proof (Rle_0_sqr (qz x - qz z)). pose proof (Rle_0_sqr (qw x - qw z)).
      unfold Rsqr, dotq in *. lra. }
    assert (0 <= t * (1 - t)) by (apply Rmult_le_pos; lra). pose proof (Rle_0_sqr (1 - 2 * t)). unfold Rsqr in *.
    assert (0 <= t * (1 - t) * (1 - c)) by (apply Rmult_le_pos; lra).
    assert (t * (1 - t) * (1 - c) <= / 4 * / 8388608) by (apply Rmult_le_compat; lra). lra.
Qed.

(*PROPS
Example C59_slerp_ex : unit_quat (Quat 0 0 0 1) /\ unit_quat (Quat (-3 / 5) 0 0 (-4 / 5)) /\
  Rabs (ip (lq (Quat 0 0 0 1)) (lq (Quat (-3 / 5) 0 0 (-4 / 5)))) <= 1 - / 2 ^ 23.
Proof.
  split; [|split]; [apply norm1_ip|apply norm1_ip|]; unfold ip; cbn; try lra.
  match goal with |- Rabs ?a <= _ => replace a with (- (4 / 5)) by lra end. rewrite Rabs_Ropp, Rabs_pos_eq; lra.
Qed.

PROPS*)
(** C59: the end points of lerp are exact in binary32 (under ==) for finite quaternions. *)
Lemma C59_lerp_endpoints_f32_pf : forall (L : Libm) (b : build) (x y : quat f32), all_finite (lq x) -> all_finite (lq y) ->
  exists p q, lerp (F32 L) b x y (f32_lit 0 0) = Ret p /\ Forall2 ieee_eq (lq p) (lq x) /\
    lerp (F32 L) b x y (f32_lit 1 0) = Ret q /\ Forall2 ieee_eq (lq q) (lq y).
Proof.
  intros L b x y Fx Fy. destruct x as [x0 x1 x2 x3'], y as [y0 y1 y2 y3']. unfold lq in Fx, Fy. cbn [qx qy qz qw] in Fx, Fy. finites.
  assert (Z : bsub (f32_lit 1 0) (f32_lit 0 0) = f32_lit 1 0) by f32_eq.
  assert (O : bsub (f32_lit 1 0) (f32_lit 1 0) = f32_lit 0 0) by f32_eq.
  set (mk := fun u t : f32 => let f a c := badd (bmul a u) (bmul c t) in Quat (f x0 y0) (f x1 y1) (f x2 y2) (f x3' y3')).
  assert (A : forall u t, mk u t = Quat (badd (bmul x0 u) (bmul y0 t)) (badd (bmul x1 u) (bmul y1 t)) (badd (bmul x2 u) (bmul y2 t)) (badd (bmul x3' u) (bmul y3' t))) by reflexivity.
  assert (B : forall t, Bleb (f32_lit 0 0) t = true -> Bleb t (f32_lit 1 0) = true ->
    lerp (F32 L) b (Quat x0 x1 x2 x3') (Quat y0 y1 y2 y3') t = Ret (mk (bsub (f32_lit 1 0) t) t)).
  { intros t T1 T2. change (lerp (F32 L) b (Quat x0 x1 x2 x3') (Quat y0 y1 y2 y3') t) with
      (bind (cassert b (Bleb (f32_lit 0 0) t)) (fun _ => bind (cassert b (Bleb t (f32_lit 1 0))) (fun _ => Ret (mk (bsub (f32_lit 1 0) t) t)))).
    rewrite T1, T2. destruct b; reflexivity. }
  exists (mk (f32_lit 1 0) (f32_lit 0 0)), (mk (f32_lit 0 0) (f32_lit 1 0)). ands.
  - rewrite B, Z by (vm_compute; reflexivity). reflexivity.
  - rewrite A. unfold lq. cbn [qx qy qz qw]. repeat apply Forall2_cons; try apply Forall2_nil; (apply ex_eq; [assumption|exactness]).
  - rewrite B, O by (vm_compute; reflexivity). reflexivity.
  - rewrite A. unfold lq. cbn [qx qy qz qw]. repeat apply Forall2_cons; try apply Forall2_nil; (apply ex_eq; [assumption|exactness]).
Qed.

(** ** C60 *)
Lemma dot3_ip (a b : vec3 R) : dot3 RS a b = ip (l3 a) (l3 b).
Proof. vdestruct. ms. ring. Qed.
Lemma n_sqrt (u v : vec3 R) : sqrt (dot3 RS u u * dot3 RS v v)%R = norm (l3 u) * norm (l3 v).
Proof. rewrite !dot3_ip. unfold norm. apply sqrt_mult; apply ip_pos. Qed.
Definition ft_axis (u : vec3 R) : vec3 R := if Rlt_bool (Rabs (z3 u)) (Rabs (x3 u)) then V3 (- y3 u) (x3 u) 0 else V3 0 (- z3 u) (y3 u).
Lemma from_to_eq (u v : vec3 R) : let n := norm (l3 u) * norm (l3 v) in let d := ip (l3 u) (l3 v) in
  quat_from_to RS u v = normalize_q RS
  (if Rlt_bool (n + d) (1 / 1000000 * n) then Quat (x3 (ft_axis u)) (y3 (ft_axis u)) (z3 (ft_axis u)) 0
   else Quat (x3 (cross RS u v)) (y3 (cross RS u v)) (z3 (cross RS u v)) (n + d)).
Proof.
  cbv zeta. unfold quat_from_to. cbv zeta. change (sqrt_f RS) with sqrt. change (@smul RS (dot3 RS u u) (dot3 RS v v)) with (dot3 RS u u * dot3 RS v v)%R.
  rewrite n_sqrt, dot3_ip. generalize (norm (l3 u) * norm (l3 v)) (ip (l3 u) (l3 v)). intros n d.
  change (@slt RS (@sadd RS n d) (@smul RS (@slit RS 1%Z (-6)%Z) n)) with (Rlt_bool (n + d) (1 / 1000000 * n)).
  destruct (Rlt_bool (n + d) (1 / 1000000 * n)); [|reflexivity]. unfold ft_axis. unfold sgt.
  change (@slt RS (abs_f RS (z3 u)) (abs_f RS (x3 u))) with (Rlt_bool (Rabs (z3 u)) (Rabs (x3 u))).
  destruct (Rlt_bool (Rabs (z3 u)) (Rabs (x3 u))); reflexivity.
Qed.
Lemma ft_axis_ok (u : vec3 R) : ~ zeros (l3 u) -> ip (l3 (ft_axis u)) (l3 u) = 0 /\ ~ zeros (l3 (ft_axis u)).
Proof.
  intros Zu. unfold ft_axis. destruct (Rlt_bool_spec (Rabs (z3 u)) (Rabs (x3 u))) as [H|H].
  - split; [clear; vdestruct; ms; ring|]. intros Z. assert (x3 u = 0) as E by (unfold zeros, l3 in Z; cbn [x3 y3 z3] in Z; rewrite !Forall_cons_iff in Z; tauto).
    rewrite E, Rabs_R0 in H. pose proof (Rabs_pos (z3 u)). lra.
  - split; [clear; vdestruct; ms; ring|]. intros Z. assert (Ez : z3 u = 0 /\ y3 u = 0).
    { unfold zeros, l3 in Z; cbn [x3 y3 z3] in Z. rewrite !Forall_cons_iff in Z. destruct Z as (_ & Z1 & Z2 & _). split; lra. }
    destruct Ez as [Ez Ey]. rewrite Ez, Rabs_R0 in H. assert (Ex : x3 u = 0) by (destruct (Req_dec (x3 u) 0) as [?|X]; [assumption|apply Rabs_pos_lt in X; lra]).
    apply Zu. destruct u as [a b c]. cbn in *. subst. repeat apply Forall_cons; auto.
Qed.
Lemma norm_quat (q : quat R) k : 0 < k -> k * k = qn q -> normalize_q RS q = Quat (qx q / k) (qy q / k) (qz q / k) (qw q / k) /\ unit_quat (normalize_q RS q).
Proof.
  intros K E. assert (L : length_q RS q = k).
  { rewrite <- (sqrt_square k) by lra. rewrite E. destruct q as [x y z w]. ms; try reflexivity; f_equal; ring. }
  assert (X : normalize_q RS q = Quat (qx q / k) (qy q / k) (qz q / k) (qw q / k)).
  { unfold normalize_q. rewrite L. clear. destruct q. reflexivity. }
  split; [exact X|]. rewrite X. apply unit_qn. destruct q as [x y z w]. unfold qn in *. cbn [qx qy qz qw] in *.
  transitivity ((x * x + y * y + z * z + w * w) / (k * k)); [field; lra|]. rewrite E. field. rewrite <- E. nra.
Qed.

Lemma half_turn (w u : vec3 R) : ip (l3 w) (l3 u) = 0 -> ip (l3 w) (l3 w) = 1 ->
  l3 (quat_mul_vec RS (Quat (x3 w) (y3 w) (z3 w) 0) u) = vscale (-1) (l3 u).
Proof.
  destruct w as [a b c], u as [x y z]. intros O U. ms_in O. ms_in U. ms. parts.
  - transitivity (x - 2 * (x * (a * a + (b * b + (c * c + 0))) - a * (a * x + (b * y + (c * z + 0))))); [ring|rewrite O, U; ring].
  - transitivity (y - 2 * (y * (a * a + (b * b + (c * c + 0))) - b * (a * x + (b * y + (c * z + 0))))); [ring|rewrite O, U; ring].
  - transitivity (z - 2 * (z * (a * a + (b * b + (c * c + 0))) - c * (a * x + (b * y + (c * z + 0))))); [ring|rewrite O, U; ring].
Qed.
Lemma turn_gen (u v : vec3 R) n k : 0 < n -> n * n = ip (l3 u) (l3 u) * ip (l3 v) (l3 v) -> 0 < n + ip (l3 u) (l3 v) ->
  k * k = 2 * n * (n + ip (l3 u) (l3 v)) -> k <> 0 ->
  l3 (quat_mul_vec RS (Quat (x3 (cross RS u v) / k) (y3 (cross RS u v) / k) (z3 (cross RS u v) / k) ((n + ip (l3 u) (l3 v)) / k)) u) =
  vscale (ip (l3 u) (l3 u) / n) (l3 v).
Proof.
  intros Hn N Hr K Nk. set (d := ip (l3 u) (l3 v)) in *. set (U := ip (l3 u) (l3 u)) in *.
  assert (E : l3 (quat_mul_vec RS (Quat (x3 (cross RS u v) / k) (y3 (cross RS u v) / k) (z3 (cross RS u v) / k) ((n + d) / k)) u) =
    vadd (l3 u) (vscale (2 / (k * k)) (vsub (vscale (n + d) (vsub (vscale U (l3 v)) (vscale d (l3 u)))) (vscale (U * ip (l3 v) (l3 v) - d * d) (l3 u))))).
  { generalize (n + d). intros r. subst d U. clear - Nk. destruct u as [a b c], v as [x y z]. ms. parts; field; exact Nk. }
  rewrite E, <- N, K. clearbody d U. clear - Hn Hr. destruct u as [a b c], v as [x y z]. ms. parts; field; lra.
Qed.
Lemma qn_cross (u v : vec3 R) n : n * n = ip (l3 u) (l3 u) * ip (l3 v) (l3 v) ->
  qn (Quat (x3 (cross RS u v)) (y3 (cross RS u v)) (z3 (cross RS u v)) (n + ip (l3 u) (l3 v))) = 2 * n * (n + ip (l3 u) (l3 v)).
Proof.
  intros N. transitivity (ip (l3 u) (l3 u) * ip (l3 v) (l3 v) + n * n + 2 * n * ip (l3 u) (l3 v)); [|rewrite <- N; ring].
  clear. vdestruct. ms. ring.
Qed.

(** C60: quat(u, v) is a unit quaternion that turns u onto the ray of v, exactly unless the vectors are within the cone
    u.v < -(1 - 10^-6) |u||v|, and there up to 2 * 10^-6 (squared distance of the directions); in that cone it is a half
    turn, and exactly opposite vectors are turned exactly. *)
Lemma C60_between_pf : forall u v : vec3 R, ~ zeros (l3 u) -> ~ zeros (l3 v) ->
  let q := quat_from_to RS u v in let n := norm (l3 u) * norm (l3 v) in let d := ip (l3 u) (l3 v) in
  let gap := vsub (unit_of (l3 (quat_mul_vec RS q u))) (unit_of (l3 v)) in
  unit_quat q /\
  (- (1 - / 1000000) * n <= d -> l3 (quat_mul_vec RS q u) = vscale (norm (l3 u) / norm (l3 v)) (l3 v)) /\
  ip gap gap <= 2 * / 1000000 /\
  (d < - (1 - / 1000000) * n -> qw q = 0 /\ l3 (quat_mul_vec RS q u) = vscale (-1) (l3 u)) /\
  (d = - n -> qw q = 0 /\ l3 (quat_mul_vec RS q u) = vscale (norm (l3 u) / norm (l3 v)) (l3 v)).
Proof.
  intros u v Zu Zv q n d gap. pose proof (norm_nz _ Zu) as Pu. pose proof (norm_nz _ Zv) as Pv.
  assert (Pn : 0 < n) by now apply Rmult_lt_0_compat.
  assert (Sn : n * n = ip (l3 u) (l3 u) * ip (l3 v) (l3 v)) by (unfold n; rewrite <- !norm_sq; ring).
  assert (Gap : forall w : vec3 R, norm (l3 w) = norm (l3 u) ->
    ip (vsub (unit_of (l3 w)) (unit_of (l3 v))) (vsub (unit_of (l3 w)) (unit_of (l3 v))) = 2 - 2 * ip (l3 w) (l3 v) / n).
  { intros w Hw. unfold unit_of. rewrite Hw.
    assert (X : forall a b, ip (vsub (vscale a (l3 w)) (vscale b (l3 v))) (vsub (vscale a (l3 w)) (vscale b (l3 v))) =
      a * a * ip (l3 w) (l3 w) + b * b * ip (l3 v) (l3 v) - 2 * a * b * ip (l3 w) (l3 v)) by (clear; intros; vdestruct; ms; ring).
    rewrite X, <- !norm_sq, Hw. unfold n. field. lra. }
  unfold q. pose proof (from_to_eq u v) as Q. cbv zeta in Q. fold n d in Q.
  destruct (Rlt_bool_spec (n + d) (1 / 1000000 * n)) as [L|L].
  - destruct (ft_axis_ok u Zu) as [Ox Nx]. pose proof (norm_nz _ Nx) as Px.
    destruct (norm_quat (Quat (x3 (ft_axis u)) (y3 (ft_axis u)) (z3 (ft_axis u)) 0) (norm (l3 (ft_axis u))) Px) as [E U].
    { rewrite norm_sq. generalize (ft_axis u). clear. intros. vdestruct. ms. ring. }
    rewrite <- Q in E, U. cbn [qx qy qz qw] in E.
    assert (T : @l3 R (quat_mul_vec RS (quat_from_to RS u v) u) = vscale (-1) (l3 u)).
    { rewrite E. unfold Rdiv at 4. rewrite Rmult_0_l. set (k := norm (l3 (ft_axis u))) in *.
      apply (half_turn (V3 (x3 (ft_axis u) / k) (y3 (ft_axis u) / k) (z3 (ft_axis u) / k)) u).
      - transitivity (/ k * ip (l3 (ft_axis u)) (l3 u)); [|rewrite Ox; ring]. clearbody k. generalize (ft_axis u). clear. intros. vdestruct. ms. unfold Rdiv. ring.
      - transitivity (ip (l3 (ft_axis u)) (l3 (ft_axis u)) / (k * k)).
        + clearbody k. revert Px. generalize (ft_axis u). clear. intros. vdestruct. ms. field. lra.
        + unfold k. rewrite norm_sq. field. rewrite <- norm_sq. fold k. nra. }
    assert (W0 : qw (quat_from_to RS u v) = 0) by (rewrite E; cbn [qw]; unfold Rdiv; apply Rmult_0_l).
    ands.
    + exact U.
    + intros. exfalso. lra.
    + unfold gap, q. eapply Rle_trans; [apply Req_le, (Gap (quat_mul_vec RS (quat_from_to RS u v) u))|].
      * rewrite T. unfold vscale. rewrite norm_scale. rewrite Rabs_left by lra. ring.
      * rewrite T. unfold vscale. rewrite ip_scale_l. fold d.
        replace (2 - 2 * (-1 * d) / n) with (2 * ((n + d) * / n)) by (field; lra).
        assert ((n + d) * / n <= / 1000000); [|lra]. apply Rmult_le_reg_r with n; [exact Pn|]. rewrite Rmult_assoc, Rinv_l by lra. lra.
    + intros _. auto.
    + intros D. split; [exact W0|]. etransitivity; [exact T|].
      (* equality in Cauchy-Schwarz: v is a negative multiple of u *)
      assert (Z : ip (vadd (vscale (norm (l3 u)) (l3 v)) (vscale (norm (l3 v)) (l3 u))) (vadd (vscale (norm (l3 u)) (l3 v)) (vscale (norm (l3 v)) (l3 u))) = 0).
      { assert (X : forall a b, ip (vadd (vscale a (l3 v)) (vscale b (l3 u))) (vadd (vscale a (l3 v)) (vscale b (l3 u))) =
          a * a * ip (l3 v) (l3 v) + b * b * ip (l3 u) (l3 u) + 2 * a * b * ip (l3 u) (l3 v)) by (clear; intros; vdestruct; ms; ring).
        rewrite X, <- !norm_sq. fold d. rewrite D. unfold n. ring. }
      apply ip_zero in Z. revert Z Pu Pv. generalize (norm (l3 u)) (norm (l3 v)). clear. intros a b Z Pa Pb.
      destruct u as [u0 u1 u2], v as [v0 v1 v2]. unfold zeros in Z. ms_in Z. rewrite !Forall_cons_iff in Z. destruct Z as (Z0 & Z1 & Z2 & _).
      ms. parts; apply Rmult_eq_reg_r with b; try lra; field_simplify; lra.
  - assert (R0 : 0 < n + d) by lra. set (k := sqrt (2 * n * (n + d))).
    assert (K2 : 0 < 2 * n * (n + d)) by (repeat apply Rmult_lt_0_compat; lra).
    assert (Pk : 0 < k) by now apply sqrt_lt_R0. assert (Kk : k * k = 2 * n * (n + d)) by (apply sqrt_sqrt; lra). clearbody k.
    destruct (norm_quat (Quat (x3 (cross RS u v)) (y3 (cross RS u v)) (z3 (cross RS u v)) (n + d)) k Pk) as [E U].
    { rewrite Kk. symmetry. unfold d. now apply qn_cross. }
    rewrite <- Q in E, U. cbn [qx qy qz qw] in E.
    assert (T : @l3 R (quat_mul_vec RS (quat_from_to RS u v) u) = vscale (norm (l3 u) / norm (l3 v)) (l3 v)).
    { rewrite E. unfold d. rewrite turn_gen; auto; try lra. f_equal. rewrite <- norm_sq. unfold n. field. lra. }
    ands.
    + exact U.
    + intros _. exact T.
    + unfold gap, q. eapply Rle_trans; [apply Req_le, (Gap (quat_mul_vec RS (quat_from_to RS u v) u))|].
      * rewrite T. unfold vscale. rewrite norm_scale, Rabs_pos_eq by (apply Rlt_le, Rdiv_lt_0_compat; lra). field. lra.
      * rewrite T. unfold vscale. rewrite ip_scale_l, <- norm_sq. unfold n.
        replace (2 - 2 * (norm (l3 u) / norm (l3 v) * (norm (l3 v) * norm (l3 v))) / (norm (l3 u) * norm (l3 v))) with 0 by (field; lra). lra.
    + intros. exfalso. lra.
    + intros. exfalso. lra.
Qed.

(*PROPS
(** both regimes occur *)
Example C60_ex : ~ zeros (l3 (V3 1 0 0)) /\ ~ zeros (l3 (V3 0 2 0)) /\
  - (1 - / 1000000) * (norm (l3 (V3 1 0 0)) * norm (l3 (V3 0 2 0))) <= ip (l3 (V3 1 0 0)) (l3 (V3 0 2 0)) /\
  ip (l3 (V3 1 0 0)) (l3 (V3 (-1) 0 0)) = - (norm (l3 (V3 1 0 0)) * norm (l3 (V3 (-1) 0 0))).
Proof.
  assert (N : forall x y z a, 0 <= a -> x * x + y * y + z * z = a * a -> norm (l3 (V3 x y z)) = a).
  { intros x y z a A H. unfold norm. rewrite <- (sqrt_square a) by exact A. f_equal. rewrite <- H. unfold ip. cbn. ring. }
  rewrite (N 1 0 0 1), (N 0 2 0 2), (N (-1) 0 0 1) by lra. ands; try (unfold ip; cbn; lra); cbn; intros Z; inversion Z as [|? ? ? Z1]; subst; try lra.
  inversion Z1. lra.
Qed.

PROPS*)
