(** * Proofs: quaternion algebra *)
From Coq Require Import ZArith Bool Reals List Lra.
From Flocq Require Import Core IEEE754.BinarySingleNaN.
From Verif Require Import Scalar IEEE32 F32Tac RealInst Outcome Types Spec SpecF32 SpecR SpecMat SpecGeo RealTac
  ModelVec ModelQuat ModelGeom ModelMat ModelMatrix ModelQuaternion.
Import ListNotations.
Local Open Scope R_scope.
(*HEADER END*)
From Verif Require Import MatTac.

Lemma unit_quat_eq q : unit_quat q <-> qx q * qx q + qy q * qy q + qz q * qz q + qw q * qw q = 1.
Proof. unfold unit_quat. rewrite norm1_ip. vdestruct. ms. split; intros; lra. Qed.

(** C53: both products are Hamilton's. *)
Lemma C53_hamilton_pf :
  (forall p q, quat_mul RS p q = ham p q) /\
  (forall p q, quat_mul_assign RS (fun _ => q) p = ham p q) /\
  (forall q, quat_mul_assign RS (fun x => x) q = ham q q).
Proof. ands; intros; vdestruct; ms; parts; field. Qed.

(** C53: algebra laws. *)
Lemma C53_algebra_pf :
  (forall p q r, quat_mul RS (quat_mul RS p q) r = quat_mul RS p (quat_mul RS q r)) /\
  (forall q, quat_mul RS q (quat_default RS) = q) /\ (forall q, quat_mul RS (quat_default RS) q = q) /\
  (forall p q r, quat_mul RS p (quat_add RS q r) = quat_add RS (quat_mul RS p q) (quat_mul RS p r)) /\
  (forall p q r, quat_mul RS (quat_add RS p q) r = quat_add RS (quat_mul RS p r) (quat_mul RS q r)) /\
  (forall p q a, quat_mul RS (quat_mul_sc RS p a) q = quat_mul_sc RS (quat_mul RS p q) a) /\
  (forall p q a, quat_mul RS p (sc_mul_quat RS a q) = sc_mul_quat RS a (quat_mul RS p q)) /\
  (forall p q, norm (lq (quat_mul RS p q)) = norm (lq p) * norm (lq q)).
Proof.
  ands; try (intros; vdestruct; ms; parts; field).
  intros p q. unfold norm. rewrite <- sqrt_mult by apply ip_pos. f_equal. vdestruct. ms. field.
Qed.


(** [timesh U a]: adds the equation U multiplied by [a] *)
Ltac timesh U a := let H := fresh "T" in pose proof (f_equal (Rmult a) U) as H.

Lemma act_is_rot q v : unit_quat q -> l3 (quat_mul_vec RS q v) = qrot q (l3 v).
Proof.
  intros U. apply unit_quat_eq in U. vdestruct. cbn [qx qy qz qw] in U. ms.
  timesh U e. timesh U e0. timesh U e1. parts; lra.
Qed.

(** C54: the action of a unit quaternion is v -> q v q*, which has no scalar part. *)
Lemma C54_action_pf :
  (forall q v, unit_quat q -> l3 (quat_mul_vec RS q v) = qrot q (l3 v)) /\
  (forall q v, qw (ham (ham q (qpure v)) (qconj q)) = 0).
Proof.
  split; [exact act_is_rot|]. intros q v. vdestruct. ms.
  generalize (match v with [] => 0 | x :: _ => x end). intros. ring.
Qed.
Definition qn (q : quat R) : R := qx q * qx q + qy q * qy q + qz q * qz q + qw q * qw q.

Lemma rot_ip q (u v : vec3 R) : ip (qrot q (l3 u)) (qrot q (l3 v)) = qn q * qn q * ip (l3 u) (l3 v).
Proof. vdestruct. ms. ring. Qed.
Lemma rot_cross q (u v : vec3 R) : cross_l (qrot q (l3 u)) (qrot q (l3 v)) = vscale (qn q) (qrot q (cross_l (l3 u) (l3 v))).
Proof. vdestruct. ms. parts; ring. Qed.
Lemma rot_ham p q (v : vec3 R) : qrot (ham p q) (l3 v) = qrot p (qrot q (l3 v)).
Proof. vdestruct. ms. parts; ring. Qed.
Lemma rot_conj q (v : vec3 R) : qrot (qconj q) (qrot q (l3 v)) = vscale (qn q * qn q) (l3 v).
Proof. vdestruct. ms. parts; ring. Qed.
Lemma unit_qn q : unit_quat q <-> qn q = 1.
Proof. apply unit_quat_eq. Qed.
Lemma qn_ham p q : qn (ham p q) = qn p * qn q.
Proof. vdestruct. ms. ring. Qed.
Lemma qn_conj q : qn (qconj q) = qn q.
Proof. vdestruct. ms. ring. Qed.
Lemma conj_model q : conjugate RS q = qconj q.
Proof. now vdestruct. Qed.
Lemma inverse_model q : inverse_q RS q = quat_mul_sc RS (qconj q) (/ qn q).
Proof. vdestruct. ms. parts; match goal with |- _ / ?d = _ * / ?d' => replace d with d' by ring; reflexivity end. Qed.
Lemma inverse_unit q : unit_quat q -> inverse_q RS q = qconj q.
Proof. intros U. apply unit_qn in U. rewrite inverse_model, U. vdestruct. ms. parts; field. Qed.
Lemma scale1 (v : vec3 R) : vscale (1 * 1) (l3 v) = l3 v.
Proof. vdestruct. ms. parts; ring. Qed.

(** C54: it preserves inner and cross products, hence lengths, angles and orientation. *)
Lemma C54_isometry_pf : forall q u v, unit_quat q ->
  dot3 RS (quat_mul_vec RS q u) (quat_mul_vec RS q v) = dot3 RS u v /\
  cross RS (quat_mul_vec RS q u) (quat_mul_vec RS q v) = quat_mul_vec RS q (cross RS u v) /\
  norm (l3 (quat_mul_vec RS q u)) = norm (l3 u).
Proof.
  intros q u v U. pose proof (proj1 (unit_qn q) U) as N.
  assert (D : forall a b, dot3 RS a b = ip (l3 a) (l3 b)) by (intros; vdestruct; ms; ring).
  assert (C : forall a b, l3 (cross RS a b) = cross_l (l3 a) (l3 b)) by (intros; vdestruct; ms; parts; ring).
  ands.
  - rewrite !D, !act_is_rot by exact U. rewrite rot_ip, N, !Rmult_1_l. reflexivity.
  - apply l3_inj. rewrite C, !act_is_rot by exact U. rewrite rot_cross, N. rewrite C.
    apply scale_1.
  - unfold norm. f_equal. rewrite !act_is_rot by exact U. rewrite rot_ip, N, !Rmult_1_l. reflexivity.
Qed.

(** C54: products of quaternions act one after the other; q and -q act equally; v * q undoes q * v. *)
Lemma C54_composition_pf :
  (forall p q v, unit_quat p -> unit_quat q -> quat_mul_vec RS (quat_mul RS p q) v = quat_mul_vec RS p (quat_mul_vec RS q v)) /\
  (forall q v, quat_mul_vec RS (quat_neg RS q) v = quat_mul_vec RS q v) /\
  (forall v, quat_mul_vec RS (quat_default RS) v = v) /\
  (forall q v, unit_quat q -> vec_mul_quat RS (quat_mul_vec RS q v) q = v) /\
  (forall q v, unit_quat q -> quat_mul_vec RS q (vec_mul_quat RS v q) = v) /\
  (forall q u v a, quat_mul_vec RS q (vec3_add RS u (vec3_mul_sc RS v a)) =
     vec3_add RS (quat_mul_vec RS q u) (vec3_mul_sc RS (quat_mul_vec RS q v) a)).
Proof.
  assert (H : forall p q, quat_mul RS p q = ham p q) by (intros; vdestruct; ms; parts; field).
  ands.
  - intros p q v Up Uq. apply l3_inj. rewrite H.
    assert (U : unit_quat (ham p q)).
    { apply unit_qn. rewrite qn_ham, (proj1 (unit_qn p) Up), (proj1 (unit_qn q) Uq). ring. }
    etransitivity; [apply (act_is_rot _ _ U)|]. etransitivity; [apply rot_ham|]. symmetry.
    etransitivity; [apply (act_is_rot _ _ Up)|]. f_equal. apply (act_is_rot _ _ Uq).
  - intros. vdestruct. ms. parts; ring.
  - intros. vdestruct. ms. parts; ring.
  - intros q v U. unfold vec_mul_quat. rewrite inverse_unit by exact U. apply l3_inj.
    assert (U' : unit_quat (qconj q)) by (apply unit_qn; rewrite qn_conj; now apply unit_qn).
    etransitivity; [apply (act_is_rot _ _ U')|]. etransitivity; [apply f_equal, (act_is_rot _ _ U)|].
    etransitivity; [apply rot_conj|]. rewrite (proj1 (unit_qn q) U). apply scale1.
  - intros q v U. unfold vec_mul_quat. rewrite inverse_unit by exact U. apply l3_inj.
    assert (U' : unit_quat (qconj q)) by (apply unit_qn; rewrite qn_conj; now apply unit_qn).
    etransitivity; [apply (act_is_rot _ _ U)|]. etransitivity; [apply f_equal, (act_is_rot _ _ U')|].
    transitivity (qrot (qconj (qconj q)) (qrot (qconj q) (l3 v))).
    { f_equal. clear. vdestruct. ms. parts; ring. }
    etransitivity; [apply rot_conj|]. rewrite qn_conj, (proj1 (unit_qn q) U). apply scale1.
  - intros. vdestruct. ms. parts; ring.
Qed.

(** C55: conjugation. *)
Lemma C55_conjugate_pf :
  (forall q, conjugate RS q = qconj q) /\
  (forall q, conjugate RS (conjugate RS q) = q) /\
  (forall p q, conjugate RS (quat_mul RS p q) = quat_mul RS (conjugate RS q) (conjugate RS p)) /\
  (forall p q, conjugate RS (quat_add RS p q) = quat_add RS (conjugate RS p) (conjugate RS q)) /\
  (forall q, norm (lq (conjugate RS q)) = norm (lq q)).
Proof.
  ands; intros; vdestruct; try (ms; parts; field). unfold norm. f_equal. ms. ring.
Qed.

(** C55: the inverse. *)
Lemma C55_inverse_pf :
  (forall q, ~ zeros (lq q) -> quat_mul RS q (inverse_q RS q) = quat_default RS /\ quat_mul RS (inverse_q RS q) q = quat_default RS) /\
  (forall q, unit_quat q -> inverse_q RS q = conjugate RS q) /\
  (forall q, ~ zeros (lq q) -> inverse_q RS (inverse_q RS q) = q) /\
  (forall p q, ~ zeros (lq p) -> ~ zeros (lq q) ->
     inverse_q RS (quat_mul RS p q) = quat_mul RS (inverse_q RS q) (inverse_q RS p)).
Proof.
  assert (Z : forall q, ~ zeros (lq q) -> qn q <> 0).
  { intros q H E. apply H, ip_zero. rewrite <- E. vdestruct. ms. ring. }
  assert (H : forall p q, quat_mul RS p q = ham p q) by (intros; vdestruct; ms; parts; field).
  ands.
  - intros q N. apply Z in N. rewrite !inverse_model, !H. vdestruct. split; ms_in N; ms; parts; field; intros E; apply N; lra.
  - intros q U. etransitivity; [apply inverse_unit, U|]. symmetry. apply conj_model.
  - intros q N. apply Z in N. rewrite (inverse_model q).
    assert (E : qn (quat_mul_sc RS (qconj q) (/ qn q)) = / qn q).
    { transitivity (qn q * (/ qn q * / qn q)); [|field; exact N].
      generalize (/ qn q). intros. vdestruct. ms. ring. }
    rewrite inverse_model, E, Rinv_inv.
    revert N. generalize (qn q) at 1 2 3. intros n N. vdestruct. ms. parts; field; exact N.
  - intros p q Np Nq. apply Z in Np. apply Z in Nq. rewrite !inverse_model, !H, qn_ham.
    rewrite Rinv_mult. generalize (/ qn p) (/ qn q). intros. vdestruct. ms. parts; ring.
Qed.

(** C55: in binary32 conjugate only flips the signs of x, y and z. *)
Lemma C55_conjugate_f32_pf : forall (L : Libm) (q : quat f32),
  conjugate (F32 L) q = Quat (Bopp (qx q)) (Bopp (qy q)) (Bopp (qz q)) (qw q) /\
  conjugate (F32 L) (conjugate (F32 L) q) = q.
Proof.
  intros L q. vdestruct. split; [reflexivity|].
  change (Quat (Bopp (Bopp e)) (Bopp (Bopp e0)) (Bopp (Bopp e1)) e2 = Quat e e0 e1 e2).
  rewrite !Bopp_involutive. reflexivity.
Qed.

(*PROPS
(** a unit quaternion with four nonzero parts *)
Example C54_ex : unit_quat (Quat (1 / 2) (1 / 2) (1 / 2) (1 / 2)).
Proof. unfold unit_quat. apply norm1_ip. unfold ip. cbn. lra. Qed.

PROPS*)
