(** * Properties: quaternion algebra *)

From Coq Require Import ZArith Bool Reals List Lra.
From Flocq Require Import Core IEEE754.BinarySingleNaN.
From Verif Require Import Scalar IEEE32 F32Tac RealInst Outcome Types Spec SpecF32 SpecR SpecMat SpecGeo RealTac
  ModelVec ModelQuat ModelGeom ModelMat ModelMatrix ModelQuaternion.
From Verif Require Import PfQuat.
Import ListNotations.
Local Open Scope R_scope.


(** C53: both products are Hamilton's. *)
Theorem C53_hamilton :
  (forall p q, quat_mul RS p q = ham p q) /\
  (forall p q, quat_mul_assign RS (fun _ => q) p = ham p q) /\
  (forall q, quat_mul_assign RS (fun x => x) q = ham q q).
Proof. exact C53_hamilton_pf. Qed.
Print Assumptions C53_hamilton.

(** C53: algebra laws. *)
Theorem C53_algebra :
  (forall p q r, quat_mul RS (quat_mul RS p q) r = quat_mul RS p (quat_mul RS q r)) /\
  (forall q, quat_mul RS q (quat_default RS) = q) /\ (forall q, quat_mul RS (quat_default RS) q = q) /\
  (forall p q r, quat_mul RS p (quat_add RS q r) = quat_add RS (quat_mul RS p q) (quat_mul RS p r)) /\
  (forall p q r, quat_mul RS (quat_add RS p q) r = quat_add RS (quat_mul RS p r) (quat_mul RS q r)) /\
  (forall p q a, quat_mul RS (quat_mul_sc RS p a) q = quat_mul_sc RS (quat_mul RS p q) a) /\
  (forall p q a, quat_mul RS p (sc_mul_quat RS a q) = sc_mul_quat RS a (quat_mul RS p q)) /\
  (forall p q, norm (lq (quat_mul RS p q)) = norm (lq p) * norm (lq q)).
Proof. exact C53_algebra_pf. Qed.
Print Assumptions C53_algebra.

(** C54: the action of a unit quaternion is v -> q v q*, which has no scalar part. *)
Theorem C54_action :
  (forall q v, unit_quat q -> l3 (quat_mul_vec RS q v) = qrot q (l3 v)) /\
  (forall q v, qw (ham (ham q (qpure v)) (qconj q)) = 0).
Proof. exact C54_action_pf. Qed.
Print Assumptions C54_action.

(** C54: it preserves inner and cross products, hence lengths, angles and orientation. *)
Theorem C54_isometry : forall q u v, unit_quat q ->
  dot3 RS (quat_mul_vec RS q u) (quat_mul_vec RS q v) = dot3 RS u v /\
  cross RS (quat_mul_vec RS q u) (quat_mul_vec RS q v) = quat_mul_vec RS q (cross RS u v) /\
  norm (l3 (quat_mul_vec RS q u)) = norm (l3 u).
Proof. exact C54_isometry_pf. Qed.
Print Assumptions C54_isometry.

(** C54: products of quaternions act one after the other; q and -q act equally; v * q undoes q * v. *)
Theorem C54_composition :
  (forall p q v, unit_quat p -> unit_quat q -> quat_mul_vec RS (quat_mul RS p q) v = quat_mul_vec RS p (quat_mul_vec RS q v)) /\
  (forall q v, quat_mul_vec RS (quat_neg RS q) v = quat_mul_vec RS q v) /\
  (forall v, quat_mul_vec RS (quat_default RS) v = v) /\
  (forall q v, unit_quat q -> vec_mul_quat RS (quat_mul_vec RS q v) q = v) /\
  (forall q v, unit_quat q -> quat_mul_vec RS q (vec_mul_quat RS v q) = v) /\
  (forall q u v a, quat_mul_vec RS q (vec3_add RS u (vec3_mul_sc RS v a)) =
     vec3_add RS (quat_mul_vec RS q u) (vec3_mul_sc RS (quat_mul_vec RS q v) a)).
Proof. exact C54_composition_pf. Qed.
Print Assumptions C54_composition.

(** C55: conjugation. *)
Theorem C55_conjugate :
  (forall q, conjugate RS q = qconj q) /\
  (forall q, conjugate RS (conjugate RS q) = q) /\
  (forall p q, conjugate RS (quat_mul RS p q) = quat_mul RS (conjugate RS q) (conjugate RS p)) /\
  (forall p q, conjugate RS (quat_add RS p q) = quat_add RS (conjugate RS p) (conjugate RS q)) /\
  (forall q, norm (lq (conjugate RS q)) = norm (lq q)).
Proof. exact C55_conjugate_pf. Qed.
Print Assumptions C55_conjugate.

(** C55: the inverse. *)
Theorem C55_inverse :
  (forall q, ~ zeros (lq q) -> quat_mul RS q (inverse_q RS q) = quat_default RS /\ quat_mul RS (inverse_q RS q) q = quat_default RS) /\
  (forall q, unit_quat q -> inverse_q RS q = conjugate RS q) /\
  (forall q, ~ zeros (lq q) -> inverse_q RS (inverse_q RS q) = q) /\
  (forall p q, ~ zeros (lq p) -> ~ zeros (lq q) ->
     inverse_q RS (quat_mul RS p q) = quat_mul RS (inverse_q RS q) (inverse_q RS p)).
Proof. exact C55_inverse_pf. Qed.
Print Assumptions C55_inverse.

(** C55: in binary32 conjugate only flips the signs of x, y and z. *)
Theorem C55_conjugate_f32 : forall (L : Libm) (q : quat f32),
  conjugate (F32 L) q = Quat (Bopp (qx q)) (Bopp (qy q)) (Bopp (qz q)) (qw q) /\
  conjugate (F32 L) (conjugate (F32 L) q) = q.
Proof. exact C55_conjugate_f32_pf. Qed.
Print Assumptions C55_conjugate_f32.

(** a unit quaternion with four nonzero parts *)
Example C54_ex : unit_quat (Quat (1 / 2) (1 / 2) (1 / 2) (1 / 2)).
Proof. unfold unit_quat. apply norm1_ip. unfold ip. cbn. lra. Qed.

