(** * Properties: repeated updates of an orientation in binary32 *)

From Coq Require Import ZArith Bool Reals List Lra Lia.
From Flocq Require Import Core IEEE754.BinarySingleNaN.
From Verif Require Import Scalar IEEE32 RealInst Types Outcome Spec SpecR SpecMat SpecGeo SpecF32 SpecErr SpecOrd SpecAcc SpecChain SpecDrift FloatBasics FloatOps
  ModelVec ModelCommon ModelGeom ModelQuat ModelQuaternion ErrLib OvfLib F32Tac RealTac.
From Verif Require Import PfDrift.
Import ListNotations.
Local Open Scope R_scope.


(** An orientation updated by q := normalize(q * d) any number of times stays normalized within 9 half-ulps, and its distance from the exact
    composition of the turns grows at most linearly: 59 half-ulps per update on top of the errors of the turns themselves. *)
Theorem C98_body_updates : forall (L : Libm) (e0 e : R) (q0 : quat f32) (Q0 : quat R) (ds : list (quat f32)) (Ds : list (quat R)),
  unit_near e0 q0 Q0 -> Forall2 (unit_near e) ds Ds -> e0 <= / 250 -> e <= / 250 -> ds <> [] ->
  let r := fold_left (fun q d => normalize_q (F32 L) (quat_mul (F32 L) q d)) ds q0 in let n := INR (length ds) in
  all_finite (lq r) /\ Rabs (norm (vals (lq r)) - 1) <= 9 * ulp_half /\
  norm (vsub (vals (lq r)) (lq (turns_body Q0 Ds))) <= 102/100 * (e0 + n * e) + (59 * n + 9) * ulp_half.
Proof. exact C98_body_updates_pf. Qed.
Print Assumptions C98_body_updates.

(** The same for q := normalize(d * q). *)
Theorem C98_world_updates : forall (L : Libm) (e0 e : R) (q0 : quat f32) (Q0 : quat R) (ds : list (quat f32)) (Ds : list (quat R)),
  unit_near e0 q0 Q0 -> Forall2 (unit_near e) ds Ds -> e0 <= / 250 -> e <= / 250 -> ds <> [] ->
  let r := fold_left (fun q d => normalize_q (F32 L) (quat_mul (F32 L) d q)) ds q0 in let n := INR (length ds) in
  all_finite (lq r) /\ Rabs (norm (vals (lq r)) - 1) <= 9 * ulp_half /\
  norm (vsub (vals (lq r)) (lq (turns_world Q0 Ds))) <= 102/100 * (e0 + n * e) + (59 * n + 9) * ulp_half.
Proof. exact C98_world_updates_pf. Qed.
Print Assumptions C98_world_updates.

(** One product of quaternions of length at most sqrt 1.02: each component is within 25 half-ulps. *)
Theorem C98_product : forall (L : Libm) (p q : quat f32), all_finite (lq p) -> all_finite (lq q) ->
  ip (vals (lq p)) (vals (lq p)) <= 102/100 -> ip (vals (lq q)) (vals (lq q)) <= 102/100 ->
  all_close (25 * ulp_half) (lq (quat_mul (F32 L) p q)) (lq (ham (rquat p) (rquat q))).
Proof. exact C98_product_pf. Qed.
Print Assumptions C98_product.

(** Vectors turned by the orientation keep their length within 76 half-ulps after any number of updates, and their distance from the
    exactly turned vector grows linearly. *)
Theorem C98_body_vectors : forall (L : Libm) (e0 e : R) (q0 : quat f32) (Q0 : quat R) (ds : list (quat f32)) (Ds : list (quat R)) (v : vec3 f32),
  unit_near e0 q0 Q0 -> Forall2 (unit_near e) ds Ds -> e0 <= / 250 -> e <= / 250 -> ds <> [] -> all_finite (l3 v) -> norm (vals (l3 v)) <= IZR (2 ^ 40) ->
  let r := quat_mul_vec (F32 L) (fold_left (fun q d => normalize_q (F32 L) (quat_mul (F32 L) q d)) ds q0) v in let n := INR (length ds) in let N := norm (vals (l3 v)) in
  all_finite (l3 r) /\ Rabs (norm (vals (l3 r)) - N) <= 76 * ulp_half * N + / IZR (2 ^ 102) /\
  norm (vsub (vals (l3 r)) (qrot (turns_body Q0 Ds) (vals (l3 v)))) <= (204/100 * (e0 + n * e) + (118 * n + 76) * ulp_half) * N + / IZR (2 ^ 102).
Proof. exact C98_body_vectors_pf. Qed.
Print Assumptions C98_body_vectors.

(** The same for updates in the fixed frame. *)
Theorem C98_world_vectors : forall (L : Libm) (e0 e : R) (q0 : quat f32) (Q0 : quat R) (ds : list (quat f32)) (Ds : list (quat R)) (v : vec3 f32),
  unit_near e0 q0 Q0 -> Forall2 (unit_near e) ds Ds -> e0 <= / 250 -> e <= / 250 -> ds <> [] -> all_finite (l3 v) -> norm (vals (l3 v)) <= IZR (2 ^ 40) ->
  let r := quat_mul_vec (F32 L) (fold_left (fun q d => normalize_q (F32 L) (quat_mul (F32 L) d q)) ds q0) v in let n := INR (length ds) in let N := norm (vals (l3 v)) in
  all_finite (l3 r) /\ Rabs (norm (vals (l3 r)) - N) <= 76 * ulp_half * N + / IZR (2 ^ 102) /\
  norm (vsub (vals (l3 r)) (qrot (turns_world Q0 Ds) (vals (l3 v)))) <= (204/100 * (e0 + n * e) + (118 * n + 76) * ulp_half) * N + / IZR (2 ^ 102).
Proof. exact C98_world_vectors_pf. Qed.
Print Assumptions C98_world_vectors.

(** Turning by 120 degrees about (1,1,1) any number of times: the quaternion (1/2,1/2,1/2,1/2) is exact. *)
Example C98_case : forall (L : Libm) (n : nat), let h := f32_lit 5 (-1) in let d := Quat h h h h in let D := Quat (/ 2) (/ 2) (/ 2) (/ 2) in
  let r := fold_left (fun q d => normalize_q (F32 L) (quat_mul (F32 L) q d)) (repeat d (S n)) d in
  Rabs (norm (vals (lq r)) - 1) <= 9 * ulp_half /\ norm (vsub (vals (lq r)) (lq (turns_body D (repeat D (S n))))) <= (59 * INR (S n) + 9) * ulp_half.
Proof.
  intros L n h d D r. assert (H : b2r h = / 2) by (vm_compute; lra).
  assert (U : unit_near 0 d D).
  { split; [repeat constructor|]. split; [unfold unit_quat, norm, ip; cbn; replace (_ + _) with (1 * 1) by lra; apply sqrt_square; lra|].
    unfold vsub, vals, lq. cbn [map zip qx qy qz qw d D]. rewrite H, Rminus_diag_eq by reflexivity. unfold norm, ip. cbn. rewrite !Rmult_0_l, !Rplus_0_l, sqrt_0. lra. }
  destruct (C98_body_updates L 0 0 d D (repeat d (S n)) (repeat D (S n)) U) as (_ & N & K); try lra.
  - generalize (S n). intros m. induction m as [|m IH]; cbn [repeat]; [apply Forall2_nil|apply Forall2_cons; assumption].
  - discriminate.
  - split; [exact N|]. rewrite repeat_length in K. fold r in K. eapply Rle_trans; [exact K|]. lra.
Qed.
