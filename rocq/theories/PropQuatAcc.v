(** * Properties: accuracy of the matrix to quaternion conversion *)

From Coq Require Import ZArith Bool Reals List Lra Lia.
From Flocq Require Import Core IEEE754.BinarySingleNaN.
From Verif Require Import Scalar IEEE32 RealInst Types Outcome Spec SpecR SpecMat SpecGeo SpecF32 SpecErr SpecOrd SpecDom SpecAcc FloatBasics FloatOps
  ModelVec ModelCommon ModelExp ModelGeom ModelMat ModelMatrix ModelQuat ModelQuaternion ModelConst ErrLib OvfLib F32Tac RealTac.
From Verif Require Import PfQuatAcc.
Import ListNotations.
Local Open Scope R_scope.


(** [quat_cast] of a matrix within dl of the rotation matrix of a unit quaternion is within 3 dl + 16*2^-24 of that quaternion or its negation, whichever of the four branches is taken. *)
Theorem C85_quat_cast : forall (L : Libm) (p : quat R) dl, unit_quat p -> 0 <= dl <= / 1000 ->
  (forall m, all_close dl (lm3 m) (rotation_entries (-1) (qx p) (qy p) (qz p) (qw p)) ->
    all_close_sign (3 * dl + 16 * ulp_half) (lq (quat_cast3 (F32 L) m)) (lq p)) /\
  (forall m, all_close dl (firstn 3 (l4 (m4c0 m)) ++ firstn 3 (l4 (m4c1 m)) ++ firstn 3 (l4 (m4c2 m))) (rotation_entries (-1) (qx p) (qy p) (qz p) (qw p)) ->
    all_close_sign (3 * dl + 16 * ulp_half) (lq (quat_cast4 (F32 L) m)) (lq p)).
Proof. exact C85_quat_cast_pf. Qed.
Print Assumptions C85_quat_cast.

(** Casting to a matrix and back returns the quaternion or its negation, up to 56*2^-24 and 7 times the deviation of its squared length from 1. *)
Theorem C85_roundtrip : forall (L : Libm) (q : quat f32) h, all_finite (lq q) -> Rabs (ip (vals (lq q)) (vals (lq q)) - 1) <= h -> h <= / 4000 ->
  all_close_sign (7 * h + 56 * ulp_half) (lq (quat_cast3 (F32 L) (mat3_cast (F32 L) q))) (vals (lq q)).
Proof. exact C85_roundtrip_pf. Qed.
Print Assumptions C85_roundtrip.

(** In particular for the result of normalize. *)
Theorem C85_normalized : forall (L : Libm) (q : quat f32), all_finite (lq q) -> / IZR (2 ^ 48) <= norm (vals (lq q)) <= IZR (2 ^ 62) ->
  let n := normalize_q (F32 L) q in all_close_sign (192 * ulp_half) (lq (quat_cast3 (F32 L) (mat3_cast (F32 L) n))) (vals (lq n)).
Proof. exact C85_normalized_pf. Qed.
Print Assumptions C85_normalized.

(** the third turn about (1, 1, 1), where all four branches are equally good, and a turn about the x axis with rounded components *)
Example C85_case : forall L : Libm,
  (unit_quat (Quat (/ 2) (/ 2) (/ 2) (/ 2)) /\
   all_close 0 (lm3 (M3 (V3 (f32_lit 0 0) (f32_lit 1 0) (f32_lit 0 0)) (V3 (f32_lit 0 0) (f32_lit 0 0) (f32_lit 1 0)) (V3 (f32_lit 1 0) (f32_lit 0 0) (f32_lit 0 0)))) (rotation_entries (-1) (/ 2) (/ 2) (/ 2) (/ 2))) /\
  let q := Quat (f32_lit 6 (-1)) (f32_lit 0 0) (f32_lit 0 0) (f32_lit 8 (-1)) in
  all_finite (lq q) /\ Rabs (ip (vals (lq q)) (vals (lq q)) - 1) <= / 4194304 /\ / IZR (2 ^ 48) <= norm (vals (lq q)) <= IZR (2 ^ 62).
Proof.
  intros L. split; [split|].
  - apply norm1_ip. cbn. lra.
  - unfold rotation_entries, all_close. cbn [lm3 l3 concat app m3c0 m3c1 m3c2 x3 y3 z3].
    assert (Z0 : b2r (f32_lit 0 0) = 0) by reflexivity.
    repeat (apply Forall2_cons; [split; [reflexivity|]; rewrite ?b2r_lit1, ?Z0; apply Rabs_le; lra|]). apply Forall2_nil.
  - intros q. assert (E6 : b2r (f32_lit 6 (-1)) = 10066330 / 16777216) by (unfold f32_lit; vm_compute; lra). assert (E8 : b2r (f32_lit 8 (-1)) = 13421773 / 16777216) by (unfold f32_lit; vm_compute; lra).
    assert (I : ip (vals (lq q)) (vals (lq q)) = 10066330 / 16777216 * (10066330 / 16777216) + 13421773 / 16777216 * (13421773 / 16777216)).
    { unfold q. cbn [lq qx qy qz qw vals map ip zip fold_right]. rewrite E6, E8. change (b2r (f32_lit 0 0)) with 0. ring. }
    split; [repeat (apply Forall_cons; [reflexivity|]); apply Forall_nil|]. split; [rewrite I; apply Rabs_le; lra|].
    unfold norm. rewrite I. match goal with |- context [sqrt ?t] => assert (H : / 4 <= t <= 4) by lra; set (r := t) in * end.
    assert (G1 : / 2 <= sqrt r) by (replace (/ 2) with (sqrt (/ 4)); [apply sqrt_le_1_alt; lra|replace (/ 4) with (/ 2 * / 2) by field; apply sqrt_square; lra]).
    assert (G2 : sqrt r <= 2) by (replace 2 with (sqrt 4); [apply sqrt_le_1_alt; lra|replace 4 with (2 * 2) by ring; apply sqrt_square; lra]).
    split; [apply Rle_trans with (/ 2); [apply Rinv_le_contravar; [lra|apply IZR_le; now apply (Z.pow_le_mono_r 2 1 48)]|exact G1]|apply Rle_trans with 2; [exact G2|apply IZR_le; now apply (Z.pow_le_mono_r 2 1 62)]].
Qed.
