(** * Properties: points placed by a rotation and a translation in binary32 *)

From Coq Require Import ZArith Bool Reals List Lra Lia.
From Flocq Require Import Core IEEE754.BinarySingleNaN.
From Verif Require Import Scalar IEEE32 RealInst Types Outcome Spec SpecR SpecMat SpecGeo SpecF32 SpecErr SpecAcc SpecLook SpecCamera SpecPlace FloatBasics FloatOps
  ModelVec ModelMat ModelQuat ModelQuaternion ModelTransform ErrLib LenLib RealTac VecErrLib.
From Verif Require Import PfPlace.
Import ListNotations.
Local Open Scope R_scope.


(** The point matrix-times-vector yields for translate(mat4(1), p) * mat4_cast(q) with q of unit length up to 9 half-ulps is, coordinate by coordinate,
    the point turned by the rotation of q's direction and moved by p, and its last component is exactly 1. *)
Theorem C106_pose : forall (L : Libm) (p : vec3 f32) (q : quat f32) (v : vec3 f32),
  all_finite (lq q) -> Rabs (norm (vals (lq q)) - 1) <= 9 * ulp_half -> all_finite (l3 p) -> all_finite (l3 v) ->
  norm (vals (l3 p)) <= IZR (2 ^ 61) -> norm (vals (l3 v)) <= IZR (2 ^ 61) ->
  let o := eye_space L (pose L p q) v in
  all_close (placing_error (vals (l3 p)) (vals (l3 v))) (xyz o) (vadd (qrot (unit_dir q) (vals (l3 v))) (vals (l3 p))) /\ finite (w4 o) /\ b2r (w4 o) = 1.
Proof. exact C106_pose_pf. Qed.
Print Assumptions C106_pose.

(** The same for mat4_cast(q) alone, and the point it yields agrees with the quaternion-vector product to the sum of the two errors. *)
Theorem C106_cast : forall (L : Libm) (q : quat f32) (v : vec3 f32),
  all_finite (lq q) -> Rabs (norm (vals (lq q)) - 1) <= 9 * ulp_half -> all_finite (l3 v) -> norm (vals (l3 v)) <= IZR (2 ^ 61) ->
  let o := eye_space L (mat4_cast (F32 L) q) v in
  all_close (93 * ulp_half * norm (vals (l3 v)) + 8 * tiny) (xyz o) (qrot (unit_dir q) (vals (l3 v))) /\ finite (w4 o) /\ b2r (w4 o) = 1 /\
  (norm (vals (l3 v)) <= IZR (2 ^ 40) ->
   all_close (169 * ulp_half * norm (vals (l3 v)) + / IZR (2 ^ 101)) (xyz o) (vals (l3 (quat_mul_vec (F32 L) q v)))).
Proof. exact C106_cast_pf. Qed.
Print Assumptions C106_cast.

(** Placing keeps distances: the distance of two placed points is that of the points themselves up to twice the error of each. *)
Theorem C106_rigid : forall (L : Libm) (p : vec3 f32) (q : quat f32) (v v' : vec3 f32),
  all_finite (lq q) -> Rabs (norm (vals (lq q)) - 1) <= 9 * ulp_half -> all_finite (l3 p) -> all_finite (l3 v) -> all_finite (l3 v') ->
  norm (vals (l3 p)) <= IZR (2 ^ 61) -> norm (vals (l3 v)) <= IZR (2 ^ 61) -> norm (vals (l3 v')) <= IZR (2 ^ 61) ->
  let P := vals (l3 p) in let V := vals (l3 v) in let V' := vals (l3 v') in
  Rabs (norm (vsub (vals (xyz (eye_space L (pose L p q) v))) (vals (xyz (eye_space L (pose L p q) v')))) - norm (vsub V V'))
    <= 2 * placing_error P V + 2 * placing_error P V'.
Proof. exact C106_rigid_pf. Qed.
Print Assumptions C106_rigid.

(** the quaternion (1/2, 1/2, 1/2, 1/2) permutes the axes; with p = (10, 20, 30) the point (1, 2, 3) goes to (13, 21, 32) *)
Example C106_case : let h := Bdiv mode_NE (f32_ofZ 1) (f32_ofZ 2) in let q := Quat h h h h in
  let p := V3 (f32_ofZ 10) (f32_ofZ 20) (f32_ofZ 30) in let v := V3 (f32_ofZ 1) (f32_ofZ 2) (f32_ofZ 3) in
  all_finite (lq q) /\ Rabs (norm (vals (lq q)) - 1) <= 9 * ulp_half /\ all_finite (l3 p) /\ all_finite (l3 v) /\
  forall L, map (@B2SF 24 128) (l4 (eye_space L (pose L p q) v)) = map (@B2SF 24 128) [f32_ofZ 13; f32_ofZ 21; f32_ofZ 32; f32_ofZ 1].
Proof.
  cbv zeta. split; [repeat apply Forall_cons; try apply Forall_nil; vm_compute; reflexivity|].
  split; [|split; [|split; [|intros L; vm_compute; reflexivity]]]; try (repeat apply Forall_cons; try apply Forall_nil; vm_compute; reflexivity).
  assert (E1 : b2r (Bdiv mode_NE (f32_ofZ 1) (f32_ofZ 2)) = 1 / 2) by (vm_compute; lra).
  unfold vals, lq. cbn [map qx qy qz qw]. rewrite E1.
  assert (N := norm_nn [1 / 2; 1 / 2; 1 / 2; 1 / 2]). assert (S := norm_sq [1 / 2; 1 / 2; 1 / 2; 1 / 2]).
  set (n := norm _) in *. unfold ip in S. cbn in S. rewrite uval. apply Rabs_le. split; nra.
Qed.
