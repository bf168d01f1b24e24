(** * Properties: chains of operations in binary32 *)

From Coq Require Import ZArith Bool Reals List Lra Lia.
From Flocq Require Import Core IEEE754.BinarySingleNaN.
From Verif Require Import Scalar IEEE32 RealInst Types Outcome Spec SpecR SpecMat SpecGeo SpecF32 SpecErr SpecChain FloatBasics FloatOps
  ModelVec ModelMat ModelGeom ModelQuat ModelQuaternion ErrExpr ErrLib.
From Verif Require Import PfChain.
Import ListNotations.
Local Open Scope R_scope.


(** C77: m := m0 * m1 * ... * mk in binary32 is within ((1 + eta u)^k - 1) c0 c1 ... ck of the exact product as an operator, where the
    c_i bound how much the factors stretch; eta is 5, 10 and 17 for dimension 2, 3 and 4 *)
Theorem C77_matrix_products : forall L : Libm,
  product_chain_ok 2 5 lm2 (mat2_mul (F32 L)) /\ product_chain_ok 3 10 lm3 (mat3_mul (F32 L)) /\ product_chain_ok 4 17 lm4 (mat4_mul (F32 L)).
Proof. exact C77_matrix_products_pf. Qed.
Print Assumptions C77_matrix_products.

(** the same for a vector moved through k matrices one after the other *)
Theorem C77_transforms : forall L : Libm,
  transform_chain_ok 2 5 lm2 l2 (mat2_mul_vec (F32 L)) /\ transform_chain_ok 3 7 lm3 l3 (mat3_mul_vec (F32 L)) /\ transform_chain_ok 4 7 lm4 l4 (mat4_mul_vec (F32 L)).
Proof. exact C77_transforms_pf. Qed.
Print Assumptions C77_transforms.

(** the same for quaternion products, with their lengths *)
Theorem C77_quaternion_products : forall L : Libm, quat_chain_ok 290 (quat_mul (F32 L)).
Proof. exact C77_quaternion_products_pf. Qed.
Print Assumptions C77_quaternion_products.

(** up to 10000 rotations within 9 half-ulps of unit length can be accumulated; the length drifts by at most 410 half-ulps per factor *)
Theorem C77_quaternion_drift : forall L : Libm, quat_drift_ok 9 410 (quat_mul (F32 L)).
Proof. exact C77_quaternion_drift_pf. Qed.
Print Assumptions C77_quaternion_drift.

(** sums of any number of vectors or quaternions *)
Theorem C77_sums : forall L : Libm,
  sum_chain_ok l2 (vec2_add (F32 L)) /\ sum_chain_ok l3 (vec3_add (F32 L)) /\ sum_chain_ok l4 (vec4_add (F32 L)) /\ sum_chain_ok lq (quat_add (F32 L)).
Proof. exact C77_sums_pf. Qed.
Print Assumptions C77_sums.

(** a thousand quarter turns *)
Example C77_case : let q : mat2 f32 := M2 (V2 (f32_ofZ 0) (f32_ofZ 1)) (V2 (f32_ofZ (-1)) (f32_ofZ 0)) in
  let ms := repeat q 1000 in let cs := repeat 1 1000 in
  Forall2 (fun m c => all_finite (lm2 m) /\ 1 <= c /\ stretch_le 2 (vals (lm2 m)) c) (q :: ms) (1 :: cs) /\
  growth 5 (length ms) * fold_left Rmult cs 1 <= IZR (2 ^ 60).
Proof.
  cbv zeta. split.
  - assert (Q : let m : mat2 f32 := M2 (V2 (f32_ofZ 0) (f32_ofZ 1)) (V2 (f32_ofZ (-1)) (f32_ofZ 0)) in all_finite (lm2 m) /\ 1 <= 1 /\ stretch_le 2 (vals (lm2 m)) 1).
    { cbv zeta. split; [repeat apply Forall_cons; [..|apply Forall_nil]; vm_compute; reflexivity|]. split; [lra|].
      intros x Lx. destruct x as [|x [|y [|]]]; try discriminate Lx.
      change (vals _) with [b2r (f32_ofZ 0); b2r (f32_ofZ 1); b2r (f32_ofZ (-1)); b2r (f32_ofZ 0)]. rewrite !ofZ_exact by reflexivity.
      rewrite Rmult_1_l. apply Req_le. unfold norm. f_equal. cbn. ring. }
    apply Forall2_cons; [exact Q|]. generalize 1000%nat as j. induction j as [|j IH]; cbn [repeat]; constructor; trivial.
  - rewrite repeat_length, fold_repeat, pow1. unfold growth. rewrite ulp_half_val.
    eapply Rle_trans; [apply Rmult_le_compat_r; [lra|]; apply pow_up; [lra|]|].
    + rewrite INR_IZR_INZ. change (Z.of_nat 1000) with 1000%Z. lra.
    + rewrite INR_IZR_INZ. change (Z.of_nat 1000) with 1000%Z. apply Rle_trans with 2; [lra|]. apply IZR_le. vm_compute. discriminate.
Qed.
(** (0.6, 0, 0, 0.8) rounded to binary32, a hundred times *)
Example C77_drift_case : let q := Quat (@B754_finite 24 128 false 10066330 (-24) eq_refl) (f32_ofZ 0) (f32_ofZ 0) (@B754_finite 24 128 false 13421773 (-24) eq_refl) in
  Forall (fun q : quat f32 => all_finite (lq q) /\ Rabs (norm (vals (lq q)) - 1) <= 9 * ulp_half) (q :: repeat q 100) /\ INR (length (q :: repeat q 100)) <= IZR (10 ^ 4).
Proof.
  cbv zeta. split.
  - assert (Q : let q := Quat (@B754_finite 24 128 false 10066330 (-24) eq_refl) (f32_ofZ 0) (f32_ofZ 0) (@B754_finite 24 128 false 13421773 (-24) eq_refl) in
      all_finite (lq q) /\ Rabs (norm (vals (lq q)) - 1) <= 9 * ulp_half).
    { cbv zeta. split; [repeat apply Forall_cons; [..|apply Forall_nil]; vm_compute; reflexivity|].
      change (vals _) with [b2r (@B754_finite 24 128 false 10066330 (-24) eq_refl); b2r (f32_ofZ 0); b2r (f32_ofZ 0); b2r (@B754_finite 24 128 false 13421773 (-24) eq_refl)]. rewrite ofZ_exact by reflexivity.
      replace (b2r (@B754_finite 24 128 false 10066330 (-24) eq_refl)) with (10066330 / 16777216) by (unfold b2r, B2R, F2R; cbn; lra).
      replace (b2r (@B754_finite 24 128 false 13421773 (-24) eq_refl)) with (13421773 / 16777216) by (unfold b2r, B2R, F2R; cbn; lra).
      rewrite norm4. rewrite ulp_half_val.
      assert (1 - 9 * / 16777216 <= sqrt (10066330 / 16777216 * (10066330 / 16777216) + 0 * 0 + 0 * 0 + 13421773 / 16777216 * (13421773 / 16777216))).
      { rewrite <- (sqrt_square (1 - 9 * / 16777216)) by lra. apply sqrt_le_1_alt. lra. }
      assert (sqrt (10066330 / 16777216 * (10066330 / 16777216) + 0 * 0 + 0 * 0 + 13421773 / 16777216 * (13421773 / 16777216)) <= 1 + 9 * / 16777216).
      { rewrite <- (sqrt_square (1 + 9 * / 16777216)) by lra. apply sqrt_le_1_alt. lra. }
      apply Rabs_le. lra. }
    apply Forall_cons; [exact Q|]. generalize 100%nat as j. induction j as [|j IH]; cbn [repeat]; constructor; trivial.
  - cbn [length]. rewrite repeat_length, INR_IZR_INZ. apply IZR_le. vm_compute. discriminate.
Qed.
(** ten times 1/10: the sum is finite *)
Example C77_sum_case : let v : vec2 f32 := V2 (@B754_finite 24 128 false 13421773 (-27) eq_refl) (f32_ofZ 3) in
  all_finite (l2 (fold_left (vec2_add (F32 L0)) (repeat v 9) v)).
Proof. repeat apply Forall_cons; [..|apply Forall_nil]; vm_compute; reflexivity. Qed.
