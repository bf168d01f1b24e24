(** * Properties: device coordinates of projected points in binary32 *)

From Coq Require Import ZArith Bool Reals List Lra Lia.
From Flocq Require Import Core IEEE754.BinarySingleNaN.
From Verif Require Import Scalar IEEE32 RealInst Types Outcome Spec SpecR SpecF32 SpecErr SpecProj SpecDepth FloatBasics FloatOps
  ModelVec ModelMat ModelTrig ModelTransform.
Import ListNotations.
Local Open Scope R_scope.
From Verif Require Import ErrLib LenLib OvfLib RelLib DomLib NumLib PfProj PfOctAcc.
From Verif Require Import PfDepth.


(** Device depth, for each of the four perspective matrices: the fourth component is exactly 1 and the depth of a point
    between the planes is within 16 half-ulps of the ideal one, times the length of the range and f / (f - n). *)
Theorem C99_depth : forall (L : Libm) (b : build),
  depth_accurate L (perspectiveRH_ZO (F32 L) b) (-1) 1 depth01 /\
  depth_accurate L (perspectiveLH_ZO (F32 L) b) 1 1 depth01 /\
  depth_accurate L (perspectiveRH_NO (F32 L) b) (-1) 2 depth11 /\
  depth_accurate L (perspectiveLH_NO (F32 L) b) 1 2 depth11.
Proof. exact C99_depth_pf. Qed.
Print Assumptions C99_depth.

(** The depth test: of two points between the planes, at distances d and d', the nearer one gets a strictly smaller device
    depth as soon as n (1/d - 1/d') exceeds 32 half-ulps. *)
Theorem C99_order : forall (L : Libm) (b : build),
  depth_ordered L (perspectiveRH_ZO (F32 L) b) (-1) /\ depth_ordered L (perspectiveLH_ZO (F32 L) b) 1 /\
  depth_ordered L (perspectiveRH_NO (F32 L) b) (-1) /\ depth_ordered L (perspectiveLH_NO (F32 L) b) 1.
Proof. exact C99_order_pf. Qed.
Print Assumptions C99_order.

(** Screen position, for each of the four perspective matrices and a tangent accurate to k half-ulps: within k + 5
    half-ulps, relatively, of x / (aspect tan(fovy/2) d) and y / (tan(fovy/2) d). *)
Theorem C99_screen : forall (L : Libm) (b : build),
  screen_accurate L (perspectiveRH_ZO (F32 L) b) (-1) /\ screen_accurate L (perspectiveLH_ZO (F32 L) b) 1 /\
  screen_accurate L (perspectiveRH_NO (F32 L) b) (-1) /\ screen_accurate L (perspectiveLH_NO (F32 L) b) 1.
Proof. exact C99_screen_pf. Qed.
Print Assumptions C99_screen.

(** Without a margin the order is lost: with planes at 1 and 100, of two points about 31.77 away the one that is 2^-19
    farther gets a strictly smaller depth, for every field of view and aspect. *)
Theorem C99_close_points_refuted : forall (L : Libm) (b : build), exists n f z z' : f32,
  depth_range n f /\ all_finite [z; z'] /\ b2r n <= - b2r z < - b2r z' /\ - b2r z' <= b2r f /\
  (exists fovy aspect m, perspectiveRH_ZO (F32 L) b fovy aspect n f = Ret m) /\
  (forall fovy aspect m x y, finite x -> finite y -> perspectiveRH_ZO (F32 L) b fovy aspect n f = Ret m ->
     Bltb (z4 (device L m x y z')) (z4 (device L m x y z)) = true).
Proof. exact C99_close_points_refuted_pf. Qed.
Print Assumptions C99_close_points_refuted.

(** Points 10 and 11 away between planes at 1 and 100 are told apart: 1/10 - 1/11 is more than 32 half-ulps. *)
Example C99_case : let n := f32_ofZ 1 in let f := f32_ofZ 100 in let z := f32_ofZ (-10) in let z' := f32_ofZ (-11) in
  depth_range n f /\ all_finite [z; z'] /\ b2r n <= -1 * b2r z <= b2r f /\ b2r n <= -1 * b2r z' <= b2r f /\
  32 * ulp_half < b2r n * (/ (-1 * b2r z) - / (-1 * b2r z')).
Proof.
  cbv zeta. rewrite (ofZ_exact 1 eq_refl), (ofZ_exact (-10) eq_refl), (ofZ_exact (-11) eq_refl), (ofZ_exact 100 eq_refl).
  assert (M1 : moderate 1) by (apply mid_moderate; absl).
  assert (M2 : moderate 100).
  { destruct M1 as [A B]. split; rewrite Rabs_pos_eq in * by lra; [lra|]. apply Rle_trans with (IZR (2 ^ 7)); [apply IZR_le; lia|now apply IZR_le]. }
  split; [|split; [|split; [lra|split; [lra|rewrite uval; lra]]]].
  - unfold depth_range. rewrite (ofZ_exact 1 eq_refl), (ofZ_exact 100 eq_refl). repeat split; try lra; try apply M1; try apply M2.
    repeat apply Forall_cons; try apply Forall_nil; vm_compute; reflexivity.
  - repeat apply Forall_cons; try apply Forall_nil; vm_compute; reflexivity.
Qed.
(** A point one to the right and one up, 4 away, seen with a right-angle-ish field of view of 2 and aspect 2, is in range. *)
Example C99_screen_case : let a := 2 in let T := tan 1 in let d := 4 in
  Forall moderate [a; T] /\ Forall in_range [1 / (a * T); 1 / (a * T); 1 / (a * T) / d; 1 / T; 1 / T; 1 / T / d].
Proof.
  cbv zeta. pose proof tan1_bounds as T1.
  assert (D : 1 / 2 <= 1 / tan 1 <= 1).
  { assert (E : 1 / tan 1 * tan 1 = 1) by (field; lra). split; apply Rmult_le_reg_r with (tan 1); lra. }
  replace (1 / (2 * tan 1)) with (1 / tan 1 / 2) by (field; lra).
  split; repeat apply Forall_cons; try apply Forall_nil; try (apply mid_moderate; absl); apply mid_range; absl.
Qed.
