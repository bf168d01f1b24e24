(** * Properties: from model coordinates up a scene hierarchy, through a camera, to the depth buffer *)

From Coq Require Import ZArith Bool Reals List Lra Lia.
From Flocq Require Import Core IEEE754.BinarySingleNaN.
From Verif Require Import Scalar IEEE32 RealInst Types Outcome Spec SpecR SpecMat SpecGeo SpecF32 SpecErr SpecAcc SpecProj SpecDepth SpecLook SpecCamera SpecPlace SpecScene SpecPipe FloatBasics FloatOps
  ModelVec ModelMat ModelQuat ModelQuaternion ModelTransform ErrLib LenLib RealTac VecErrLib.
From Verif Require Import PfPipe.
Import ListNotations.
Local Open Scope R_scope.


(** The depth of a point of a model at the end of a chain of nodes of any length, seen through lookAt and a perspective matrix. *)
Theorem C108_depth : forall (L : Libm) (b : build),
  scene_depth_accurate L (lookAtRH (F32 L)) (perspectiveRH_ZO (F32 L) b) 1 depth01 /\
  scene_depth_accurate L (lookAtLH (F32 L)) (perspectiveLH_ZO (F32 L) b) 1 depth01 /\
  scene_depth_accurate L (lookAtRH (F32 L)) (perspectiveRH_NO (F32 L) b) 2 depth11 /\
  scene_depth_accurate L (lookAtLH (F32 L)) (perspectiveLH_NO (F32 L) b) 2 depth11.
Proof. exact C108_depth_pf. Qed.
Print Assumptions C108_depth.

(** The depth test between points of two models. *)
Theorem C108_order : forall (L : Libm) (b : build),
  scene_depth_ordered L (lookAtRH (F32 L)) (perspectiveRH_ZO (F32 L) b) /\ scene_depth_ordered L (lookAtLH (F32 L)) (perspectiveLH_ZO (F32 L) b) /\
  scene_depth_ordered L (lookAtRH (F32 L)) (perspectiveRH_NO (F32 L) b) /\ scene_depth_ordered L (lookAtLH (F32 L)) (perspectiveLH_NO (F32 L) b).
Proof. exact C108_order_pf. Qed.
Print Assumptions C108_order.

(** A camera at (3, 0, 4) looking at the origin with y up, planes at 1 and 100, and a node turning by (1/2, 1/2, 1/2, 1/2) and moving by (-1, 0, -2):
    its points (0, 2, 1), which ends in the origin, and (0, -2, -2), which ends behind it, meet the hypotheses of C108_order, with s = 1. *)
Example C108_case : let eye := V3 (f32_ofZ 3) (f32_ofZ 0) (f32_ofZ 4) in let center := V3 (f32_ofZ 0) (f32_ofZ 0) (f32_ofZ 0) in
  let h := Bdiv mode_NE (f32_ofZ 1) (f32_ofZ 2) in let ns : list node := [(V3 (f32_ofZ (-1)) (f32_ofZ 0) (f32_ofZ (-2)), Quat h h h h)] in
  let v := V3 (f32_ofZ 0) (f32_ofZ 2) (f32_ofZ 1) in let v' := V3 (f32_ofZ 0) (f32_ofZ (-2)) (f32_ofZ (-2)) in
  model_point ns v /\ model_point ns v' /\ true_depth eye center ns v = 5 /\ true_depth eye center ns v' = 10 /\
  let t := scene_error 1 eye ns v in let t' := scene_error 1 eye ns v' in
  1 + t <= 5 <= 100 - t /\ 1 + t' <= 10 <= 100 - t' /\ 32 * ulp_half < 1 * (/ (5 + t) - / (10 - t')).
Proof.
  cbv zeta. assert (H0 : b2r (f32_ofZ 0) = 0) by reflexivity. assert (H1 := ofZ_exact 1 eq_refl). assert (H2 := ofZ_exact 2 eq_refl). assert (H3 := ofZ_exact 3 eq_refl).
  assert (H4 := ofZ_exact 4 eq_refl). assert (H1' := ofZ_exact (-1) eq_refl). assert (H2' := ofZ_exact (-2) eq_refl).
  assert (EH : b2r (Bdiv mode_NE (f32_ofZ 1) (f32_ofZ 2)) = 1 / 2) by (vm_compute; lra). assert (FH : finite (Bdiv mode_NE (f32_ofZ 1) (f32_ofZ 2))) by (vm_compute; reflexivity).
  set (h := Bdiv mode_NE (f32_ofZ 1) (f32_ofZ 2)) in *. clearbody h.
  assert (V : forall a b c : f32, vals (l3 (V3 a b c)) = [b2r a; b2r b; b2r c]) by reflexivity. assert (VQ : vals (lq (Quat h h h h)) = [1 / 2; 1 / 2; 1 / 2; 1 / 2]) by (unfold vals, lq; cbn [map qx qy qz qw]; now rewrite EH).
  assert (NQ : norm [1 / 2; 1 / 2; 1 / 2; 1 / 2] = 1) by (unfold norm, ip; cbn; transitivity (sqrt 1); [f_equal; lra|apply sqrt_1]).
  assert (N5 : norm [0 - 3; 0 - 0; 0 - 4] = 5) by (unfold norm, ip; cbn; transitivity (sqrt (5 * 5)); [f_equal; lra|apply sqrt_square; lra]).
  assert (N5' : norm [3; 0; 4] = 5) by (unfold norm, ip; cbn; transitivity (sqrt (5 * 5)); [f_equal; lra|apply sqrt_square; lra]).
  assert (NA : 0 <= norm [0; 2; 1] <= 3) by (split; [apply norm_nn|apply sq_le_norm; [lra|unfold ip; cbn; lra]]). assert (NB : 0 <= norm [0; -2; -2] <= 3) by (split; [apply norm_nn|apply sq_le_norm; [lra|unfold ip; cbn; lra]]).
  assert (NC : 0 <= norm [-1; 0; -2] <= 3) by (split; [apply norm_nn|apply sq_le_norm; [lra|unfold ip; cbn; lra]]).
  assert (F : sight (V3 (f32_ofZ 3) (f32_ofZ 0) (f32_ofZ 4)) (V3 (f32_ofZ 0) (f32_ofZ 0) (f32_ofZ 0)) = [- (3 / 5); 0; - (4 / 5)]).
  { unfold sight. rewrite !V, H0, H3, H4. unfold vsub. cbn [zip]. unfold unit_of. rewrite N5. unfold vscale. cbn. apply f_equal2; [lra|]. apply f_equal2; [lra|]. apply f_equal2; [lra|reflexivity]. }
  assert (T : 0 < tiny <= / 1000000) by (unfold tiny; split; [apply Rinv_0_lt_compat; now apply (IZR_lt 0)|apply Rinv_le_contravar; [lra|now apply (IZR_le 1000000)]]).
  assert (UD : unit_dir (Quat h h h h) = Quat (1 / 2) (1 / 2) (1 / 2) (1 / 2)) by (unfold unit_dir; cbn [qx qy qz qw]; change (vals (lq _)) with (vals (lq (Quat h h h h))); rewrite VQ, NQ, EH; f_equal; lra).
  assert (FF : forall a b c : f32, finite a -> finite b -> finite c -> all_finite (l3 (V3 a b c))) by (intros; repeat (apply Forall_cons; [assumption|]); apply Forall_nil).
  set (n := (V3 (f32_ofZ (-1)) (f32_ofZ 0) (f32_ofZ (-2)), Quat h h h h) : node).
  assert (GN : good_node n). { split; [now apply FF|]. split; [repeat (apply Forall_cons; [assumption|]); apply Forall_nil|]. change (Rabs (norm (vals (lq (Quat h h h h))) - 1) <= 9 * ulp_half). rewrite VQ, NQ, uval, Rminus_diag_eq, Rabs_R0 by reflexivity. lra. }
  assert (RE : forall X, reach [n] X = norm X + norm [-1; 0; -2]). { intros X. unfold reach, offset. cbn [map fold_right]. unfold n, fst. rewrite V, H0, H1', H2'. ring. }
  assert (IR : forall X, 0 <= norm X <= 3 -> in_reach [n] X). { intros X HX. unfold in_reach, per_level. rewrite RE, uval. cbn [length pow INR]. apply Rle_trans with 14; [|now apply (IZR_le 14)]. nra. }
  assert (TE : forall v, 0 <= norm (vals (l3 v)) <= 3 -> 0 <= scene_error 1 (V3 (f32_ofZ 3) (f32_ofZ 0) (f32_ofZ 4)) [n] v <= / 10).
  { intros v HX. unfold scene_error, carry_error, per_level. rewrite !RE, V, H0, H3, H4, N5', uval. cbn [length pow INR]. set (a := norm (vals (l3 v)) + norm [-1; 0; -2]) in *. assert (0 <= a <= 6) by (unfold a; lra). clearbody a. nra. }
  assert (MA : 0 <= norm (vals (l3 (V3 (f32_ofZ 0) (f32_ofZ 2) (f32_ofZ 1)))) <= 3) by (rewrite V, H0, H1, H2; exact NA).
  assert (MB : 0 <= norm (vals (l3 (V3 (f32_ofZ 0) (f32_ofZ (-2)) (f32_ofZ (-2))))) <= 3) by (rewrite V, H0, H2'; exact NB).
  split; [split; [apply Forall_cons; [exact GN|apply Forall_nil]|split; [now apply FF|now apply IR]]|]. split; [split; [apply Forall_cons; [exact GN|apply Forall_nil]|split; [now apply FF|now apply IR]]|].
  split; [|split].
  - unfold true_depth, exact_carry, exact_lift. cbn [fold_left]. unfold n, fst, snd. rewrite UD, F, !V, H0, H1, H2, H3, H4, H1', H2'. cbv -[Rplus Rmult Ropp Rminus Rinv Rdiv IZR]. lra.
  - unfold true_depth, exact_carry, exact_lift. cbn [fold_left]. unfold n, fst, snd. rewrite UD, F, !V, H0, H2', H3, H4, H1'. cbv -[Rplus Rmult Ropp Rminus Rinv Rdiv IZR]. lra.
  - pose proof (TE _ MA) as A. pose proof (TE _ MB) as B. set (a := scene_error _ _ _ _) in A |- *. set (c := scene_error _ _ _ _) in B |- *. clearbody a c. rewrite uval. split; [lra|split; [lra|]].
    assert (/ (51 / 10) <= / (5 + a)) by (apply Rinv_le_contravar; lra). assert (/ (10 - c) <= / (99 / 10)) by (apply Rinv_le_contravar; lra). lra.
Qed.
