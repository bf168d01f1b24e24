(** * Properties: projection matrices in binary32 *)

From Coq Require Import ZArith Bool Reals List Lra Lia.
From Flocq Require Import Core IEEE754.BinarySingleNaN.
From Verif Require Import Scalar IEEE32 RealInst Types Outcome Spec SpecR SpecF32 SpecErr SpecProj FloatBasics FloatOps
  ModelVec ModelMat ModelTrig ModelTransform.
Import ListNotations.
Local Open Scope R_scope.
From Flocq Require Import Mult_error.
From Verif Require Import ErrLib LenLib OvfLib RelLib PfFloat NumLib.
From Verif Require Import PfProj.


(** The five orthographic matrices: every entry is within 3.1 half-ulps of the exact one, relatively. *)
Theorem C74_ortho : forall (L : Libm) (l r b t n f : f32),
  ortho_accurate (31 / 10) (lm4 (ortho (F32 L) l r b t)) (-1) 0 l r b t /\
  (all_finite [n; f] -> bounded_by (IZR (2 ^ 120)) [n; f] -> b2r n <> b2r f ->
   let d := b2r f - b2r n in
   ortho_accurate (31 / 10) (lm4 (orthoLH_ZO (F32 L) l r b t n f)) (1 / d) (- b2r n / d) l r b t /\
   ortho_accurate (31 / 10) (lm4 (orthoRH_ZO (F32 L) l r b t n f)) (-1 / d) (- b2r n / d) l r b t /\
   ortho_accurate (31 / 10) (lm4 (orthoLH_NO (F32 L) l r b t n f)) (2 / d) (- (b2r f + b2r n) / d) l r b t /\
   ortho_accurate (31 / 10) (lm4 (orthoRH_NO (F32 L) l r b t n f)) (-2 / d) (- (b2r f + b2r n) / d) l r b t).
Proof. exact C74_ortho_pf. Qed.
Print Assumptions C74_ortho.

(** The four perspective matrices, against a tangent that is accurate to k half-ulps: every entry is within k + 4.1
    half-ulps of the exact one, relatively. *)
Theorem C74_perspective : forall (L : Libm) (b : build),
  perspective_accurate (l_tan L) (fun fovy a n f c => exists m, perspectiveRH_ZO (F32 L) b fovy a n f = Ret m /\ c = lm4 m)
    (fun n f => f / (n - f)) (fun n f => - (f * n) / (f - n)) (-1) /\
  perspective_accurate (l_tan L) (fun fovy a n f c => exists m, perspectiveRH_NO (F32 L) b fovy a n f = Ret m /\ c = lm4 m)
    (fun n f => - (f + n) / (f - n)) (fun n f => - (2 * f * n) / (f - n)) (-1) /\
  perspective_accurate (l_tan L) (fun fovy a n f c => exists m, perspectiveLH_ZO (F32 L) b fovy a n f = Ret m /\ c = lm4 m)
    (fun n f => f / (f - n)) (fun n f => - (f * n) / (f - n)) 1 /\
  perspective_accurate (l_tan L) (fun fovy a n f c => exists m, perspectiveLH_NO (F32 L) b fovy a n f = Ret m /\ c = lm4 m)
    (fun n f => (f + n) / (f - n)) (fun n f => - (2 * f * n) / (f - n)) 1.
Proof. exact C74_perspective_pf. Qed.
Print Assumptions C74_perspective.

(** the box [-2,2] x [-1,1] meets the hypotheses of the orthographic theorem *)
Example C74_ortho_case : let l := f32_ofZ (-2) in let r := f32_ofZ 2 in let b := f32_ofZ (-1) in let t := f32_ofZ 1 in
  bounded_by (IZR (2 ^ 120)) [l; r; b; t] /\ all_finite [l; r; b; t] /\ b2r l <> b2r r /\ b2r b <> b2r t /\
  Forall in_range (ortho_entries (b2r l) (b2r r) (b2r b) (b2r t) (-1) 0).
Proof.
  cbv zeta. rewrite (ofZ_exact (-2) eq_refl), (ofZ_exact 2 eq_refl), (ofZ_exact (-1) eq_refl), (ofZ_exact 1 eq_refl).
  assert (B : 16 <= IZR (2 ^ 120)) by now apply (IZR_le 16).
  split; [|split; [|split; [lra|split; [lra|]]]].
  - repeat apply Forall_cons; [..|apply Forall_nil]; rewrite ofZ_exact by reflexivity; apply Rle_trans with 16; trivial; absl.
  - repeat apply Forall_cons; [..|apply Forall_nil]; vm_compute; reflexivity.
  - unfold ortho_entries. repeat apply Forall_cons; try apply Forall_nil; try (left; lra); apply mid_range; absl.
Qed.
(** field of view 2, aspect 2, depth range 1 to 3, with a correctly rounded tangent, meets those of the perspective one *)
Example C74_perspective_case : exists L : Libm, let fovy := f32_ofZ 2 in let aspect := f32_ofZ 2 in let n := f32_ofZ 1 in let f := f32_ofZ 3 in
  let T := tan (b2r fovy / 2) in all_finite [fovy; aspect; n; f] /\ in_range (b2r fovy) /\
  Forall moderate [b2r aspect; T; b2r n; b2r f] /\ b2r n <> b2r f /\
  (forall h, finite h -> b2r h = b2r fovy / 2 -> rel_close 1 (l_tan L h) T) /\
  (exists m, perspectiveRH_ZO (F32 L) Debug fovy aspect n f = Ret m) /\
  Forall in_range (persp_entries (b2r aspect) T (b2r f / (b2r n - b2r f)) (- (b2r f * b2r n) / (b2r f - b2r n)) (-1)).
Proof.
  pose proof tan1_bounds as T1. destruct (round_exists (tan 1)) as [c Hc]; [apply mid_range; absl|].
  exists (mkLibm (l_cos L0) (l_sin L0) (fun _ => c) (l_acos L0) (l_asin L0) (l_atan L0) (l_atan2 L0) (l_cosh L0) (l_sinh L0) (l_tanh L0)
    (l_acosh L0) (l_asinh L0) (l_atanh L0) (l_pow L0) (l_exp L0) (l_log L0) (l_log2 L0) (l_cbrt L0)).
  cbv zeta. rewrite (ofZ_exact 1 eq_refl), (ofZ_exact 2 eq_refl), (ofZ_exact 3 eq_refl). replace (2 / 2) with 1 by field.
  split; [|split; [|split; [|split; [lra|split; [|split]]]]].
  - repeat apply Forall_cons; [..|apply Forall_nil]; vm_compute; reflexivity.
  - apply mid_range; absl.
  - repeat apply Forall_cons; [..|apply Forall_nil]; apply mid_moderate; absl.
  - intros h _ _. exact Hc.
  - match goal with |- exists m, perspectiveRH_ZO ?S _ ?x ?y ?u ?v = _ => let p := eval unfold perspectiveRH_ZO in (perspectiveRH_ZO S Debug x y u v) in change (exists m, p = Ret m) end.
    match goal with |- context [cassert ?b ?t] => assert (G : cassert b t = Ret tt) by (vm_compute; reflexivity); rewrite G end. eexists. reflexivity.
  - assert (D : 1 / 2 <= 1 / tan 1 <= 1).
    { assert (E : 1 / tan 1 * tan 1 = 1) by (field; lra). split; apply Rmult_le_reg_r with (tan 1); lra. }
    unfold persp_entries. repeat apply Forall_cons; try apply Forall_nil; try (left; lra); apply mid_range; try absl.
    replace (1 / (2 * tan 1)) with (1 / tan 1 / 2) by (field; lra). absl.
Qed.
