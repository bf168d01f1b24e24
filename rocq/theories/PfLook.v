(** * Proofs: accuracy of view transforms *)
From Coq Require Import ZArith Bool Reals List Lra Lia.
From Flocq Require Import Core IEEE754.BinarySingleNaN.
From Verif Require Import Scalar IEEE32 RealInst Types Outcome Spec SpecR SpecMat SpecGeo SpecF32 SpecErr SpecOrd SpecDom SpecAcc SpecProj SpecLook FloatBasics FloatOps
  ModelVec ModelCommon ModelGeom ModelMat ModelMatrix ModelTransform ModelQuat ModelQuaternion F32Tac RealTac.
Import ListNotations.
Local Open Scope R_scope.
(*HEADER END*)
From Coq Require Import Psatz.
From Verif Require Import ErrLib OvfLib LenLib RelLib PfErr PfOvf PfLen PfQuatAcc NumLib RotLib PfRot VecErrLib.

Lemma tiny_u : 0 < tiny <= / IZR (2 ^ 60) * (u / 100000000).
Proof.
  split; [apply tiny_pos|]. rewrite uval. unfold tiny. apply Rle_trans with (/ IZR (2 ^ 60 * (16777216 * 100000000))).
  - apply Rinv_le_contravar; [now apply (IZR_lt 0)|now apply IZR_le].
  - rewrite !mult_IZR, !Rinv_mult. right. field. repeat split; apply not_0_IZR; discriminate.
Qed.
Lemma small60 : 0 < / IZR (2 ^ 60) <= / 1000000. Proof. split; [apply Rinv_0_lt_compat; now apply (IZR_lt 0)|]. apply Rinv_le_contravar; [lra|now apply (IZR_le 1000000)]. Qed.

(** the viewing direction *)
Lemma direction_near L (eye center : vec3 f32) : all_finite (l3 eye) -> all_finite (l3 center) ->
  let d := vsub (vals (l3 center)) (vals (l3 eye)) in / IZR (2 ^ 47) <= norm d <= IZR (2 ^ 61) -> norm (vals (l3 eye)) <= IZR (2 ^ 61) ->
  vnear (951/100 * u) (normalize3 (F32 L) (vec3_sub (F32 L) center eye)) (unit_of d).
Proof.
  intros Fe Fc d Hd He. pose proof u_val as U. pose proof tiny_u as T. pose proof small60 as S6.
  assert (P : 0 < norm d) by (eapply Rlt_le_trans; [|apply Hd]; apply Rinv_0_lt_compat; now apply (IZR_lt 0)).
  assert (Bc : norm (vals (l3 center)) <= IZR (2 ^ 62)).
  { apply Rle_trans with (norm (vals (l3 eye)) + norm d).
    - apply (norm_from_parts (vals (l3 eye)) d); try apply Rle_refl; try reflexivity. unfold d. destruct eye, center. unfold vadd, vsub. cbn. lring.
    - replace (IZR (2 ^ 62)) with (IZR (2 ^ 61) + IZR (2 ^ 61)) by (rewrite <- plus_IZR; reflexivity). lra. }
  set (v := vec3_sub (F32 L) center eye).
  assert (Big : forall w, w <= IZR (2 ^ 62) -> w <= IZR (2 ^ 120)) by (intros w Hw; eapply Rle_trans; [exact Hw|now apply IZR_le]).
  assert (Be : bounded_by (IZR (2 ^ 120)) (l3 eye)) by (apply bounded_of_norm, Big; eapply Rle_trans; [exact He|now apply IZR_le]).
  assert (Bc' : bounded_by (IZR (2 ^ 120)) (l3 center)) by (apply bounded_of_norm, Big; exact Bc).
  assert (V : all_finite (l3 v) /\ Forall2 (fun a b => Rabs (a - b) <= u * Rabs b + 0) (vals (l3 v)) d).
  { unfold v, d. destruct eye as [e0 e1 e2], center as [c0 c1 c2]. change (l3 (vec3_sub (F32 L) (V3 c0 c1 c2) (V3 e0 e1 e2))) with [Bminus mode_NE c0 e0; Bminus mode_NE c1 e1; Bminus mode_NE c2 e2].
    unfold all_finite, bounded_by, l3 in *. cbn [x3 y3 z3] in *.
    apply Forall_cons_iff in Fe as [Fe0 Fe]. apply Forall_cons_iff in Fe as [Fe1 Fe]. apply Forall_cons_iff in Fe as [Fe2 _].
    apply Forall_cons_iff in Fc as [Fc0 Fc]. apply Forall_cons_iff in Fc as [Fc1 Fc]. apply Forall_cons_iff in Fc as [Fc2 _].
    apply Forall_cons_iff in Be as [Be0 Be]. apply Forall_cons_iff in Be as [Be1 Be]. apply Forall_cons_iff in Be as [Be2 _].
    apply Forall_cons_iff in Bc' as [Bc0 Bc']. apply Forall_cons_iff in Bc' as [Bc1 Bc']. apply Forall_cons_iff in Bc' as [Bc2 _].
    destruct (rel_minus c0 e0 Fc0 Fe0 Bc0 Be0) as [A0 K0]. destruct (rel_minus c1 e1 Fc1 Fe1 Bc1 Be1) as [A1 K1]. destruct (rel_minus c2 e2 Fc2 Fe2 Bc2 Be2) as [A2 K2].
    split; [repeat (apply Forall_cons; [assumption|]); apply Forall_nil|]. unfold vals, vsub. cbn [map zip].
    repeat (apply Forall2_cons; [lra|]). apply Forall2_nil. }
  destruct V as [Fv Kv]. assert (Ld : length d = 3%nat) by (unfold d; now apply vsub_len).
  pose proof (norm_diff (vals (l3 v)) d u 0 eq_refl Ld ltac:(lra) ltac:(lra) Kv) as Nd. rewrite Rmult_0_r, Rplus_0_r in Nd.
  assert (Nv : vnear (u * norm d) v d) by (split; [exact Ld|split; assumption]).
  destruct (near_norm _ _ _ Nv) as (N1 & N2 & _).
  assert (K47 : / IZR (2 ^ 47) = 2 * / IZR (2 ^ 48)) by (change (IZR (2 ^ 47)) with 140737488355328; change (IZR (2 ^ 48)) with 281474976710656; lra).
  assert (K62 : IZR (2 ^ 62) = 2 * IZR (2 ^ 61)) by (rewrite <- mult_IZR; reflexivity).
  pose proof (normalize_near L _ v d Nv P) as Q.
  eapply near_weaken; [|apply Q; split; nra].
  replace (2 * (u * norm d) / norm d) with (2 * u) by (field; lra). nra.
Qed.

Section Frame.
Variable L : Libm.
Variables (up : vec3 f32) (s : R).
Let UP := vals (l3 up).
Hypothesis Fup : all_finite (l3 up).
Hypothesis Hup : / IZR (2 ^ 30) <= norm UP <= IZR (2 ^ 60).
Hypothesis Hs : / 1000 <= s <= 1.
Lemma up_pos : 0 < norm UP. Proof. eapply Rlt_le_trans; [|apply Hup]. apply Rinv_0_lt_compat. now apply (IZR_lt 0). Qed.
Lemma tiny_up : 4 * tiny <= / 1000 * u * norm UP.
Proof.
  pose proof tiny_u as T. pose proof u_val as U. assert (/ IZR (2 ^ 60) <= norm UP) by (eapply Rle_trans; [|apply Hup]; apply Rinv_le_contravar; [now apply (IZR_lt 0)|now apply IZR_le]).
  assert (/ IZR (2 ^ 60) * (u / 100000000) <= norm UP * (u / 100000000)) by (apply Rmult_le_compat_r; lra). lra.
Qed.
(** the x axis from a cross product of the direction with up, in either order *)
Lemma side_near (w : vec3 f32) (W : list R) (ew : R) (c : vec3 f32) (C : list R) : norm W = 1 -> vnear ew w W -> ew <= s / 1000 ->
  (c = cross (F32 L) up w /\ C = cross_l UP W) \/ (c = cross (F32 L) w up /\ C = cross_l W UP) -> s * norm UP <= norm C ->
  vnear (2 * (ew + 286/100 * u) / s + 751/100 * u) (normalize3 (F32 L) c) (unit_of C).
Proof.
  intros NW Vw Hew HC Hc. pose proof u_val as U. pose proof up_pos as PU. pose proof tiny_up as TU. pose proof tiny_u as T. pose proof small60 as S6.
  destruct (near_norm _ _ _ Vw) as (N1 & N2 & Pe). rewrite NW in *. assert (Ew : ew <= / 1000) by lra.
  assert (Bup : norm UP <= IZR (2 ^ 62)) by (eapply Rle_trans; [apply Hup|now apply IZR_le]).
  assert (Bw : norm (vals (l3 w)) <= IZR (2 ^ 62)) by (apply Rle_trans with 2; [lra|now apply (IZR_le 2)]).
  assert (Q : 285/100 * u * (norm (vals (l3 w)) * norm UP) <= 2855/1000 * u * norm UP).
  { assert (norm (vals (l3 w)) * norm UP <= 1001/1000 * norm UP) by (apply Rmult_le_compat_r; lra).
    assert (u * (norm (vals (l3 w)) * norm UP) <= u * (1001/1000 * norm UP)) by (apply Rmult_le_compat_l; lra). lra. }
  assert (V : vnear ((ew + 286/100 * u) * norm UP) c C).
  { destruct HC as [[-> ->]|[-> ->]].
    - eapply near_weaken; [|apply (cross_near L 0 ew up w UP W (near_exact up Fup) Vw Bup Bw)]. fold UP. rewrite (Rmult_comm (norm UP) (norm (vals (l3 w)))). lra.
    - eapply near_weaken; [|apply (cross_near L ew 0 w up W UP Vw (near_exact up Fup) Bw Bup)]. fold UP. lra. }
  destruct (near_norm _ _ _ V) as (M1 & M2 & _).
  assert (CB : norm C <= norm UP).
  { destruct Vw as (LW & _). destruct HC as [[_ ->]|[_ ->]]; (eapply Rle_trans; [apply cross_norm; [reflexivity || exact LW|reflexivity || exact LW]|]); rewrite NW; lra. }
  assert (PC : 0 < norm C) by (assert (0 < s * norm UP) by (apply Rmult_lt_0_compat; lra); lra).
  assert (E : (ew + 286/100 * u) * norm UP <= / 500 * (s * norm UP)).
  { replace (/ 500 * (s * norm UP)) with (s / 500 * norm UP) by field. apply Rmult_le_compat_r; lra. }
  assert (R1 : / IZR (2 ^ 48) <= norm (vals (l3 c)) <= IZR (2 ^ 62)).
  { split.
    - assert (s * norm UP <= 2 * norm (vals (l3 c))) by lra. assert (/ 1000 * norm UP <= s * norm UP) by (apply Rmult_le_compat_r; lra).
      assert (/ IZR (2 ^ 48) <= / 2000 * / IZR (2 ^ 30)); [|lra]. change (IZR (2 ^ 48)) with 281474976710656. change (IZR (2 ^ 30)) with 1073741824. lra.
    - apply Rle_trans with (2 * IZR (2 ^ 60)); [|rewrite <- mult_IZR; now apply IZR_le]. assert (s * norm UP <= 1 * norm UP) by (apply Rmult_le_compat_r; lra). lra. }
  eapply near_weaken; [|apply (normalize_near L _ c C V PC R1)].
  assert (2 * ((ew + 286 / 100 * u) * norm UP) / norm C <= 2 * (ew + 286/100 * u) / s); [|nra].
  unfold Rdiv. rewrite !Rmult_assoc. apply Rmult_le_compat_l; [lra|]. apply Rmult_le_compat_l; [lra|].
  apply Rmult_le_reg_r with (norm C); [exact PC|]. rewrite Rmult_assoc, Rinv_l, Rmult_1_r by lra. apply Rmult_le_reg_l with s; [lra|]. rewrite <- Rmult_assoc, Rinv_r, Rmult_1_l by lra. exact Hc.
Qed.
(** the y axis *)
Lemma top_near (w x : vec3 f32) (W X : list R) (ew ex : R) : norm W = 1 -> norm X = 1 -> vnear ew w W -> vnear ex x X -> ew <= / 1000 -> ex <= / 100 ->
  vnear (1001/1000 * ex + ew + 29/10 * u) (cross (F32 L) w x) (cross_l W X) /\ vnear (1001/1000 * ex + ew + 29/10 * u) (cross (F32 L) x w) (cross_l X W).
Proof.
  clear Fup Hup Hs UP up s. intros NW NX Vw Vx Hw Hx. pose proof u_val as U. pose proof tiny_u as T. pose proof small60 as S6.
  destruct (near_norm _ _ _ Vw) as (A1 & _ & P1). destruct (near_norm _ _ _ Vx) as (B1 & _ & P2). rewrite NW in A1. rewrite NX in B1.
  assert (Bw : norm (vals (l3 w)) <= IZR (2 ^ 62)) by (apply Rle_trans with 2; [lra|now apply (IZR_le 2)]).
  assert (Bx : norm (vals (l3 x)) <= IZR (2 ^ 62)) by (apply Rle_trans with 2; [lra|now apply (IZR_le 2)]).
  pose proof (norm_nn (vals (l3 w))) as NNw. pose proof (norm_nn (vals (l3 x))) as NNx.
  assert (Q : norm (vals (l3 w)) * norm (vals (l3 x)) <= 1001/1000 * (101/100)) by (apply Rmult_le_compat; lra).
  assert (Q' : u * (norm (vals (l3 w)) * norm (vals (l3 x))) <= u * (1001/1000 * (101/100))) by (apply Rmult_le_compat_l; lra).
  assert (Q1 : ex * norm (vals (l3 w)) <= ex * (1001/1000)) by (apply Rmult_le_compat_l; lra).
  split.
  - eapply near_weaken; [|apply (cross_near L ew ex w x W X Vw Vx Bw Bx)]. rewrite NW.
    (* the error of x is not amplified by more than |W| = 1 *)
    assert (ew * norm (vals (l3 x)) <= ew * (1 + ex)) by (apply Rmult_le_compat_l; lra). assert (ew * ex <= / 1000 * ex) by (apply Rmult_le_compat_r; lra). nra.
  - eapply near_weaken; [|apply (cross_near L ex ew x w X W Vx Vw Bx Bw)]. rewrite NX, (Rmult_comm (norm (vals (l3 x)))). nra.
Qed.
End Frame.

Lemma near_opp e a A : vnear e a A -> vnear e (V3 (Bopp (x3 a)) (Bopp (y3 a)) (Bopp (z3 a))) (vscale (-1) A).
Proof.
  intros (LA & F & K). destruct a as [a0 a1 a2]. list3 A. split; [reflexivity|]. unfold all_finite, l3 in *. cbn [x3 y3 z3] in *. split.
  - apply Forall_cons_iff in F as [F0 F]. apply Forall_cons_iff in F as [F1 F]. apply Forall_cons_iff in F as [F2 _].
    repeat (apply Forall_cons; [now apply finite_opp|]). apply Forall_nil.
  - unfold vals in *. cbn [map] in *. rewrite !Bopp_b2r. eapply Rle_trans; [|exact K]. right. unfold norm. f_equal. unfold ip, vsub, vscale. cbn. ring.
Qed.
(** a view matrix assembled from computed axes *)
Lemma assemble L (x y w eye : vec3 f32) (X Y W : list R) e : vnear e x X -> vnear e y Y -> vnear e w W -> norm X = 1 -> norm Y <= 1 -> norm W = 1 -> e <= / 10 ->
  all_finite (l3 eye) -> norm (vals (l3 eye)) <= IZR (2 ^ 61) ->
  let E := vals (l3 eye) in let t := (e + 4 * u) * norm E + 3 * tiny in
  forall (dx dy dw z0 o1 : f32), b2r z0 = 0 -> b2r o1 = 1 -> finite z0 -> finite o1 ->
  (finite (dot3 (F32 L) x eye) -> finite dx /\ b2r dx = - b2r (dot3 (F32 L) x eye)) ->
  (finite (dot3 (F32 L) y eye) -> finite dy /\ b2r dy = - b2r (dot3 (F32 L) y eye)) ->
  finite dw -> Rabs (b2r dw - - ip W E) <= t ->
  close_each (view_tolerance e t) [x3 x; x3 y; x3 w; z0; y3 x; y3 y; y3 w; z0; z3 x; z3 y; z3 w; z0; dx; dy; dw; o1]
    (affine (build_mat 3 (fun i j => nth j (nth i [X; Y; W] []) 0)) [- ip X E; - ip Y E; - ip W E]).
Proof.
  intros Vx Vy Vw NX NY NW He Fe Be E t dx dy dw z0 o1 Z1 O1 FZ FO Hx Hy Fw Hw. pose proof u_val as U.
  assert (D : forall a A, vnear e a A -> norm A <= 1 -> finite (dot3 (F32 L) a eye) /\ Rabs (b2r (dot3 (F32 L) a eye) - ip A E) <= t).
  { intros a A Va NA. destruct (near_norm _ _ _ Va) as (B1 & _ & _).
    assert (Ba : norm (vals (l3 a)) <= IZR (2 ^ 62)) by (apply Rle_trans with 2; [lra|now apply (IZR_le 2)]).
    assert (Be' : norm (vals (l3 eye)) <= IZR (2 ^ 62)) by (eapply Rle_trans; [exact Be|now apply IZR_le]).
    destruct (dot_near L e a A eye Va Fe Ba Be') as [F K]. split; [exact F|]. eapply Rle_trans; [exact K|]. unfold t, E. apply Rplus_le_compat_r. apply Rmult_le_compat_r; [apply norm_nn|]. nra. }
  destruct (D x X Vx ltac:(lra)) as [Fdx Kdx]. destruct (D y Y Vy NY) as [Fdy Kdy]. destruct (Hx Fdx) as [Fx Ex]. destruct (Hy Fdy) as [Fy Ey].
  assert (Op : forall p q, Rabs (p - q) <= t -> Rabs (- p - - q) <= t) by (intros p q K; replace (- p - - q) with (- (p - q)) by ring; now rewrite Rabs_Ropp).
  apply Op in Kdx. apply Op in Kdy. rewrite <- Ex in Kdx. rewrite <- Ey in Kdy. clearbody t. clear D Hx Hy Op.
  pose proof (near_all_close _ _ _ Vx) as Cx. pose proof (near_all_close _ _ _ Vy) as Cy. pose proof (near_all_close _ _ _ Vw) as Cw.
  destruct Vx as (LX & _). destruct Vy as (LY & _). destruct Vw as (LW & _). unfold all_close, l3 in Cx, Cy, Cw.
  destruct X as [|X0 [|X1 [|X2 [|? ?]]]]; try discriminate LX. destruct Y as [|Y0 [|Y1 [|Y2 [|? ?]]]]; try discriminate LY. destruct W as [|W0 [|W1 [|W2 [|? ?]]]]; try discriminate LW.
  apply Forall2_cons_iff in Cx as [Cx0 Cx]. apply Forall2_cons_iff in Cx as [Cx1 Cx]. apply Forall2_cons_iff in Cx as [Cx2 _].
  apply Forall2_cons_iff in Cy as [Cy0 Cy]. apply Forall2_cons_iff in Cy as [Cy1 Cy]. apply Forall2_cons_iff in Cy as [Cy2 _].
  apply Forall2_cons_iff in Cw as [Cw0 Cw]. apply Forall2_cons_iff in Cw as [Cw1 Cw]. apply Forall2_cons_iff in Cw as [Cw2 _].
  unfold close_each, view_tolerance, affine, build_mat, ent. set (ix := ip [X0; X1; X2] E) in *. set (iy := ip [Y0; Y1; Y2] E) in *. set (iw := ip [W0; W1; W2] E) in *. clearbody ix iy iw. cbn.
  assert (Z : finite z0 /\ Rabs (b2r z0 - 0) <= 0) by (split; [exact FZ|]; rewrite Z1, Rminus_0_r, Rabs_R0; lra).
  assert (O : finite o1 /\ Rabs (b2r o1 - 1) <= 0) by (split; [exact FO|]; rewrite O1, Rminus_diag_eq, Rabs_R0 by reflexivity; lra).
  repeat (apply Forall2_cons; [cbn [fst snd]; first [assumption|exact (conj Fx Kdx)|exact (conj Fy Kdy)|exact (conj Fw Hw)]|]). apply Forall2_nil.
Qed.
Lemma cross_neg A B : length A = 3%nat -> length B = 3%nat -> cross_l B (vscale (-1) A) = cross_l A B.
Proof. intros HA HB. list3 A. list3 B. unfold cross_l, vscale. cbn. lring. Qed.
Lemma cross_neg' A B : length A = 3%nat -> length B = 3%nat -> cross_l (vscale (-1) A) B = cross_l B A.
Proof. intros HA HB. list3 A. list3 B. unfold cross_l, vscale. cbn. lring. Qed.
Lemma cross_swap A B : length A = 3%nat -> length B = 3%nat -> cross_l B A = vscale (-1) (cross_l A B).
Proof. intros HA HB. list3 A. list3 B. unfold cross_l, vscale. cbn. lring. Qed.

(** lookAtRH and lookAtLH in binary32: every entry of the linear part is within (25/s + 20) half-ulps of the exact view
    matrix, where s bounds the sine of the angle between the viewing direction and up from below; the translation is
    within (25/s + 24) half-ulps times the distance of the eye from the origin, plus three times the smallest positive
    number; the last row is exact. *)
Lemma C89_lookAt_pf : forall (L : Libm) (eye center up : vec3 f32) (s : R),
  all_finite (l3 eye) -> all_finite (l3 center) -> all_finite (l3 up) ->
  let E := vals (l3 eye) in let U := vals (l3 up) in let d := vsub (vals (l3 center)) E in let f := unit_of d in
  / IZR (2 ^ 47) <= norm d <= IZR (2 ^ 61) -> / IZR (2 ^ 30) <= norm U <= IZR (2 ^ 60) -> norm E <= IZR (2 ^ 61) ->
  / 1000 <= s -> s * norm U <= norm (cross_l f U) ->
  let tol := view_tolerance ((25 / s + 20) * ulp_half) ((25 / s + 24) * ulp_half * norm E + 3 * tiny) in
  close_each tol (lm4 (lookAtRH (F32 L) eye center up)) (view_matrix (vscale (-1) f) U E) /\
  close_each tol (lm4 (lookAtLH (F32 L) eye center up)) (view_matrix f U E).
Proof.
  intros L eye center up s Fe Fc Fu E UP d f Hd Hu He Hs HC tol. pose proof u_val as U. pose proof tiny_u as T. pose proof small60 as S6.
  assert (Ld : length d = 3%nat) by (unfold d; now apply vsub_len). assert (Lf : length f = 3%nat) by (unfold f, unit_of; now rewrite vscale_len). assert (LU : length UP = 3%nat) by reflexivity.
  assert (PU : 0 < norm UP) by (apply up_pos; exact Hu).
  assert (Pd : 0 < norm d) by (eapply Rlt_le_trans; [|apply Hd]; apply Rinv_0_lt_compat; now apply (IZR_lt 0)).
  assert (Nf : norm f = 1) by (apply unit_norm; assumption).
  assert (S1 : s <= 1).
  { apply Rmult_le_reg_r with (norm UP); [exact PU|]. eapply Rle_trans; [exact HC|]. eapply Rle_trans; [apply cross_norm; assumption|]. rewrite Nf. lra. }
  assert (Vf : vnear (951/100 * u) (normalize3 (F32 L) (vec3_sub (F32 L) center eye)) f) by (apply direction_near; assumption).
  pose (fw := normalize3 (F32 L) (vec3_sub (F32 L) center eye) : vec3 f32). change (vnear (951/100 * u) fw f) in Vf.
  assert (HC' : s * norm UP <= norm (cross_l UP f)) by (rewrite (cross_swap f UP), norm_scale3, Rabs_left by (assumption || lra); lra).
  assert (PC : 0 < norm (cross_l f UP)) by (assert (0 < s * norm UP) by (apply Rmult_lt_0_compat; lra); lra).
  assert (PC' : 0 < norm (cross_l UP f)) by (assert (0 < s * norm UP) by (apply Rmult_lt_0_compat; lra); lra).
  assert (Is : 1 <= / s <= 1000) by (split; [rewrite <- Rinv_1; apply Rinv_le_contravar; lra|rewrite <- (Rinv_inv 1000); apply Rinv_le_contravar; lra]).
  set (e := (25 / s + 20) * u) in *.
  assert (Tol : tol = view_tolerance e ((e + 4 * u) * norm E + 3 * tiny)) by (unfold tol, e; do 2 f_equal; ring).
  assert (Iu : u <= / s * u <= / 1000) by (split; nra).
  assert (Ex : 2 * (951/100 * u + 286/100 * u) / s + 751/100 * u <= e) by (unfold e, Rdiv; nra).
  assert (Ey : 1001/1000 * (2 * (951/100 * u + 286/100 * u) / s + 751/100 * u) + 951/100 * u + 29/10 * u <= e) by (unfold e, Rdiv; nra).
  assert (Ex' : 2 * (951/100 * u + 286/100 * u) / s + 751/100 * u <= / 100) by (unfold Rdiv; nra).
  assert (Ew : 951/100 * u <= e) by (unfold e, Rdiv; nra). assert (E1 : e <= / 10) by (unfold e, Rdiv; nra).
  assert (Bf : norm (vals (l3 fw)) <= IZR (2 ^ 62)) by (destruct (near_norm _ _ _ Vf) as (B1 & _); apply Rle_trans with 2; [lra|now apply (IZR_le 2)]).
  assert (Be' : norm (vals (l3 eye)) <= IZR (2 ^ 62)) by (eapply Rle_trans; [exact He|now apply IZR_le]).
  destruct (dot_near L _ fw f eye Vf Fe Bf Be') as [Fd Kd].
  assert (Kd' : Rabs (b2r (dot3 (F32 L) fw eye) - ip f E) <= (e + 4 * u) * norm E + 3 * tiny).
  { eapply Rle_trans; [exact Kd|]. apply Rplus_le_compat_r. fold E. apply Rmult_le_compat_r; [apply norm_nn|]. destruct (near_norm _ _ _ Vf) as (B1 & _). assert (B2 : norm (vals (l3 fw)) <= 13/10) by lra. assert (u * norm (vals (l3 fw)) <= u * (13/10)) by (apply Rmult_le_compat_l; lra). lra. }
  rewrite Tol. split.
  - pose (x := normalize3 (F32 L) (cross (F32 L) fw up) : vec3 f32).
    assert (Vx : vnear (2 * (951/100 * u + 286/100 * u) / s + 751/100 * u) x (unit_of (cross_l f UP))).
    { apply (side_near L up s Fu Hu (conj Hs S1) fw f _ (cross (F32 L) fw up)); try assumption; [lra|]. right. now split. }
    assert (NX : norm (unit_of (cross_l f UP)) = 1) by (apply unit_norm; [reflexivity|exact PC]).
    destruct (top_near L fw x f _ _ _ Nf NX Vf Vx ltac:(lra) Ex') as [_ Vy].
    assert (NY : norm (cross_l (unit_of (cross_l f UP)) f) <= 1) by (eapply Rle_trans; [apply cross_norm; [unfold unit_of; now rewrite vscale_len|exact Lf]|]; rewrite NX, Nf; lra).
    unfold view_matrix, axis_y, axis_x. rewrite cross_neg, cross_neg' by (assumption || unfold unit_of; now rewrite vscale_len).
    pose proof (assemble L x (cross (F32 L) x fw) (V3 (Bopp (x3 fw)) (Bopp (y3 fw)) (Bopp (z3 fw))) eye _ _ _ e (near_weaken _ _ _ _ Ex Vx) (near_weaken _ _ _ _ Ey Vy) (near_opp _ _ _ (near_weaken _ _ _ _ Ew Vf))
      NX NY ltac:(rewrite norm_scale3, Nf, Rabs_left by lra; lra) E1 Fe He
      (Bopp (dot3 (F32 L) x eye)) (Bopp (dot3 (F32 L) (cross (F32 L) x fw) eye)) (dot3 (F32 L) fw eye) (f32_ofZ 0) (f32_ofZ 1) eq_refl ltac:(vm_compute; lra) eq_refl eq_refl) as A.
    apply A; clear A.
    + intros F. split; [now apply finite_opp|apply Bopp_b2r].
    + intros F. split; [now apply finite_opp|apply Bopp_b2r].
    + exact Fd.
    + replace (- ip (vscale (-1) f) (vals (l3 eye))) with (ip f E); [exact Kd'|]. clear -Lf. clearbody f. list3 f. unfold E. destruct eye as [e0 e1 e2]. unfold ip, vscale. cbn. ring.
  - pose (x := normalize3 (F32 L) (cross (F32 L) up fw) : vec3 f32).
    assert (Vx : vnear (2 * (951/100 * u + 286/100 * u) / s + 751/100 * u) x (unit_of (cross_l UP f))).
    { apply (side_near L up s Fu Hu (conj Hs S1) fw f _ (cross (F32 L) up fw)); try assumption; [lra|]. left. now split. }
    assert (NX : norm (unit_of (cross_l UP f)) = 1) by (apply unit_norm; [reflexivity|exact PC']).
    destruct (top_near L fw x f _ _ _ Nf NX Vf Vx ltac:(lra) Ex') as [Vy _].
    assert (NY : norm (cross_l f (unit_of (cross_l UP f))) <= 1) by (eapply Rle_trans; [apply cross_norm; [exact Lf|unfold unit_of; now rewrite vscale_len]|]; rewrite NX, Nf; lra).
    unfold view_matrix, axis_y, axis_x.
    pose proof (assemble L x (cross (F32 L) fw x) fw eye _ _ _ e (near_weaken _ _ _ _ Ex Vx) (near_weaken _ _ _ _ Ey Vy) (near_weaken _ _ _ _ Ew Vf)
      NX NY Nf E1 Fe He
      (Bopp (dot3 (F32 L) x eye)) (Bopp (dot3 (F32 L) (cross (F32 L) fw x) eye)) (Bopp (dot3 (F32 L) fw eye)) (f32_ofZ 0) (f32_ofZ 1) eq_refl ltac:(vm_compute; lra) eq_refl eq_refl) as A.
    apply A; clear A.
    + intros F. split; [now apply finite_opp|apply Bopp_b2r].
    + intros F. split; [now apply finite_opp|apply Bopp_b2r].
    + now apply finite_opp.
    + rewrite Bopp_b2r. match goal with |- Rabs (- ?p - - ?q) <= _ => replace (- p - - q) with (- (p - q)) by ring end. now rewrite Rabs_Ropp.
Qed.

(** ** Rigidity *)
Lemma frame_norm W X v0 v1 v2 : length W = 3%nat -> length X = 3%nat -> norm W = 1 -> norm X = 1 -> ip X W = 0 ->
  norm [ip X [v0; v1; v2]; ip (cross_l W X) [v0; v1; v2]; ip W [v0; v1; v2]] = norm [v0; v1; v2].
Proof.
  intros LW LX NW NX O. apply norm1_ip in NW, NX. list3 W. list3 X. unfold norm. f_equal.
  assert (G : ip (cross_l [a; a0; a1] [a2; a3; a4]) [v0; v1; v2] * ip (cross_l [a; a0; a1] [a2; a3; a4]) [v0; v1; v2] =
    ip [a; a0; a1] [a; a0; a1] * (ip [a2; a3; a4] [a2; a3; a4] * ip [v0; v1; v2] [v0; v1; v2] - ip [a2; a3; a4] [v0; v1; v2] * ip [a2; a3; a4] [v0; v1; v2])
    - ip [a2; a3; a4] [a; a0; a1] * (ip [a2; a3; a4] [a; a0; a1] * ip [v0; v1; v2] [v0; v1; v2] - ip [a; a0; a1] [v0; v1; v2] * ip [a2; a3; a4] [v0; v1; v2])
    + ip [a; a0; a1] [v0; v1; v2] * (ip [a2; a3; a4] [a; a0; a1] * ip [a2; a3; a4] [v0; v1; v2] - ip [a; a0; a1] [v0; v1; v2] * ip [a2; a3; a4] [a2; a3; a4]))
    by (unfold ip, cross_l; cbn; ring).
  rewrite NW, NX, O in G. set (p := ip [a2; a3; a4] [v0; v1; v2]) in *. set (q := ip [a; a0; a1] [v0; v1; v2]) in *. set (r := ip (cross_l [a; a0; a1] [a2; a3; a4]) [v0; v1; v2]) in *.
  set (n := ip [v0; v1; v2] [v0; v1; v2]) in *. unfold ip. cbn [zip fold_right]. rewrite Rplus_0_r. lra.
Qed.
Lemma sum3_bound d0 d1 d2 v0 v1 v2 e : Rabs d0 <= e -> Rabs d1 <= e -> Rabs d2 <= e -> Rabs (d0 * v0 + d1 * v1 + d2 * v2) <= 1733/1000 * e * norm [v0; v1; v2].
Proof.
  intros H0 H1 H2. assert (Pe : 0 <= e) by (pose proof (Rabs_pos d0); lra).
  assert (A : ip [d0; d1; d2] [v0; v1; v2] = d0 * v0 + d1 * v1 + d2 * v2) by (unfold ip; cbn; ring). rewrite <- A.
  eapply Rle_trans; [apply ip_norm; reflexivity|]. apply Rmult_le_compat_r; [apply norm_nn|]. apply sq_le_norm; [lra|]. unfold ip. cbn.
  assert (Q : forall d, Rabs d <= e -> d * d <= e * e) by (intros d K; rewrite <- abs_sq; pose proof (Rabs_pos d); apply Rmult_le_compat; lra).
  pose proof (Q _ H0). pose proof (Q _ H1). pose proof (Q _ H2). assert (0 <= e * e) by (apply Rmult_le_pos; exact Pe). lra.
Qed.
(** distances between images under a matrix near a view matrix *)
Lemma near_rigid e t (m : mat4 f32) W X T p q : 0 <= e -> length W = 3%nat -> length X = 3%nat -> norm W = 1 -> norm X = 1 -> ip X W = 0 ->
  close_each (view_tolerance e t) (lm4 m) (affine (build_mat 3 (fun i j => nth j (nth i [X; cross_l W X; W] []) 0)) T) -> length p = 3%nat -> length q = 3%nat ->
  Rabs (norm (vsub (mapply 4 (vals (lm4 m)) (point p)) (mapply 4 (vals (lm4 m)) (point q))) - norm (vsub p q)) <= 301/100 * e * norm (vsub p q).
Proof.
  intros Pe LW LX NW NX O H Lp Lq. list3 p. list3 q. set (v0 := a - a2). set (v1 := a0 - a3). set (v2 := a1 - a4).
  destruct m as [[m00 m10 m20 m30] [m01 m11 m21 m31] [m02 m12 m22 m32] [m03 m13 m23 m33]].
  assert (LY : length (cross_l W X) = 3%nat) by reflexivity. pose proof (frame_norm W X v0 v1 v2 LW LX NW NX O) as FN.
  set (Y := cross_l W X) in *. clearbody Y. clear NW NX O. unfold close_each in H. change (lm4 _) with [m00; m10; m20; m30; m01; m11; m21; m31; m02; m12; m22; m32; m03; m13; m23; m33] in H |- *.
  destruct W as [|W0 [|W1 [|W2 [|? ?]]]]; try discriminate LW. destruct X as [|X0 [|X1 [|X2 [|? ?]]]]; try discriminate LX. destruct Y as [|Y0 [|Y1 [|Y2 [|? ?]]]]; try discriminate LY.
  unfold view_tolerance, affine, build_mat, ent in H. cbn in H.
  apply Forall2_cons_iff in H as [[_ H00] H]. apply Forall2_cons_iff in H as [[_ H10] H]. apply Forall2_cons_iff in H as [[_ H20] H]. apply Forall2_cons_iff in H as [[_ H30] H].
  apply Forall2_cons_iff in H as [[_ H01] H]. apply Forall2_cons_iff in H as [[_ H11] H]. apply Forall2_cons_iff in H as [[_ H21] H]. apply Forall2_cons_iff in H as [[_ H31] H].
  apply Forall2_cons_iff in H as [[_ H02] H]. apply Forall2_cons_iff in H as [[_ H12] H]. apply Forall2_cons_iff in H as [[_ H22] H]. apply Forall2_cons_iff in H as [[_ H32] _].
  cbn [fst snd] in *.
  assert (Z : forall z : f32, Rabs (b2r z - 0) <= 0 -> b2r z = 0) by (intros z K; apply Rabs_le_inv in K; lra). apply Z in H30, H31, H32. clear Z.
  change (vsub [a; a0; a1] [a2; a3; a4]) with [v0; v1; v2].
  set (i0 := (b2r m00 * v0 + b2r m01 * v1 + b2r m02 * v2)). set (i1 := (b2r m10 * v0 + b2r m11 * v1 + b2r m12 * v2)). set (i2 := (b2r m20 * v0 + b2r m21 * v1 + b2r m22 * v2)).
  replace (norm (vsub (mapply 4 _ (point [a; a0; a1])) (mapply 4 _ (point [a2; a3; a4])))) with (norm [i0; i1; i2]).
  2:{ unfold norm. f_equal. unfold mapply, sum_to, ent, vals, vsub, point, ip. cbn. rewrite H30, H31, H32. unfold i0, i1, i2, v0, v1, v2. ring. }
  clear H30 H31 H32.
  set (R0 := ip [X0; X1; X2] [v0; v1; v2]) in *. set (R1 := ip [Y0; Y1; Y2] [v0; v1; v2]) in *. set (R2 := ip [W0; W1; W2] [v0; v1; v2]) in *.
  assert (D0 : Rabs (i0 - R0) <= 1733/1000 * e * norm [v0; v1; v2]).
  { replace (i0 - R0) with ((b2r m00 - X0) * v0 + (b2r m01 - X1) * v1 + (b2r m02 - X2) * v2) by (unfold i0, R0, ip; cbn; ring). now apply sum3_bound. }
  assert (D1 : Rabs (i1 - R1) <= 1733/1000 * e * norm [v0; v1; v2]).
  { replace (i1 - R1) with ((b2r m10 - Y0) * v0 + (b2r m11 - Y1) * v1 + (b2r m12 - Y2) * v2) by (unfold i1, R1, ip; cbn; ring). now apply sum3_bound. }
  assert (D2 : Rabs (i2 - R2) <= 1733/1000 * e * norm [v0; v1; v2]).
  { replace (i2 - R2) with ((b2r m20 - W0) * v0 + (b2r m21 - W1) * v1 + (b2r m22 - W2) * v2) by (unfold i2, R2, ip; cbn; ring). now apply sum3_bound. }
  rewrite <- FN at 1. set (b := 1733/1000 * e * norm [v0; v1; v2]) in *. assert (Pb : 0 <= b) by (unfold b; apply Rmult_le_pos; [lra|apply norm_nn]).
  clearbody R0 R1 R2 i0 i1 i2. assert (ND : norm [i0 - R0; i1 - R1; i2 - R2] <= 1733/1000 * b).
  { apply sq_le_norm; [lra|]. unfold ip. cbn. assert (Q : forall d, Rabs d <= b -> d * d <= b * b) by (intros d K; rewrite <- abs_sq; pose proof (Rabs_pos d); apply Rmult_le_compat; lra).
    pose proof (Q _ D0). pose proof (Q _ D1). pose proof (Q _ D2). assert (0 <= b * b) by (apply Rmult_le_pos; exact Pb). lra. }
  assert (T1 : norm [i0; i1; i2] <= norm [R0; R1; R2] + 1733/1000 * b).
  { apply (norm_from_parts [R0; R1; R2] [i0 - R0; i1 - R1; i2 - R2]); try reflexivity; [unfold vadd; cbn; lring|apply Rle_refl|exact ND]. }
  assert (T2 : norm [R0; R1; R2] <= norm [i0; i1; i2] + 1733/1000 * b).
  { apply (norm_from_parts [i0; i1; i2] (vscale (-1) [i0 - R0; i1 - R1; i2 - R2])); try reflexivity; [unfold vadd, vscale; cbn; lring|apply Rle_refl|]. rewrite norm_scale3, Rabs_left by lra. lra. }
  assert (1733/1000 * b <= 301/100 * e * norm [v0; v1; v2]).
  { unfold b. replace (1733/1000 * (1733/1000 * e * norm [v0; v1; v2])) with (1733/1000 * (1733/1000) * (e * norm [v0; v1; v2])) by ring. pose proof (norm_nn [v0; v1; v2]). assert (0 <= e * norm [v0; v1; v2]) by (apply Rmult_le_pos; lra). lra. }
  apply Rabs_le. lra.
Qed.
Lemma side_orth W U : length W = 3%nat -> length U = 3%nat -> ip (axis_x W U) W = 0.
Proof. intros LW LU. unfold axis_x, unit_of. set (k := / norm _). clearbody k. list3 W. list3 U. unfold vscale, cross_l, ip. cbn. ring. Qed.
(** A view matrix computed in binary32 preserves distances between points up to the factor 1 +- 3.01 (25/s + 20) 2^-24. *)
Lemma C89_distances_pf : forall (L : Libm) (eye center up : vec3 f32) (s : R),
  all_finite (l3 eye) -> all_finite (l3 center) -> all_finite (l3 up) ->
  let E := vals (l3 eye) in let U := vals (l3 up) in let d := vsub (vals (l3 center)) E in let f := unit_of d in
  / IZR (2 ^ 47) <= norm d <= IZR (2 ^ 61) -> / IZR (2 ^ 30) <= norm U <= IZR (2 ^ 60) -> norm E <= IZR (2 ^ 61) ->
  / 1000 <= s -> s * norm U <= norm (cross_l f U) ->
  forall m, In m [lookAtRH (F32 L) eye center up; lookAtLH (F32 L) eye center up] ->
  forall p q, length p = 3%nat -> length q = 3%nat -> let at_ r := mapply 4 (vals (lm4 m)) (point r) in
  Rabs (norm (vsub (at_ p) (at_ q)) - norm (vsub p q)) <= 301/100 * ((25 / s + 20) * ulp_half) * norm (vsub p q).
Proof.
  intros L eye center up s Fe Fc Fu E U d f Hd Hu He Hs HC m Hm p q Lp Lq.
  destruct (C89_lookAt_pf L eye center up s Fe Fc Fu Hd Hu He Hs HC) as [A B]. fold E U in A, B. fold d in A, B. fold f in A, B. pose proof u_val as UV.
  assert (Ld : length d = 3%nat) by (unfold d; now apply vsub_len). assert (Lf : length f = 3%nat) by (unfold f, unit_of; now rewrite vscale_len). assert (LU : length U = 3%nat) by reflexivity.
  assert (Pd : 0 < norm d) by (eapply Rlt_le_trans; [|apply Hd]; apply Rinv_0_lt_compat; now apply (IZR_lt 0)).
  assert (PU : 0 < norm U) by (eapply Rlt_le_trans; [|apply Hu]; apply Rinv_0_lt_compat; now apply (IZR_lt 0)).
  assert (Nf : norm f = 1) by (apply unit_norm; assumption).
  assert (PC : 0 < norm (cross_l f U)) by (assert (0 < s * norm U) by (apply Rmult_lt_0_compat; lra); lra).
  assert (PC' : 0 < norm (cross_l U f)) by (rewrite (cross_swap f U), norm_scale3, Rabs_left by (assumption || lra); lra).
  assert (Pe : 0 <= (25 / s + 20) * u) by (assert (0 < / s) by (apply Rinv_0_lt_compat; lra); unfold Rdiv; nra).
  cbv zeta. destruct Hm as [<-|[<-|[]]].
  - eapply (near_rigid _ _ _ (vscale (-1) f) (axis_x (vscale (-1) f) U)); [exact Pe|now rewrite vscale_len|unfold axis_x, unit_of; now rewrite vscale_len| | | |exact A|exact Lp|exact Lq].
    + rewrite norm_scale3, Nf, Rabs_left by lra. lra.
    + apply unit_norm; [reflexivity|]. rewrite cross_neg by assumption. exact PC.
    + apply side_orth; [now rewrite vscale_len|reflexivity].
  - eapply (near_rigid _ _ _ f (axis_x f U)); [exact Pe|exact Lf|unfold axis_x, unit_of; now rewrite vscale_len|exact Nf| | |exact B|exact Lp|exact Lq].
    + apply unit_norm; [reflexivity|exact PC'].
    + apply side_orth; [exact Lf|reflexivity].
Qed.

(** ** quatLookAt *)
Lemma close_vnear dl a A : 0 <= dl -> all_close dl (l3 a) A -> vnear (1733/1000 * dl) a A.
Proof.
  intros Pd H. destruct a as [a0 a1 a2]. unfold all_close, l3 in H. cbn [x3 y3 z3] in H.
  destruct A as [|A0 [|A1 [|A2 [|? ?]]]]; try (inversion H; fail); try (repeat (match goal with K : Forall2 _ _ _ |- _ => inversion K; clear K; subst end); fail).
  apply Forall2_cons_iff in H as [[F0 H0] H]. apply Forall2_cons_iff in H as [[F1 H1] H]. apply Forall2_cons_iff in H as [[F2 H2] _].
  split; [reflexivity|]. split; [unfold all_finite, l3; repeat (apply Forall_cons; [assumption|]); apply Forall_nil|].
  apply sq_le_norm; [lra|]. unfold ip, vsub. cbn.
  assert (Q : forall d, Rabs d <= dl -> d * d <= dl * dl) by (intros d K; rewrite <- abs_sq; pose proof (Rabs_pos d); apply Rmult_le_compat; lra).
  pose proof (Q _ H0). pose proof (Q _ H1). pose proof (Q _ H2). nra.
Qed.
Definition exact3 (v : vec3 f32) : vec3 R := V3 (b2r (x3 v)) (b2r (y3 v)) (b2r (z3 v)).
Lemma l3_exact3 v : l3 (exact3 v) = vals (l3 v). Proof. now destruct v. Qed.
Lemma cast_entries (q : quat R) : lm3 (mat3_cast RS q) = rotation_entries (-1) (qx q) (qy q) (qz q) (qw q).
Proof. destruct q as [x y z w]. unfold rotation_entries. cbn. repeat match goal with |- _ :: _ = _ :: _ => apply f_equal2; [field|] end; reflexivity. Qed.
Lemma lookAtRH_LH (S : Scalar) (d up : vec3 S) : quatLookAtRH S d up = quatLookAtLH S (vec3_neg S d) up.
Proof. reflexivity. Qed.
Lemma lookAtLH_cast (S : Scalar) (d up : vec3 S) : quatLookAtLH S d up = let x := normalize3 S (cross S up d) in quat_cast3 S (M3 x (cross S d x) d).
Proof. reflexivity. Qed.
Lemma quat_core L (w up : vec3 f32) (W : vec3 R) s ew : norm (l3 W) = 1 -> vnear ew w (l3 W) -> all_finite (l3 up) -> / IZR (2 ^ 30) <= norm (vals (l3 up)) <= IZR (2 ^ 60) ->
  / 1000 <= s -> s * norm (vals (l3 up)) <= norm (cross_l (vals (l3 up)) (l3 W)) -> ew <= s / 5000 ->
  all_close_sign ((61/10 * ew + 18 * u) / s + 3 * ew + 49 * u) (lq (quatLookAtLH (F32 L) w up)) (lq (quatLookAtLH RS W (exact3 up))).
Proof.
  intros NW Vw Fu Hu Hs HC Hew. pose proof u_val as U. set (UP := vals (l3 up)) in *.
  assert (PU : 0 < norm UP) by (apply up_pos; exact Hu). assert (LU : length UP = 3%nat) by reflexivity. assert (LW : length (l3 W) = 3%nat) by reflexivity.
  destruct (near_norm _ _ _ Vw) as (_ & _ & Pe).
  assert (S1 : s <= 1).
  { apply Rmult_le_reg_r with (norm UP); [exact PU|]. eapply Rle_trans; [exact HC|]. eapply Rle_trans; [apply cross_norm; assumption|]. rewrite NW. lra. }
  assert (PC : 0 < norm (cross_l UP (l3 W))) by (assert (0 < s * norm UP) by (apply Rmult_lt_0_compat; lra); lra).
  pose (x := normalize3 (F32 L) (cross (F32 L) up w) : vec3 f32).
  assert (Vx : vnear (2 * (ew + 286/100 * u) / s + 751/100 * u) x (unit_of (cross_l UP (l3 W)))).
  { apply (side_near L up s Fu Hu (conj Hs S1) w (l3 W) ew (cross (F32 L) up w)); try assumption; [lra|]. left. now split. }
  assert (NX : norm (unit_of (cross_l UP (l3 W))) = 1) by (apply unit_norm; [reflexivity|exact PC]).
  assert (Is : 1 <= / s <= 1000) by (split; [rewrite <- Rinv_1; apply Rinv_le_contravar; lra|rewrite <- (Rinv_inv 1000); apply Rinv_le_contravar; lra]).
  assert (Iw : 0 <= ew * / s <= / 5000).
  { split; [apply Rmult_le_pos; lra|]. apply Rle_trans with (s / 5000 * / s); [apply Rmult_le_compat_r; lra|]. right. field. lra. }
  assert (Iu : u <= u * / s <= / 16777) by (split; nra).
  assert (Iww : ew <= ew * / s) by nra.
  assert (Ex' : 2 * (ew + 286/100 * u) / s + 751/100 * u <= / 100) by (unfold Rdiv; lra).
  destruct (top_near L w x (l3 W) _ _ _ NW NX Vw Vx ltac:(lra) Ex') as [Vy _].
  set (e := 2003/1000 * (ew + 286/100 * u) / s + ew + 109/10 * u).
  assert (Cx : vnear e x (unit_of (cross_l UP (l3 W)))) by (eapply near_weaken; [|exact Vx]; unfold e, Rdiv; lra).
  assert (Cy : vnear e (cross (F32 L) w x) (cross_l (l3 W) (unit_of (cross_l UP (l3 W))))) by (eapply near_weaken; [|exact Vy]; unfold e, Rdiv; lra).
  assert (Cw : vnear e w (l3 W)) by (eapply near_weaken; [|exact Vw]; unfold e, Rdiv; lra).
  assert (NP : ~ zeros (cross_l (l3 (exact3 up)) (l3 W))).
  { rewrite l3_exact3. fold UP. intros Z. apply ip_zero in Z. unfold norm in PC. rewrite Z, sqrt_0 in PC. lra. }
  pose proof (look_rotation W (exact3 up) NW NP) as Rot. pose (X := normalize3 RS (cross RS (exact3 up) W) : vec3 R). pose (Y := cross RS W X : vec3 R). change (rotation 3 (lm3 (M3 X Y W))) in Rot.
  assert (EX : l3 X = unit_of (cross_l UP (l3 W))).
  { transitivity (unit_of (l3 (cross RS (exact3 up) W))); [apply normalize3_eq|]. f_equal. }
  assert (EY : l3 Y = cross_l (l3 W) (unit_of (cross_l UP (l3 W)))) by (transitivity (cross_l (l3 W) (l3 X)); [apply cross_eq|now rewrite EX]).
  rewrite <- EX in Cx. rewrite <- EY in Cy.
  destruct C56_quat_cast_pf as (_ & _ & Cast). destruct (Cast _ Rot) as [Uq Mq].
  set (p := quat_cast3 RS (M3 X Y W)) in *.
  destruct (C85_quat_cast_pf L p e Uq) as [C3 _]; [unfold e, Rdiv; lra|].
  destruct (C3 (M3 x (cross (F32 L) w x) w)) as (sg & Hsg & K).
  { rewrite <- cast_entries, Mq. apply near_all_close in Cx, Cy, Cw. unfold all_close in *.
    change (lm3 (M3 x (cross (F32 L) w x) w)) with (l3 x ++ l3 (cross (F32 L) w x) ++ l3 w). change (lm3 (M3 X Y W)) with (l3 X ++ l3 Y ++ l3 W).
    repeat apply Forall2_app; assumption. }
  exists sg. split; [exact Hsg|]. rewrite !lookAtLH_cast. cbv zeta. change (quat_cast3 RS (M3 _ _ W)) with p.
  match goal with |- all_close ?t _ _ => assert (T : 3 * e + 16 * u <= t) by (unfold e, Rdiv; lra) end. exact (all_close_weak _ _ _ _ T K).
Qed.
(** quatLookAtLH and quatLookAtRH in binary32: if the direction is within dl of a unit vector D, component by component, the
    result is within ((11 dl + 18 2^-24)/s + 6 dl + 49 2^-24) of the exact quaternion or its negation. *)
Lemma C89_quatLookAt_pf : forall (L : Libm) (dir up : vec3 f32) (D : vec3 R) (s dl : R), norm (l3 D) = 1 -> 0 <= dl <= s / 9000 -> all_close dl (l3 dir) (l3 D) ->
  all_finite (l3 up) -> let U := vals (l3 up) in / IZR (2 ^ 30) <= norm U <= IZR (2 ^ 60) ->
  / 1000 <= s -> s * norm U <= norm (cross_l (l3 D) U) ->
  let up' := V3 (b2r (x3 up)) (b2r (y3 up)) (b2r (z3 up)) in let tol := (11 * dl + 18 * ulp_half) / s + 6 * dl + 49 * ulp_half in
  all_close_sign tol (lq (quatLookAtLH (F32 L) dir up)) (lq (quatLookAtLH RS D up')) /\
  all_close_sign tol (lq (quatLookAtRH (F32 L) dir up)) (lq (quatLookAtRH RS D up')).
Proof.
  intros L dir up D s dl ND Hd HD Fu U Hu Hs HC up' tol. pose proof u_val as UV.
  pose proof (close_vnear dl dir (l3 D) (proj1 Hd) HD) as V.
  assert (LD : length (l3 D) = 3%nat) by reflexivity. assert (LU : length U = 3%nat) by reflexivity.
  assert (HC1 : s * norm U <= norm (cross_l U (l3 D))) by (rewrite (cross_swap (l3 D) U), norm_scale3, Rabs_left by (assumption || lra); lra).
  assert (T : (61/10 * (1733/1000 * dl) + 18 * u) / s + 3 * (1733/1000 * dl) + 49 * u <= tol).
  { unfold tol. assert (0 <= dl * / s) by (apply Rmult_le_pos; [lra|left; apply Rinv_0_lt_compat; lra]). unfold Rdiv. lra. }
  assert (W : forall e e' l m, e <= e' -> all_close_sign e l m -> all_close_sign e' l m).
  { clear. intros e e' l m H (sg & Hs & K). exists sg. split; [exact Hs|]. revert K. now apply all_close_weak. }
  split.
  - eapply W; [exact T|]. apply (quat_core L dir up D s); try assumption; lra.
  - eapply W; [exact T|]. rewrite !lookAtRH_LH. assert (EF : vec3_neg (F32 L) dir = V3 (Bopp (x3 dir)) (Bopp (y3 dir)) (Bopp (z3 dir))) by reflexivity. rewrite EF.
    pose (Dn := vec3_neg RS D : vec3 R). change (vec3_neg RS D) with Dn.
    assert (EN : l3 Dn = vscale (-1) (l3 D)) by (unfold Dn; destruct D as [D0 D1 D2]; match goal with |- _ = ?r => change ([- D0; - D1; - D2] = r) end; unfold vscale; cbn; lring).
    apply quat_core; try assumption; try lra.
    + rewrite EN, norm_scale3, ND, Rabs_left by lra. lra.
    + rewrite EN. now apply near_opp.
    + rewrite EN, cross_neg by assumption. exact HC.
Qed.
(*PROPS
(** an eye at (3, 0, 4) looking at the origin, with y up: the hypotheses hold with s = 1 *)
Example C89_case : let eye := V3 (f32_ofZ 3) (f32_ofZ 0) (f32_ofZ 4) in let center := V3 (f32_ofZ 0) (f32_ofZ 0) (f32_ofZ 0) in
  let up := V3 (f32_ofZ 0) (f32_ofZ 1) (f32_ofZ 0) in
  all_finite (l3 eye) /\ all_finite (l3 center) /\ all_finite (l3 up) /\
  let E := vals (l3 eye) in let U := vals (l3 up) in let d := vsub (vals (l3 center)) E in let f := unit_of d in
  (/ IZR (2 ^ 47) <= norm d <= IZR (2 ^ 61)) /\ (/ IZR (2 ^ 30) <= norm U <= IZR (2 ^ 60)) /\ norm E <= IZR (2 ^ 61) /\
  1 * norm U <= norm (cross_l f U) /\ f = [- (3 / 5); 0; - (4 / 5)].
Proof.
  cbv zeta. assert (H0 : b2r (f32_ofZ 0) = 0) by reflexivity. assert (H1 : b2r (f32_ofZ 1) = 1) by (vm_compute; lra).
  assert (H3 : b2r (f32_ofZ 3) = 3) by (vm_compute; lra). assert (H4 : b2r (f32_ofZ 4) = 4) by (vm_compute; lra).
  assert (FF : forall a b c : f32, finite a -> finite b -> finite c -> all_finite (l3 (V3 a b c))) by (intros; repeat (apply Forall_cons; [assumption|]); apply Forall_nil).
  split; [now apply FF|]. split; [now apply FF|]. split; [now apply FF|]. unfold vals, vsub, l3. cbn [map zip x3 y3 z3]. rewrite H0, H1, H3, H4.
  assert (N5 : norm [0 - 3; 0 - 0; 0 - 4] = 5) by (unfold norm, ip; cbn; transitivity (sqrt (5 * 5)); [f_equal; lra|apply sqrt_square; lra]).
  assert (N5' : norm [3; 0; 4] = 5) by (unfold norm, ip; cbn; transitivity (sqrt (5 * 5)); [f_equal; lra|apply sqrt_square; lra]).
  assert (N1 : norm [0; 1; 0] = 1) by (unfold norm, ip; cbn; transitivity (sqrt 1); [f_equal; lra|apply sqrt_1]).
  assert (F : unit_of [0 - 3; 0 - 0; 0 - 4] = [- (3 / 5); 0; - (4 / 5)]).
  { unfold unit_of. rewrite N5. unfold vscale. cbn. apply f_equal2; [lra|]. apply f_equal2; [lra|]. apply f_equal2; [lra|reflexivity]. }
  rewrite F, N5, N5', N1. repeat split; try (now apply (IZR_le 5)); try (now apply (IZR_le 1)).
  - apply Rle_trans with (/ 1); [apply Rinv_le_contravar; [lra|now apply (IZR_le 1)]|lra].
  - rewrite <- Rinv_1. apply Rinv_le_contravar; [lra|now apply (IZR_le 1)].
  - unfold norm, ip, cross_l. cbn. apply Rle_trans with (sqrt 1); [rewrite sqrt_1; lra|]. apply sqrt_le_1_alt. lra.
Qed.
PROPS*)
