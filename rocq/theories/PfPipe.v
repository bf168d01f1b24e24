(** * Proofs: from model coordinates up a scene hierarchy, through a camera, to the depth buffer *)
From Coq Require Import ZArith Bool Reals List Lra Lia.
From Flocq Require Import Core IEEE754.BinarySingleNaN.
From Verif Require Import Scalar IEEE32 RealInst Types Outcome Spec SpecR SpecMat SpecGeo SpecF32 SpecErr SpecAcc SpecProj SpecDepth SpecLook SpecCamera SpecPlace SpecScene SpecPipe FloatBasics FloatOps
  ModelVec ModelMat ModelQuat ModelQuaternion ModelTransform ErrLib LenLib RealTac VecErrLib.
Import ListNotations.
Local Open Scope R_scope.
(*HEADER END*)
From Verif Require Import SpecDrift PfQuatAcc PfLook PfDrift PfInvQ PfCamera PfPlace PfScene.

Lemma scene_bridge L eye center up s ns v : camera eye center up s -> model_point ns v ->
  let p := carry L ns v in let c := carry_error ns (vals (l3 v)) in let t := scene_error s eye ns v in
  all_finite (l3 p) /\ norm (vals (l3 p)) <= IZR (2 ^ 61) /\ Rabs (ahead eye center p - true_depth eye center ns v) <= c /\ 0 <= c /\ 0 <= place_error s eye p /\ c + place_error s eye p <= t.
Proof.
  intros HC (G & Fv & HR) p c t. pose proof u_val as U. pose proof tiny_u as [T0 _]. destruct (camera_s _ _ _ _ HC) as (S1 & NF & _).
  assert (S0 : 0 < s) by (destruct HC as (_ & _ & _ & HC); cbv zeta in HC; lra).
  destruct (C107_carry_pf L ns v G Fv HR) as [FP EP]. fold p c in FP, EP. split; [exact FP|].
  pose proof (carry_reach ns (vals (l3 v)) eq_refl G) as CR. pose proof (carry_len ns (vals (l3 v)) eq_refl) as LX.
  unfold true_depth, ahead. set (X := exact_carry ns (vals (l3 v))) in *. clearbody X.
  assert (C0 : 0 <= c) by (eapply Rle_trans; [apply norm_nn|exact EP]). assert (LPp : length (vals (l3 p)) = 3%nat) by reflexivity.
  assert (NP : norm (vals (l3 p)) <= reach ns (vals (l3 v)) + c).
  { apply (norm_from_parts X (vsub (vals (l3 p)) X)); [exact LX|now apply vsub_len| |exact CR|exact EP].
    clear - LX LPp. revert LPp. generalize (vals (l3 p)). intros A LA. list3' A. list3' X. unfold vadd, vsub. cbn. repeat (apply f_equal2; [ring|]). reflexivity. }
  split; [|split; [|split; [exact C0|]]].
  - eapply Rle_trans; [exact NP|]. eapply Rle_trans; [|exact HR]. right. unfold c, carry_error. ring.
  - set (F := sight eye center) in *. assert (LF : length F = 3%nat) by reflexivity. clearbody F. set (E := vals (l3 eye)). assert (LE : length E = 3%nat) by reflexivity. clearbody E.
    replace (ip F (vsub (vals (l3 p)) E) - ip F (vsub X E)) with (ip F (vsub (vals (l3 p)) X)).
    + eapply Rle_trans; [apply ip_norm; [exact LF|now apply vsub_len]|]. rewrite NF, Rmult_1_l. exact EP.
    + clear - LX LPp LF LE. revert LPp. generalize (vals (l3 p)). intros A LA. list3' A. list3' X. list3' F. list3' E. unfold ip, vsub. cbn. ring.
  - unfold t, scene_error, place_error. cbv zeta. fold c. change ulp_half with u. set (k := (44 / s + 38) * u). assert (K0 : 0 <= k).
    { unfold k. apply Rmult_le_pos; [|lra]. assert (0 < 44 / s) by (apply Rdiv_lt_0_compat; lra). lra. }
    pose proof (norm_nn (vals (l3 p))) as N1. pose proof (norm_nn (vals (l3 eye))) as N2.
    assert (0 <= k * (norm (vals (l3 p)) + norm (vals (l3 eye)))) by (apply Rmult_le_pos; lra).
    assert (k * (norm (vals (l3 p)) + norm (vals (l3 eye))) <= k * (reach ns (vals (l3 v)) + c + norm (vals (l3 eye)))) by (apply Rmult_le_compat_l; lra). split; lra.
Qed.
Lemma scene_depth L view matrix width depth : 0 < width ->
  (forall n f d d', 0 < n -> n < f -> 0 < d -> 0 < d' -> depth n f d' - depth n f d = width * (f / (f - n)) * (n / d' * ((d' - d) / d))) ->
  world_depth_accurate L view matrix width depth -> scene_depth_accurate L view matrix width depth.
Proof.
  intros WD HD HA eye center up s ns v fovy aspect n f m HC MP HM DR D t HR q.
  destruct (scene_bridge L eye center up s ns v HC MP) as (FP & NP & KD & C0 & P0 & PT). set (p := carry L ns v) in *. set (c := carry_error ns (vals (l3 v))) in *. fold t in PT. fold D in KD.
  apply Rabs_le_inv in KD. set (dl := place_error s eye p) in *. set (d' := ahead eye center p) in *.
  destruct (HA eye center up p s fovy aspect n f m HC FP NP HM DR) as (F & W1 & KA). { cbv zeta. fold d' dl. lra. }
  cbv zeta in F, W1, KA. fold q d' dl in F, W1, KA. split; [exact F|]. split; [exact W1|].
  destruct DR as (_ & Pn & Hf & _). set (nn := b2r n) in *. set (ff := b2r f) in *. clearbody dl c t D d' nn ff.
  assert (PD : 0 < D - t) by lra. assert (PD' : 0 < d') by lra. pose proof (HD nn ff D d' Pn ltac:(lra) ltac:(lra) PD') as E.
  assert (PF : 0 < width * (ff / (ff - nn))) by (apply Rmult_lt_0_compat; [exact WD|apply Rdiv_lt_0_compat; lra]).
  assert (X : Rabs (nn / d' * ((d' - D) / D)) <= c / (D - t)).
  { rewrite Rabs_mult. unfold Rdiv at 2. rewrite Rabs_mult, (Rabs_pos_eq (/ D)) by (left; apply Rinv_0_lt_compat; lra).
    rewrite (Rabs_pos_eq (nn / d')) by (left; apply Rdiv_lt_0_compat; lra).
    assert (Q : nn / d' <= 1) by (apply Rmult_le_reg_r with d'; [exact PD'|]; unfold Rdiv; rewrite Rmult_assoc, Rinv_l by lra; lra).
    assert (Z : Rabs (d' - D) * / D <= c / (D - t)). { apply Rmult_le_compat; [apply Rabs_pos|left; apply Rinv_0_lt_compat; lra|apply Rabs_le; lra|apply Rinv_le_contravar; lra]. }
    assert (0 <= Rabs (d' - D) * / D) by (apply Rmult_le_pos; [apply Rabs_pos|left; apply Rinv_0_lt_compat; lra]).
    assert (0 < nn / d') by (apply Rdiv_lt_0_compat; lra). nra. }
  assert (Y : Rabs (depth nn ff d' - depth nn ff D) <= width * (ff / (ff - nn)) * (c / (D - t))).
  { rewrite E, Rabs_mult, (Rabs_pos_eq (width * (ff / (ff - nn)))) by lra. apply Rmult_le_compat_l; [lra|exact X]. }
  assert (Z : dl / d' <= dl / (D - t)) by (apply Rmult_le_compat_l; [exact P0|apply Rinv_le_contravar; lra]).
  assert (V : c / (D - t) + dl / (D - t) <= t / (D - t)). { unfold Rdiv. rewrite <- Rmult_plus_distr_r. apply Rmult_le_compat_r; [left; now apply Rinv_0_lt_compat|exact PT]. }
  replace (width * (16 * ulp_half + dl / d') * (ff / (ff - nn))) with (width * (ff / (ff - nn)) * (16 * ulp_half + dl / d')) in KA by ring.
  replace (width * (16 * ulp_half + t / (D - t)) * (ff / (ff - nn))) with (width * (ff / (ff - nn)) * (16 * ulp_half + t / (D - t))) by ring.
  set (w := width * (ff / (ff - nn))) in *. apply Rabs_le_inv in Y. apply Rabs_le_inv in KA.
  assert (H : w * (16 * ulp_half + dl / d') + w * (c / (D - t)) <= w * (16 * ulp_half + t / (D - t))). { rewrite <- Rmult_plus_distr_l. apply Rmult_le_compat_l; lra. }
  apply Rabs_le. lra.
Qed.
Lemma scene_order L view matrix : world_depth_ordered L view matrix -> scene_depth_ordered L view matrix.
Proof.
  intros HA eye center up s ns ns' v v' fovy aspect n f m HC MP MP' HM DR D t D' t' HR HR' HO.
  destruct (scene_bridge L eye center up s ns v HC MP) as (FP & NP & KD & C0 & P0 & PT). destruct (scene_bridge L eye center up s ns' v' HC MP') as (FP' & NP' & KD' & C0' & P0' & PT').
  fold D in KD. fold D' in KD'. fold t in PT. fold t' in PT'. apply Rabs_le_inv in KD. apply Rabs_le_inv in KD'. assert (Pn : 0 < b2r n) by apply DR.
  apply (HA eye center up (carry L ns v) (carry L ns' v') s fovy aspect n f m HC FP FP' NP NP' HM DR); cbv zeta; [lra|lra|].
  eapply Rlt_le_trans; [exact HO|]. apply Rmult_le_compat_l; [lra|]. apply Rplus_le_compat; [apply Rinv_le_contravar; lra|]. apply Ropp_le_contravar, Rinv_le_contravar; lra.
Qed.
(** The depth of a point of a model at the end of a chain of nodes of any length, seen through lookAt and a perspective matrix. *)
Lemma C108_depth_pf : forall (L : Libm) (b : build),
  scene_depth_accurate L (lookAtRH (F32 L)) (perspectiveRH_ZO (F32 L) b) 1 depth01 /\
  scene_depth_accurate L (lookAtLH (F32 L)) (perspectiveLH_ZO (F32 L) b) 1 depth01 /\
  scene_depth_accurate L (lookAtRH (F32 L)) (perspectiveRH_NO (F32 L) b) 2 depth11 /\
  scene_depth_accurate L (lookAtLH (F32 L)) (perspectiveLH_NO (F32 L) b) 2 depth11.
Proof.
  intros L b. destruct (C102_depth_pf L b) as (A & B & C & D).
  split; [|split; [|split]]; apply scene_depth; trivial; try lra; first [exact depth01_shift|exact depth11_shift].
Qed.
(** The depth test between points of two models. *)
Lemma C108_order_pf : forall (L : Libm) (b : build),
  scene_depth_ordered L (lookAtRH (F32 L)) (perspectiveRH_ZO (F32 L) b) /\ scene_depth_ordered L (lookAtLH (F32 L)) (perspectiveLH_ZO (F32 L) b) /\
  scene_depth_ordered L (lookAtRH (F32 L)) (perspectiveRH_NO (F32 L) b) /\ scene_depth_ordered L (lookAtLH (F32 L)) (perspectiveLH_NO (F32 L) b).
Proof.
  intros L b. destruct (C102_order_pf L b) as (A & B & C & D). split; [|split; [|split]]; now apply scene_order.
Qed.
(*PROPS
(** A camera at (3, 0, 4) looking at the origin with y up, planes at 1 and 100, and a node turning by (1/2, 1/2, 1/2, 1/2) and moving by (-1, 0, -2):
    its points (0, 2, 1), which ends in the origin, and (0, -2, -2), which ends behind it, meet the hypotheses of C108_order, with s = 1. *)
Example C108_case : let eye := V3 (f32_ofZ 3) (f32_ofZ 0) (f32_ofZ 4) in let center := V3 (f32_ofZ 0) (f32_ofZ 0) (f32_ofZ 0) in
  let h := Bdiv mode_NE (f32_ofZ 1) (f32_ofZ 2) in let ns : list node := [(V3 (f32_ofZ (-1)) (f32_ofZ 0) (f32_ofZ (-2)), Quat h h h h)] in
  let v := V3 (f32_ofZ 0) (f32_ofZ 2) (f32_ofZ 1) in let v' := V3 (f32_ofZ 0) (f32_ofZ (-2)) (f32_ofZ (-2)) in
  model_point ns v /\ model_point ns v' /\ true_depth eye center ns v = 5 /\ true_depth eye center ns v' = 10 /\
  let t := scene_error 1 eye ns v in let t' := scene_error 1 eye ns v' in
  1 + t <= 5 <= 100 - t /\ 1 + t' <= 10 <= 100 - t' /\ 32 * ulp_half < 1 * (/ (5 + t) - / (10 - t')).
Proof.
  cbv zeta. assert (H0 : b2r (f32_ofZ 0) = 0) by reflexivity. assert (H1 := ofZ_exact 1 eq_refl). assert (H2 := ofZ_exact 2 eq_refl). assert (H3 := ofZ_exact 3 eq_refl).
  assert (H4 := ofZ_exact 4 eq_refl). assert (H1' := ofZ_exact (-1) eq_refl). assert (H2' := ofZ_exact (-2) eq_refl).
  assert (EH : b2r (Bdiv mode_NE (f32_ofZ 1) (f32_ofZ 2)) = 1 / 2) by (vm_compute; lra). assert (FH : finite (Bdiv mode_NE (f32_ofZ 1) (f32_ofZ 2))) by (vm_compute; reflexivity).
  set (h := Bdiv mode_NE (f32_ofZ 1) (f32_ofZ 2)) in *. clearbody h.
  assert (V : forall a b c : f32, vals (l3 (V3 a b c)) = [b2r a; b2r b; b2r c]) by reflexivity. assert (VQ : vals (lq (Quat h h h h)) = [1 / 2; 1 / 2; 1 / 2; 1 / 2]) by (unfold vals, lq; cbn [map qx qy qz qw]; now rewrite EH).
  assert (NQ : norm [1 / 2; 1 / 2; 1 / 2; 1 / 2] = 1) by (unfold norm, ip; cbn; transitivity (sqrt 1); [f_equal; lra|apply sqrt_1]).
  assert (N5 : norm [0 - 3; 0 - 0; 0 - 4] = 5) by (unfold norm, ip; cbn; transitivity (sqrt (5 * 5)); [f_equal; lra|apply sqrt_square; lra]).
  assert (N5' : norm [3; 0; 4] = 5) by (unfold norm, ip; cbn; transitivity (sqrt (5 * 5)); [f_equal; lra|apply sqrt_square; lra]).
  assert (NA : 0 <= norm [0; 2; 1] <= 3) by (split; [apply norm_nn|apply sq_le_norm; [lra|unfold ip; cbn; lra]]). assert (NB : 0 <= norm [0; -2; -2] <= 3) by (split; [apply norm_nn|apply sq_le_norm; [lra|unfold ip; cbn; lra]]).
  assert (NC : 0 <= norm [-1; 0; -2] <= 3) by (split; [apply norm_nn|apply sq_le_norm; [lra|unfold ip; cbn; lra]]).
  assert (F : sight (V3 (f32_ofZ 3) (f32_ofZ 0) (f32_ofZ 4)) (V3 (f32_ofZ 0) (f32_ofZ 0) (f32_ofZ 0)) = [- (3 / 5); 0; - (4 / 5)]).
  { unfold sight. rewrite !V, H0, H3, H4. unfold vsub. cbn [zip]. unfold unit_of. rewrite N5. unfold vscale. cbn. apply f_equal2; [lra|]. apply f_equal2; [lra|]. apply f_equal2; [lra|reflexivity]. }
  assert (T : 0 < tiny <= / 1000000) by (unfold tiny; split; [apply Rinv_0_lt_compat; now apply (IZR_lt 0)|apply Rinv_le_contravar; [lra|now apply (IZR_le 1000000)]]).
  assert (UD : unit_dir (Quat h h h h) = Quat (1 / 2) (1 / 2) (1 / 2) (1 / 2)) by (unfold unit_dir; cbn [qx qy qz qw]; change (vals (lq _)) with (vals (lq (Quat h h h h))); rewrite VQ, NQ, EH; f_equal; lra).
  assert (FF : forall a b c : f32, finite a -> finite b -> finite c -> all_finite (l3 (V3 a b c))) by (intros; repeat (apply Forall_cons; [assumption|]); apply Forall_nil).
  set (n := (V3 (f32_ofZ (-1)) (f32_ofZ 0) (f32_ofZ (-2)), Quat h h h h) : node).
  assert (GN : good_node n). { split; [now apply FF|]. split; [repeat (apply Forall_cons; [assumption|]); apply Forall_nil|]. change (Rabs (norm (vals (lq (Quat h h h h))) - 1) <= 9 * ulp_half). rewrite VQ, NQ, uval, Rminus_diag_eq, Rabs_R0 by reflexivity. lra. }
  assert (RE : forall X, reach [n] X = norm X + norm [-1; 0; -2]). { intros X. unfold reach, offset. cbn [map fold_right]. unfold n, fst. rewrite V, H0, H1', H2'. ring. }
  assert (IR : forall X, 0 <= norm X <= 3 -> in_reach [n] X). { intros X HX. unfold in_reach, per_level. rewrite RE, uval. cbn [length pow INR]. apply Rle_trans with 14; [|now apply (IZR_le 14)]. nra. }
  assert (TE : forall v, 0 <= norm (vals (l3 v)) <= 3 -> 0 <= scene_error 1 (V3 (f32_ofZ 3) (f32_ofZ 0) (f32_ofZ 4)) [n] v <= / 10).
  { intros v HX. unfold scene_error, carry_error, per_level. rewrite !RE, V, H0, H3, H4, N5', uval. cbn [length pow INR]. set (a := norm (vals (l3 v)) + norm [-1; 0; -2]) in *. assert (0 <= a <= 6) by (unfold a; lra). clearbody a. nra. }
  assert (MA : 0 <= norm (vals (l3 (V3 (f32_ofZ 0) (f32_ofZ 2) (f32_ofZ 1)))) <= 3) by (rewrite V, H0, H1, H2; exact NA).
  assert (MB : 0 <= norm (vals (l3 (V3 (f32_ofZ 0) (f32_ofZ (-2)) (f32_ofZ (-2))))) <= 3) by (rewrite V, H0, H2'; exact NB).
  split; [split; [apply Forall_cons; [exact GN|apply Forall_nil]|split; [now apply FF|now apply IR]]|]. split; [split; [apply Forall_cons; [exact GN|apply Forall_nil]|split; [now apply FF|now apply IR]]|].
  split; [|split].
  - unfold true_depth, exact_carry, exact_lift. cbn [fold_left]. unfold n, fst, snd. rewrite UD, F, !V, H0, H1, H2, H3, H4, H1', H2'. cbv -[Rplus Rmult Ropp Rminus Rinv Rdiv IZR]. lra.
  - unfold true_depth, exact_carry, exact_lift. cbn [fold_left]. unfold n, fst, snd. rewrite UD, F, !V, H0, H2', H3, H4, H1'. cbv -[Rplus Rmult Ropp Rminus Rinv Rdiv IZR]. lra.
  - pose proof (TE _ MA) as A. pose proof (TE _ MB) as B. set (a := scene_error _ _ _ _) in A |- *. set (c := scene_error _ _ _ _) in B |- *. clearbody a c. rewrite uval. split; [lra|split; [lra|]].
    assert (/ (51 / 10) <= / (5 + a)) by (apply Rinv_le_contravar; lra). assert (/ (10 - c) <= / (99 / 10)) by (apply Rinv_le_contravar; lra). lra.
Qed.
PROPS*)
