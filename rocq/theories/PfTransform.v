(** * Proofs: translate, scale, rotate, lookAt, projections, decomposition *)
From Coq Require Import ZArith Bool Reals List Lra.
From Flocq Require Import Core IEEE754.BinarySingleNaN.
From Verif Require Import Scalar IEEE32 FloatBasics F32Tac RealInst Outcome Types Spec SpecF32 SpecR SpecMat SpecGeo RealTac
  ModelVec ModelCommon ModelQuat ModelExp ModelTrig ModelConst ModelGeom ModelMat ModelMatrix ModelQuaternion ModelTransform.
Import ListNotations.
Local Open Scope R_scope.
(*HEADER END*)
From Flocq Require Import Plus_error.
From Verif Require Import FloatOps FloatAlg MatTac PfMat PfQuat RotLib PfRot.

(** ** C48 *)
Lemma rotmat_cast a (n : vec3 R) : norm (l3 n) = 1 -> rotmat a (l3 n) = lm3 (mat3_cast RS (angleAxis RS a n)).
Proof.
  intros N. rewrite angleAxis_eq. destruct (half_angle a) as (C & S & H).
  apply norm1_ip in N. unfold rotmat, rodrigues. rewrite C, S. destruct n as [x y z]. ms_in N. ms.
  revert H. generalize (sin (a / 2)) (cos (a / 2)). intros s c H.
  assert (Hs : c * c = 1 - s * s) by lra.
  assert (Hz : z * z = 1 - x * x - y * y) by lra.
  parts; ring_simplify; replace (c ^ 2) with (1 - s * s) by (rewrite <- Hs; ring);
    ring_simplify; replace (z ^ 2) with (1 - x * x - y * y) by (rewrite <- Hz; ring); ring.
Qed.
Lemma unit_vec (v : vec3 R) : ~ zeros (l3 v) -> norm (l3 (normalize3 RS v)) = 1.
Proof. intros Z. apply norm1_ip. rewrite normalize3_eq. now apply unit_of_ip. Qed.
Lemma rotate4_cast (m : mat4 R) a (v : vec3 R) : ~ zeros (l3 v) ->
  rotate4 RS m a v = mat4_mul RS m (mat4_cast RS (angleAxis RS a (normalize3 RS v))).
Proof.
  intros Z. apply unit_vec in Z. unfold rotate4. cbv zeta. revert Z. generalize (normalize3 RS v). clear v. intros n N.
  rewrite angleAxis_eq. destruct (half_angle a) as (C & S & H).
  change (cos_f RS a) with (cos a). change (sin_f RS a) with (sin a). rewrite C, S.
  apply norm1_ip in N. destruct n as [x y z]. ms_in N.
  revert H. generalize (sin (a / 2)) (cos (a / 2)). intros s c H.
  assert (Hs : c * c = 1 - s * s) by lra.
  assert (Hz : z * z = 1 - x * x - y * y) by lra. clear C S N H.
  vdestruct. ms.
  parts; ring_simplify; replace (c ^ 2) with (1 - s * s) by (rewrite <- Hs; ring);
    ring_simplify; replace (z ^ 2) with (1 - x * x - y * y) by (rewrite <- Hz; ring); ring.
Qed.

(** C48: translate, scale and rotate multiply on the right by the elementary transform. *)
Lemma C48_elementary_pf :
  (forall (m : mat4 R) (v : vec3 R), lm4 (translate RS m v) = mprod 4 (lm4 m) (translation (l3 v))) /\
  (forall (m : mat4 R) (v : vec3 R), lm4 (scale RS m v) = mprod 4 (lm4 m) (scaling (l3 v))) /\
  (forall (m : mat4 R) a (v : vec3 R), ~ zeros (l3 v) -> lm4 (rotate4 RS m a v) = mprod 4 (lm4 m) (turning (rotmat a (unit_of (l3 v))))) /\
  (forall a (v x : vec3 R), ~ zeros (l3 v) ->
     let n := unit_of (l3 v) in
     rotation 3 (rotmat a n) /\ mapply 3 (rotmat a n) (l3 x) = rodrigues a n (l3 x) /\ mapply 3 (rotmat a n) n = n).
Proof.
  ands.
  - intros m v. vdestruct. ents.
  - intros m v. vdestruct. ents.
  - intros m a v Z. rewrite rotate4_cast by exact Z. rewrite <- normalize3_eq, rotmat_cast by now apply unit_vec.
    destruct ring4 as (_&_&_&PM&_). etransitivity; [apply PM|]. reflexivity.
  - intros a v x Z n. subst n. pose proof (unit_vec v Z) as N. rewrite <- normalize3_eq. ands.
    + rewrite rotmat_cast by exact N. apply mat3_cast_rotation. now apply angleAxis_unit.
    + rewrite rotmat_cast by exact N. rewrite <- angleAxis_rodrigues by exact N. rewrite <- mat3_cast_act.
      generalize (mat3_cast RS (angleAxis RS a (normalize3 RS v))). intros m. vdestruct. ents.
    + rewrite rotmat_cast by exact N. revert N. generalize (normalize3 RS v). intros n N.
      transitivity (rodrigues a (l3 n) (l3 n)).
      * rewrite <- angleAxis_rodrigues by exact N. rewrite <- mat3_cast_act. generalize (mat3_cast RS (angleAxis RS a n)). intros m.
        clear N. vdestruct. ents.
      * unfold rodrigues. replace (ip (l3 n) (l3 n)) with 1 by (symmetry; now apply norm1_ip). clear N. vdestruct. ms. parts; ring.
Qed.

(** C48: translations add, scalings multiply, rotations about one axis add their angles; the trivial ones do nothing. *)
Lemma C48_compositions_pf :
  (forall (m : mat4 R) (u v : vec3 R), translate RS (translate RS m u) v = translate RS m (vec3_add RS u v)) /\
  (forall (m : mat4 R) (u v : vec3 R), scale RS (scale RS m u) v = scale RS m (vec3_mul RS u v)) /\
  (forall (m : mat4 R) (a b : R) (v : vec3 R), ~ zeros (l3 v) -> rotate4 RS (rotate4 RS m a v) b v = rotate4 RS m (a + b)%R v) /\
  (forall m : mat4 R, translate RS m (V3 0 0 0) = m /\ scale RS m (V3 1 1 1) = m) /\
  (forall (m : mat4 R) (v : vec3 R), ~ zeros (l3 v) -> rotate4 RS m 0 v = m).
Proof.
  ands.
  - intros m u v. vdestruct. ms. parts; ring.
  - intros m u v. vdestruct. ms. parts; ring.
  - intros m a b v Z. rewrite !rotate4_cast by exact Z. destruct ring4 as (_&_&_&_&_&_&_&_&As&_). rewrite As. f_equal.
    pose proof (unit_vec v Z) as N. destruct C56_mat_cast_pf as (_ & _ & _ & M & _).
    rewrite <- (proj2 (M _ _ (angleAxis_unit a _ N) (angleAxis_unit b _ N))). f_equal.
    now apply C57_angleAxis_pf.
  - intros m. vdestruct. split; ms; parts; ring.
  - intros m v Z. rewrite rotate4_cast by exact Z. rewrite angleAxis_eq. unfold Rdiv. rewrite Rmult_0_l, sin_0, cos_0.
    generalize (normalize3 RS v). intros n. vdestruct. ms. parts; ring.
Qed.

(*PROPS
Example C48_ex : ~ zeros (l3 (V3 1 2 3)).
Proof. cbn. intros Z. inversion Z. lra. Qed.

PROPS*)
(** ** C49 *)
Definition view_mat (s u d e : vec3 R) : mat4 R :=
  M4 (V4 (x3 s) (x3 u) (x3 d) 0) (V4 (y3 s) (y3 u) (y3 d) 0) (V4 (z3 s) (z3 u) (z3 d) 0)
     (V4 (- ip (l3 s) (l3 e)) (- ip (l3 u) (l3 e)) (- ip (l3 d) (l3 e)) 1).
Lemma view_affine s u d e : lm4 (view_mat s u d e) =
  affine (lm3 (transpose3 RS (M3 s u d))) [- ip (l3 s) (l3 e); - ip (l3 u) (l3 e); - ip (l3 d) (l3 e)].
Proof. vdestruct. reflexivity. Qed.
Lemma view_point s u d e p : mapply 4 (lm4 (view_mat s u d e)) (point (l3 p)) =
  point [ip (l3 s) (vsub (l3 p) (l3 e)); ip (l3 u) (vsub (l3 p) (l3 e)); ip (l3 d) (vsub (l3 p) (l3 e))].
Proof. vdestruct. ents. Qed.
Lemma view_dir s u d e p : mapply 4 (lm4 (view_mat s u d e)) (direction (l3 p)) =
  direction [ip (l3 s) (l3 p); ip (l3 u) (l3 p); ip (l3 d) (l3 p)].
Proof. vdestruct. ents. Qed.

Lemma lookAtLH_view e c up : let f := normalize3 RS (vec3_sub RS c e) in let s := normalize3 RS (cross RS up f) in
  lookAtLH RS e c up = view_mat s (cross RS f s) f e.
Proof.
  cbv zeta. unfold lookAtLH. cbv zeta. generalize (normalize3 RS (vec3_sub RS c e)). intros f.
  generalize (normalize3 RS (cross RS up f)). intros s. generalize (cross RS f s). intros u. vdestruct. ms. parts; ring.
Qed.
Lemma lookAtRH_view e c up : let d := vec3_neg RS (normalize3 RS (vec3_sub RS c e)) in let s := normalize3 RS (cross RS up d) in
  lookAtRH RS e c up = view_mat s (cross RS d s) d e.
Proof.
  cbv zeta. unfold lookAtRH. cbv zeta. generalize (normalize3 RS (vec3_sub RS c e)). intros f.
  replace (cross RS up (vec3_neg RS f)) with (cross RS f up) by (clear; vdestruct; ms; parts; ring).
  generalize (normalize3 RS (cross RS f up)). intros s.
  replace (cross RS (vec3_neg RS f) s) with (cross RS s f) by (clear; vdestruct; ms; parts; ring).
  generalize (cross RS s f). intros u. vdestruct. ms. parts; ring.
Qed.

Lemma view_axis (s u d : vec3 R) k : ip (l3 s) (l3 d) = 0 -> ip (l3 u) (l3 d) = 0 -> ip (l3 d) (l3 d) = 1 ->
  point [ip (l3 s) (vscale k (l3 d)); ip (l3 u) (vscale k (l3 d)); ip (l3 d) (vscale k (l3 d))] = point [0; 0; k].
Proof. intros A B C. unfold vscale. rewrite !ip_scale_r, A, B, C, !Rmult_0_r, Rmult_1_r. reflexivity. Qed.
Lemma view_rigid d up e c k : norm (l3 d) = 1 -> ~ zeros (cross_l (l3 up) (l3 d)) -> vsub (l3 c) (l3 e) = vscale k (l3 d) ->
  let s := normalize3 RS (cross RS up d) in let m := lm4 (view_mat s (cross RS d s) d e) in
  (exists r t, rotation 3 r /\ m = affine r t) /\
  mapply 4 m (point (l3 e)) = point [0; 0; 0] /\ mapply 4 m (point (l3 c)) = point [0; 0; k] /\
  exists y z, 0 < y /\ mapply 4 m (direction (l3 up)) = direction [0; y; z].
Proof.
  intros U NP K s m. subst m. rewrite !view_point, view_dir, K. pose proof (look_s d up NP) as (S1 & S2 & S3). fold s in S1, S2, S3.
  pose proof (look_up d up NP) as P. fold s in P. ands.
  - eexists. eexists. split; [|apply view_affine]. apply rotation_transp. now apply look_rotation.
  - unfold point. clear. f_equal. vdestruct. ents.
  - assert (O : ip (l3 (cross RS d s)) (l3 d) = 0) by (clear; generalize s; intros; vdestruct; ms; ring).
    apply norm1_ip in U. exact (view_axis _ _ _ k S2 O U).
  - eexists. eexists. split; [exact P|]. f_equal. f_equal. exact S3.
Qed.

Lemma toward (e c : vec3 R) : ~ zeros (vsub (l3 c) (l3 e)) ->
  norm (l3 (normalize3 RS (vec3_sub RS c e))) = 1 /\
  vsub (l3 c) (l3 e) = vscale (norm (vsub (l3 c) (l3 e))) (l3 (normalize3 RS (vec3_sub RS c e))).
Proof.
  intros Z. assert (E : @l3 R (vec3_sub RS c e) = vsub (l3 c) (l3 e)) by (clear; vdestruct; reflexivity).
  split; [apply unit_vec; now rewrite E|]. rewrite normalize3_eq, E. unfold unit_of, vscale. rewrite scale_scale, Rinv_r, scale_1; [reflexivity|].
  pose proof (norm_nz _ Z). lra.
Qed.
Lemma not_parallel (up d : vec3 R) k : ~ zeros (cross_l (vscale k (l3 d)) (l3 up)) -> ~ zeros (cross_l (l3 up) (l3 d)).
Proof.
  intros H Z. apply H. apply ip_zero in Z. apply ip_zero.
  transitivity (k * k * ip (cross_l (l3 up) (l3 d)) (cross_l (l3 up) (l3 d))); [|rewrite Z; ring]. clear. vdestruct. ms. ring.
Qed.

(** C49: lookAtRH and lookAtLH are rigid motions (orthonormal linear part of determinant one) that put the eye at the
    origin, the centre on the view axis (negative or positive z) at its distance, and up into the half plane x = 0, y > 0. *)
Lemma C49_lookAt_pf : forall eye center up : vec3 R, ~ zeros (vsub (l3 center) (l3 eye)) ->
  ~ zeros (cross_l (vsub (l3 center) (l3 eye)) (l3 up)) ->
  let d := norm (vsub (l3 center) (l3 eye)) in
  forall m z, In (m, z) [(lookAtRH RS eye center up, - d); (lookAtLH RS eye center up, d)] ->
  (exists r t, rotation 3 r /\ lm4 m = affine r t) /\
  mapply 4 (lm4 m) (point (l3 eye)) = point [0; 0; 0] /\
  mapply 4 (lm4 m) (point (l3 center)) = point [0; 0; z] /\
  exists y z', 0 < y /\ mapply 4 (lm4 m) (direction (l3 up)) = direction [0; y; z'].
Proof.
  intros e c up Z NP d m z I. destruct (toward e c Z) as [U E]. destruct I as [I|[I|[]]]; apply pair_equal_spec in I; destruct I as [<- <-].
  - rewrite lookAtRH_view. cbv zeta. apply view_rigid.
    + apply norm1_ip. apply norm1_ip in U. rewrite <- U. generalize (normalize3 RS (vec3_sub RS c e)). clear. intros. vdestruct. ms. ring.
    + apply (not_parallel _ _ (- d)). intros X. apply NP. rewrite E. fold d. revert X. generalize (normalize3 RS (vec3_sub RS c e)).
      generalize d. clear. intros k v X. apply ip_zero in X. apply ip_zero. rewrite <- X. clear. vdestruct. ms. ring.
    + rewrite E. fold d. generalize (normalize3 RS (vec3_sub RS c e)). generalize d. clear. intros k v. vdestruct. ms. parts; ring.
  - rewrite lookAtLH_view. cbv zeta. apply view_rigid; [exact U| |exact E].
    apply (not_parallel _ _ d). intros X. apply NP. now rewrite E.
Qed.

(*PROPS
Example C49_ex : ~ zeros (vsub (l3 (V3 0 0 0)) (l3 (V3 3 4 5))) /\
  ~ zeros (cross_l (vsub (l3 (V3 0 0 0)) (l3 (V3 3 4 5))) (l3 (V3 0 1 0))).
Proof. split; cbn; intros Z; inversion Z; lra. Qed.

PROPS*)
(** ** C50 *)
Ltac ortho_tac := match goal with |- orthographic ?m _ _ _ _ _ _ _ _ _ => unfold orthographic; split;
  [intros x y z; ms; parts; field; lra|] end.

(** C50: every orthographic projection maps the view box affinely and bijectively to the clip box, depth with the
    sign of its handedness; the two-dimensional overload negates z. *)
Lemma C50_ortho_pf : forall l r b t n f : R, l <> r -> b <> t -> n <> f ->
  orthographic (lm4 (orthoLH_ZO RS l r b t n f)) l r b t n f 1 0 1 /\
  orthographic (lm4 (orthoRH_ZO RS l r b t n f)) l r b t n f (-1) 0 1 /\
  orthographic (lm4 (orthoLH_NO RS l r b t n f)) l r b t n f 1 (-1) 1 /\
  orthographic (lm4 (orthoRH_NO RS l r b t n f)) l r b t n f (-1) (-1) 1 /\
  orthographic (lm4 (ortho RS l r b t)) l r b t (-1) 1 (-1) (-1) 1.
Proof.
  intros l r b t n f H1 H2 H3.
  assert (N : forall k, k <> 0 -> k / ((r - l) * (t - b) * (f - n)) <> 0).
  { intros k K. unfold Rdiv. apply Rmult_integral_contrapositive_currified; [exact K|]. apply Rinv_neq_0_compat.
    repeat apply Rmult_integral_contrapositive_currified; lra. }
  ands; ortho_tac; intros Z.
  - apply (N 4); [lra|]. rewrite <- Z. ms. field. lra.
  - apply (N (-4)); [lra|]. rewrite <- Z. ms. field. lra.
  - apply (N 8); [lra|]. rewrite <- Z. ms. field. lra.
  - apply (N (-8)); [lra|]. rewrite <- Z. ms. field. lra.
  - apply (N (-4 * (f - n))); [lra|]. rewrite <- Z. ms. field. lra.
Qed.

(*PROPS
Example C50_ex : orthographic (lm4 (orthoRH_NO RS (-2) 6 (-3) 5 1 10)) (-2) 6 (-3) 5 1 10 (-1) (-1) 1.
Proof. destruct (C50_ortho_pf (-2) 6 (-3) 5 1 10) as (_ & _ & _ & H & _); [lra..|exact H]. Qed.

PROPS*)
(** ** C51 *)
Lemma tan_half_pos fovy : 0 < fovy < PI -> 0 < tan (fovy * (5 / 10)).
Proof. intros H. apply tan_gt_0; lra. Qed.
Lemma eps_val : c_epsilon RS = / 8388608.
Proof. cbv -[Rplus Rmult Rminus Ropp Rdiv Rinv IZR]. field. Qed.
Definition persp_of (lh zo : bool) := match lh, zo with
  | true, true => perspectiveLH_ZO | true, false => perspectiveLH_NO | false, true => perspectiveRH_ZO | false, false => perspectiveRH_NO end.
Definition persp_mat (lh zo : bool) (fovy aspect n f : R) : mat4 R :=
  let t := tan (fovy * (5 / 10)) in let sz := if lh then 1 else -1 in
  M4 (V4 (1 / (aspect * t)) 0 0 0) (V4 0 (1 / t) 0 0)
     (V4 0 0 (sz * (if zo then f / (f - n) else (f + n) / (f - n))) sz)
     (V4 0 0 (- (if zo then f * n else 2 * f * n) / (f - n)) 0).
Lemma persp_model lh zo b (fovy aspect n f : R) : n < f -> persp_of lh zo RS b fovy aspect n f =
  if match b with Debug => Req_bool aspect (/ 8388608) | Release => false end then AssertFail else Ret (persp_mat lh zo fovy aspect n f).
Proof.
  intros H.
  assert (A : cassert b (sgt (abs_f RS (aspect - c_epsilon RS)%R) (@slit RS 0%Z 0%Z)) =
    if match b with Debug => Req_bool aspect (/ 8388608) | Release => false end then AssertFail else Ret tt).
  { rewrite eps_val. destruct b; [|reflexivity].
    change (sgt (abs_f RS (aspect - / 8388608)%R) (@slit RS 0%Z 0%Z)) with (Rlt_bool 0 (Rabs (aspect - / 8388608))).
    unfold cassert. pose proof (Rabs_pos (aspect - / 8388608)).
    destruct (Req_bool_spec aspect (/ 8388608)) as [->|N].
    - rewrite Rminus_diag_eq, Rabs_R0 by reflexivity. rewrite Rlt_bool_false by lra. reflexivity.
    - rewrite Rlt_bool_true; [reflexivity|]. apply Rabs_pos_lt. lra. }
  assert (G : forall m : mat4 R, m = persp_mat lh zo fovy aspect n f ->
    bind (cassert b (sgt (abs_f RS (aspect - c_epsilon RS)%R) (@slit RS 0%Z 0%Z))) (fun _ => Ret m) =
    if match b with Debug => Req_bool aspect (/ 8388608) | Release => false end then AssertFail else Ret (persp_mat lh zo fovy aspect n f)).
  { intros m ->. rewrite A. destruct b; [destruct (Req_bool aspect (/ 8388608))|]; reflexivity. }
  destruct lh, zo; apply G; clear - H; ms; parts; unfold Rdiv; rewrite ?Rinv_1; try ring.
  all: try (field; lra).
Qed.
Lemma tan_half fovy : tan (fovy / 2) = tan (fovy * (5 / 10)).
Proof. f_equal. field. Qed.
Lemma persp_spec lh zo (fovy aspect n f : R) : 0 < fovy < PI -> 0 < aspect -> 0 < n < f ->
  perspective (lm4 (persp_mat lh zo fovy aspect n f)) fovy aspect n f (if lh then 1 else -1) (if zo then 0 else -1).
Proof.
  intros Hf Ha Hn. pose proof (tan_half_pos _ Hf) as T. unfold perspective. rewrite tan_half. unfold persp_mat. revert T.
  generalize (tan (fovy * (5 / 10))). intros t T. cbv zeta.
  assert (P : 0 < aspect * t) by now apply Rmult_lt_0_compat.
  assert (NZ : aspect <> 0 /\ t <> 0 /\ f - n <> 0 /\ f <> 0 /\ n <> 0 /\ n - f <> 0) by (ands; lra).
  exists (fun d => if zo then f * (d - n) / ((f - n) * d) else ((f + n) * d - 2 * f * n) / ((f - n) * d)). ands.
  - intros x y d Hd. destruct lh, zo; do 3 eexists; (split; [ms; parts; [reflexivity..|ring]|ands; field; ands; lra]).
  - destruct zo; field; lra.
  - destruct zo; field; lra.
  - intros d d' [D D']. set (k := if zo then f * n / (f - n) else 2 * f * n / (f - n)).
    assert (K : 0 < k). { unfold k. destruct zo; apply Rdiv_lt_0_compat; try lra; apply Rmult_lt_0_compat; lra. }
    assert (E : forall c, 0 < c -> (if zo then f * (c - n) / ((f - n) * c) else ((f + n) * c - 2 * f * n) / ((f - n) * c)) =
      (if zo then f / (f - n) else (f + n) / (f - n)) - k * / c).
    { intros c C. unfold k. destruct zo; field; lra. }
    rewrite !E by lra. assert (/ d' < / d) by (apply Rinv_lt_contravar; [apply Rmult_lt_0_compat; lra|exact D']).
    apply Rplus_lt_compat_l, Ropp_lt_contravar, Rmult_lt_compat_l; assumption.
  - intros Z. apply (f_equal (Rmult ((f - n) * (aspect * t * t)))) in Z. rewrite Rmult_0_r in Z.
    assert (X : (if lh then 1 else -1) * (if zo then f * n else 2 * f * n) = 0).
    { rewrite <- Z. destruct lh, zo; ms; field; lra. }
    assert (0 < f * n) by (apply Rmult_lt_0_compat; lra). destruct lh, zo; lra.
Qed.

(** C51: in every build that accepts the aspect ratio each perspective matrix is the perspective projection of its
    handedness (z sign 1 or -1) and depth range (near plane at 0 or -1). *)
Lemma C51_perspective_pf : forall (b : build) (fovy aspect n f : R), 0 < fovy < PI -> 0 < aspect -> 0 < n < f ->
  b = Release \/ aspect <> / 2 ^ 23 ->
  (exists m, perspectiveLH_ZO RS b fovy aspect n f = Ret m /\ perspective (lm4 m) fovy aspect n f 1 0) /\
  (exists m, perspectiveLH_NO RS b fovy aspect n f = Ret m /\ perspective (lm4 m) fovy aspect n f 1 (-1)) /\
  (exists m, perspectiveRH_ZO RS b fovy aspect n f = Ret m /\ perspective (lm4 m) fovy aspect n f (-1) 0) /\
  (exists m, perspectiveRH_NO RS b fovy aspect n f = Ret m /\ perspective (lm4 m) fovy aspect n f (-1) (-1)).
Proof.
  intros b fovy aspect n f Hf Ha Hn B.
  assert (G : forall lh zo, exists m, persp_of lh zo RS b fovy aspect n f = Ret m /\
    perspective (lm4 m) fovy aspect n f (if lh then 1 else -1) (if zo then 0 else -1)).
  { intros lh zo. exists (persp_mat lh zo fovy aspect n f). split; [|now apply persp_spec].
    rewrite persp_model by lra. destruct b; [|reflexivity]. rewrite Req_bool_false; [reflexivity|].
    intros E. destruct B as [B|B]; [discriminate|]. apply B. rewrite E. f_equal. ring. }
  ands; [exact (G true true)|exact (G true false)|exact (G false true)|exact (G false false)].
Qed.

(*PROPS
Example C51_ex : 0 < PI / 3 < PI /\ 0 < 16 / 9 /\ 0 < 1 / 10 < 100 /\ 16 / 9 <> / 2 ^ 23.
Proof. pose proof PI_RGT_0. ands; lra. Qed.

PROPS*)
(** C51: in binary32 the debug assertion fires exactly for a NaN aspect ratio and for aspect = FLT_EPSILON = 2^-23,
    whatever the other arguments; a release build never fails. *)
Lemma C51_assertion_pf : forall (L : Libm) (fovy aspect n f : f32),
  Forall (fun persp : forall S : Scalar, build -> S -> S -> S -> S -> outcome (mat4 S) =>
    (persp (F32 L) Debug fovy aspect n f = AssertFail <-> is_nan aspect = true \/ (finite aspect /\ b2r aspect = / 2 ^ 23)) /\
    (persp (F32 L) Debug fovy aspect n f <> AssertFail -> persp (F32 L) Debug fovy aspect n f = persp (F32 L) Release fovy aspect n f) /\
    is_ret (persp (F32 L) Release fovy aspect n f) = true)
  [perspectiveLH_ZO; perspectiveLH_NO; perspectiveRH_ZO; perspectiveRH_NO].
Proof.
  intros L fovy aspect n f.
  assert (E : b2r (c_epsilon (F32 L)) = / 2 ^ 23 /\ finite (c_epsilon (F32 L))).
  { change (c_epsilon (F32 L)) with (f32_lit 11920928955078125 (-23)).
    assert (X : f32_lit 11920928955078125 (-23) = @B754_finite 24 128 false 8388608 (-46) eq_refl) by (apply B2SF_inj; vm_compute; reflexivity).
    rewrite X. split; [|reflexivity]. unfold B2R, F2R. cbn [Fnum Fexp cond_Zopp]. change (-46)%Z with (- (46))%Z.
    rewrite bpow_opp. change (bpow radix2 46) with (IZR (Z.pow_pos 2 46)). cbn -[pow]. field. }
  set (c := Bltb (f32_lit 0 0) (Babs (bsub aspect (c_epsilon (F32 L))))).
  assert (C : c = false <-> is_nan aspect = true \/ (finite aspect /\ b2r aspect = / 2 ^ 23)).
  { destruct E as [E1 E2]. subst c. revert E1 E2. generalize (c_epsilon (F32 L)). intros e E1 E2. change (car (F32 L)) with f32 in e.
    destruct (fin_cases aspect) as [[F|[s ->]]|N].
    - destruct (minus_xr aspect e F E2) as [X NN]. change (Bminus mode_NE aspect e) with (bsub aspect e) in *.
      assert (Y : xr (Babs (bsub aspect e)) = Rabs (xr (bsub aspect e)) /\ is_nan (Babs (bsub aspect e)) = false).
      { revert NN. generalize (bsub aspect e). clear. intros [s|[]| |s m ex B] NN; try discriminate NN; split; try reflexivity.
        - cbn. now rewrite Rabs_R0.
        - cbn -[big]. rewrite Rabs_Ropp, Rabs_pos_eq; [reflexivity|]. pose proof big_pos. lra.
        - cbn -[big]. rewrite Rabs_pos_eq; [reflexivity|]. pose proof big_pos. lra.
        - unfold xr, Babs. cbn [B2R]. rewrite <- F2R_Zabs, abs_cond_Zopp. reflexivity. }
      rewrite Bltb_xr by (try reflexivity; apply Y). rewrite (proj1 Y), X. change (xr (f32_lit 0 0)) with 0%R.
      rewrite <- E1. split.
      + intros H. right. split; [exact F|]. destruct (Rlt_bool_spec 0 (Rabs (clip (rnd (b2r aspect - b2r e))))) as [?|H']; [discriminate|].
        assert (Z : rnd (b2r aspect - b2r e) = 0).
        { destruct (Req_dec (rnd (b2r aspect - b2r e)) 0) as [Z|Z]; [exact Z|exfalso]. pose proof (Rabs_pos_lt _ Z). pose proof big_pos.
          assert (clip (rnd (b2r aspect - b2r e)) <> 0) as K; [|apply Rabs_pos_lt in K; lra].
          unfold clip, Rmax, Rmin. destruct (Rle_dec big (rnd (b2r aspect - b2r e))); repeat destruct (Rle_dec _ _); lra. }
        destruct (Req_dec (b2r aspect - b2r e) 0) as [?|NZ]; [lra|exfalso]. revert Z. unfold Rminus.
        apply round_plus_neq_0; auto with typeclass_instances; [apply fmt_b2r|apply generic_format_opp, fmt_b2r].
      + intros [H|[_ H]]; [destruct aspect; discriminate|]. rewrite H, Rminus_diag_eq, rnd_0 by reflexivity. rewrite clip_in, Rabs_R0 by (rewrite Rabs_R0; apply big_pos).
        apply Rlt_bool_false. lra.
    - split; [|intros [H|[H _]]; discriminate]. destruct e as [?|?| |? ? ? ?]; try discriminate E2; destruct s; cbn; discriminate.
    - split; [auto|]. intros _. apply Bltb_nan_r, nan_abs, nan_sub_l, N. }
  assert (G : forall m : mat4 f32,
    (bind (cassert Debug c) (fun _ => Ret m) = AssertFail <-> is_nan aspect = true \/ (finite aspect /\ b2r aspect = / 2 ^ 23)) /\
    (bind (cassert Debug c) (fun _ => Ret m) <> AssertFail -> bind (cassert Debug c) (fun _ => Ret m) = bind (cassert Release c) (fun _ => Ret m)) /\
    is_ret (bind (cassert Release c) (fun _ => Ret m)) = true).
  { intros m. rewrite <- C. destruct c; cbn; intuition congruence. }
  repeat apply Forall_cons; [apply G..|apply Forall_nil].
Qed.
(** C51: aspect 0, which the assertion is there to reject, passes it; the matrix then has an entry that is not finite. *)
Lemma C51_zero_aspect_refuted_pf : forall (L : Libm) (fovy n f : f32),
  Forall (fun persp : forall S : Scalar, build -> S -> S -> S -> S -> outcome (mat4 S) =>
    exists m, persp (F32 L) Debug fovy (B754_zero false) n f = Ret m /\ is_finite (x4 (m4c0 m)) = false)
  [perspectiveLH_ZO; perspectiveLH_NO; perspectiveRH_ZO; perspectiveRH_NO].
Proof.
  intros L fovy n f.
  assert (E : forall t : f32, is_finite (bdiv (f32_lit 1 0) (bmul (B754_zero false) t)) = false).
  { intros t. destruct t as [s|s| |s m e B]; try destruct s; vm_compute; reflexivity. }
  assert (C : Bltb (f32_lit 0 0) (Babs (bsub (B754_zero false) (f32_lit 11920928955078125 (-23)))) = true) by (vm_compute; reflexivity).
  assert (G : forall m : mat4 f32, is_finite (x4 (m4c0 m)) = false -> exists m',
    bind (cassert Debug (Bltb (f32_lit 0 0) (Babs (bsub (B754_zero false) (f32_lit 11920928955078125 (-23)))))) (fun _ => Ret m) = Ret m' /\
    is_finite (x4 (m4c0 m')) = false).
  { intros m H. exists m. rewrite C. now split. }
  repeat apply Forall_cons; [apply G; apply E..|apply Forall_nil].
Qed.

(** ** C52 *)
Lemma signs_rotation (r0 r1 r2 : vec3 R) (k0 k1 k2 : R) : rotation 3 (lm3 (M3 r0 r1 r2)) ->
  k0 * k0 = 1 -> k1 * k1 = 1 -> k2 * k2 = 1 -> k0 * k1 * k2 = 1 ->
  rotation 3 (lm3 (M3 (vec3_mul_sc RS r0 k0) (vec3_mul_sc RS r1 k1) (vec3_mul_sc RS r2 k2))).
Proof.
  intros (O & _ & D) H0 H1 H2 H. apply rotation_of_cols.
  - destruct r0 as [a b c], r1 as [d e f], r2 as [g h i]. ms_in O. injection O as E00 E10 E20 E01 E11 E21 E02 E12 E22. ms.
    assert (X : forall p q u x t, u = t -> x = p * q * u -> x = p * q * t) by (intros; subst; reflexivity).
    parts;
    match goal with
    | |- a * k0 * (a * k0) + _ = _ => transitivity (k0 * k0 * (a * a + (b * b + (c * c + 0)))); [ring|rewrite E00, H0; ring]
    | |- d * k1 * (d * k1) + _ = _ => transitivity (k1 * k1 * (d * d + (e * e + (f * f + 0)))); [ring|rewrite E11, H1; ring]
    | |- g * k2 * (g * k2) + _ = _ => transitivity (k2 * k2 * (g * g + (h * h + (i * i + 0)))); [ring|rewrite E22, H2; ring]
    | |- d * k1 * (a * k0) + _ = _ => transitivity (k0 * k1 * (d * a + (e * b + (f * c + 0)))); [ring|rewrite E10; ring]
    | |- a * k0 * (d * k1) + _ = _ => transitivity (k0 * k1 * (a * d + (b * e + (c * f + 0)))); [ring|rewrite E01; ring]
    | |- g * k2 * (a * k0) + _ = _ => transitivity (k0 * k2 * (g * a + (h * b + (i * c + 0)))); [ring|rewrite E20; ring]
    | |- a * k0 * (g * k2) + _ = _ => transitivity (k0 * k2 * (a * g + (b * h + (c * i + 0)))); [ring|rewrite E02; ring]
    | |- g * k2 * (d * k1) + _ = _ => transitivity (k1 * k2 * (g * d + (h * e + (i * f + 0)))); [ring|rewrite E21; ring]
    | |- d * k1 * (g * k2) + _ = _ => transitivity (k1 * k2 * (d * g + (e * h + (f * i + 0)))); [ring|rewrite E12; ring]
    end.
  - transitivity (k0 * k1 * k2 * leibniz 3 (lm3 (M3 r0 r1 r2))); [|rewrite D, H; ring]. clear. vdestruct. ms. ring.
Qed.

Lemma length_scaled (r : vec3 R) s : ip (l3 r) (l3 r) = 1 -> length3 RS (vec3_mul_sc RS r s) = Rabs s.
Proof.
  intros H. destruct r as [a b c]. ms_in H. ms.
  transitivity (sqrt (s * s * (a * a + (b * b + (c * c + 0))))); [f_equal; ring|]. rewrite H, Rmult_1_r. apply sqrt_Rsqr_abs.
Qed.

Definition sgn (x : R) : R := x / Rabs x.
Lemma sgn_sq x : x <> 0 -> sgn x * sgn x = 1.
Proof. intros H. unfold sgn. unfold Rabs. destruct (Rcase_abs x); field; lra. Qed.
Lemma sgn_cases x : x <> 0 -> (0 < x /\ sgn x = 1) \/ (x < 0 /\ sgn x = -1).
Proof. intros H. unfold sgn, Rabs. destruct (Rcase_abs x); [right|left]; (split; [lra|field; lra]). Qed.

Definition dec (a b c t : vec3 R) : vec3 R * quat R * vec3 R :=
  let na := vec3_div_assign_sc RS (fun _ => length3 RS a) a in
  let nb := vec3_div_assign_sc RS (fun _ => length3 RS b) b in
  let nc := vec3_div_assign_sc RS (fun _ => length3 RS c) c in
  let l := V3 (length3 RS a) (length3 RS b) (length3 RS c) in
  if Rlt_bool (dot3 RS na (cross RS nb nc)) 0
  then (V3 (x3 l * - (1)) (y3 l * - (1)) (z3 l * - (1)), orientation_of RS (M3 (vec3_mul_sc RS na (- (1))%R) (vec3_mul_sc RS nb (- (1))%R) (vec3_mul_sc RS nc (- (1))%R)), t)
  else (l, orientation_of RS (M3 na nb nc), t).
Lemma dec_form (a b c t : vec3 R) (p q r s : R) :
  decompose_orthogonal RS (M4 (vec4_v3f RS a p) (vec4_v3f RS b q) (vec4_v3f RS c r) (vec4_v3f RS t s)) = dec a b c t.
Proof.
  destruct a as [a0 a1 a2], b as [b0 b1 b2], c as [c0 c1 c2], t as [t0 t1 t2]. unfold decompose_orthogonal, dec. cbv zeta.
  match goal with |- context [if ?d then (V3 _ _ _, _, _, _) else _] =>
    match goal with |- _ = (if ?c then _ else _) => change d with c; destruct c end end; reflexivity.
Qed.
Lemma normed (r : vec3 R) s : s <> 0 -> vec3_div_assign_sc RS (fun _ => Rabs s) (vec3_mul_sc RS r s) = vec3_mul_sc RS r (sgn s).
Proof.
  intros H. assert (Rabs s <> 0) by now apply Rabs_no_R0. unfold sgn. destruct r as [a b c]. ms. revert H0. generalize (Rabs s). intros k K.
  parts; field; exact K.
Qed.
Lemma rescaled (r : vec3 R) a b : vec3_mul_sc RS (vec3_mul_sc RS r a) b = vec3_mul_sc RS r (a * b)%R.
Proof. vdestruct. ms. parts; ring. Qed.

Lemma decompose_eq (r0 r1 r2 t : vec3 R) (s0 s1 s2 : R) p q r s : rotation 3 (lm3 (M3 r0 r1 r2)) -> s0 <> 0 -> s1 <> 0 -> s2 <> 0 ->
  let k := sgn s0 * sgn s1 * sgn s2 in
  decompose_orthogonal RS (M4 (vec4_v3f RS (vec3_mul_sc RS r0 s0) p) (vec4_v3f RS (vec3_mul_sc RS r1 s1) q)
    (vec4_v3f RS (vec3_mul_sc RS r2 s2) r) (vec4_v3f RS t s)) =
  (V3 (k * Rabs s0) (k * Rabs s1) (k * Rabs s2),
   orientation_of RS (M3 (vec3_mul_sc RS r0 (sgn s0 * k)%R) (vec3_mul_sc RS r1 (sgn s1 * k)%R) (vec3_mul_sc RS r2 (sgn s2 * k)%R)), t).
Proof.
  intros (O & _ & D) H0 H1 H2 k.
  assert (U : ip (l3 r0) (l3 r0) = 1 /\ ip (l3 r1) (l3 r1) = 1 /\ ip (l3 r2) (l3 r2) = 1).
  { revert O. clear. destruct r0 as [a b c], r1 as [d e f], r2 as [g h i]. intros O. ms_in O. injection O as E00 E10 E20 E01 E11 E21 E02 E12 E22. ands; assumption. }
  destruct U as (U0 & U1 & U2).
  rewrite dec_form. unfold dec. cbv zeta. rewrite !length_scaled, !normed by assumption.
  assert (DT : @eq R (dot3 RS (vec3_mul_sc RS r0 (sgn s0)) (cross RS (vec3_mul_sc RS r1 (sgn s1)) (vec3_mul_sc RS r2 (sgn s2)))) k).
  { transitivity (k * leibniz 3 (lm3 (M3 r0 r1 r2))); [|rewrite D; ring]. unfold k. generalize (sgn s0) (sgn s1) (sgn s2). clear. intros.
    vdestruct. ms. ring. }
  rewrite DT. assert (K : k = 1 \/ k = -1).
  { unfold k. destruct (sgn_cases s0 H0) as [[_ ->]|[_ ->]], (sgn_cases s1 H1) as [[_ ->]|[_ ->]], (sgn_cases s2 H2) as [[_ ->]|[_ ->]]; lra. }
  destruct K as [-> | ->].
  - rewrite Rlt_bool_false by lra. rewrite !Rmult_1_l, !Rmult_1_r. reflexivity.
  - rewrite Rlt_bool_true by lra. cbn [x3 y3 z3]. rewrite !rescaled. replace (-1) with (- (1)) by ring. f_equal. f_equal. parts; ring.
Qed.

(** C52: the decomposition of translation * rotation * scale returns the translation, a unit quaternion and a scale that
    recompose to the same matrix; the scale is the given one up to signs, all negative if an odd number was negative, and
    with positive factors exactly the given scale and rotation come back. *)
Lemma C52_decompose_pf : forall (m : mat4 R) (r s t : list R), length r = 9%nat -> length s = 3%nat -> length t = 3%nat ->
  rotation 3 r -> Forall (fun x => x <> 0) s -> lm4 m = affine (mprod 3 r (diagonal 3 s)) t ->
  let '(sc, o, tr) := decompose_orthogonal RS m in
  l3 tr = t /\ unit_quat o /\
  mprod 3 (lm3 (mat3_cast RS o)) (diagonal 3 (l3 sc)) = mprod 3 r (diagonal 3 s) /\
  (0 < fold_right Rmult 1 s -> l3 sc = map Rabs s) /\
  (fold_right Rmult 1 s < 0 -> l3 sc = map (fun x => - Rabs x) s) /\
  (Forall (fun x => 0 < x) s -> l3 sc = s /\ lm3 (mat3_cast RS o) = r).
Proof.
  intros m r s t Lr Ls Lt Rr Hs Hm.
  destruct r as [|a [|b [|c [|d [|e [|f [|g [|h [|i [|]]]]]]]]]]; try discriminate Lr.
  destruct s as [|s0 [|s1 [|s2 [|]]]]; try discriminate Ls. destruct t as [|t0 [|t1 [|t2 [|]]]]; try discriminate Lt. clear Lr Ls Lt.
  rewrite !Forall_cons_iff in Hs. destruct Hs as (H0 & H1 & H2 & _).
  set (r0 := V3 a b c). set (r1 := V3 d e f). set (r2 := V3 g h i).
  change [a; b; c; d; e; f; g; h; i] with (lm3 (M3 r0 r1 r2)) in *.
  assert (Em : m = M4 (vec4_v3f RS (vec3_mul_sc RS r0 s0) 0%R) (vec4_v3f RS (vec3_mul_sc RS r1 s1) 0%R)
    (vec4_v3f RS (vec3_mul_sc RS r2 s2) 0%R) (vec4_v3f RS (V3 t0 t1 t2) 1%R)).
  { apply lm4_inj. etransitivity; [exact Hm|]. subst r0 r1 r2. ents. }
  rewrite Em, decompose_eq by assumption. cbv zeta. set (k := sgn s0 * sgn s1 * sgn s2).
  assert (K : k * k = 1).
  { unfold k. transitivity (sgn s0 * sgn s0 * (sgn s1 * sgn s1) * (sgn s2 * sgn s2)); [ring|]. rewrite !sgn_sq by assumption. ring. }
  assert (S : forall x, x <> 0 -> sgn x * k * (sgn x * k) = 1).
  { intros x X. transitivity (sgn x * sgn x * (k * k)); [ring|]. rewrite K, sgn_sq by exact X. ring. }
  destruct (orient_rotation (M3 (vec3_mul_sc RS r0 (sgn s0 * k)%R) (vec3_mul_sc RS r1 (sgn s1 * k)%R) (vec3_mul_sc RS r2 (sgn s2 * k)%R))) as [OU OC].
  { apply signs_rotation; [exact Rr|auto..]. transitivity (k * (k * k) * k); [unfold k at 4; ring|]. rewrite K. rewrite Rmult_1_r. exact K. }
  assert (K1 : k = 1 \/ k = -1) by (assert ((k - 1) * (k + 1) = 0) as Z by lra; apply Rmult_integral in Z; lra).
  assert (B : 0 < Rabs s0 * Rabs s1 * Rabs s2) by (repeat apply Rmult_lt_0_compat; now apply Rabs_pos_lt).
  assert (PR : fold_right Rmult 1 [s0; s1; s2] = k * (Rabs s0 * Rabs s1 * Rabs s2)).
  { cbn [fold_right]. unfold k, sgn. field. ands; now apply Rabs_no_R0. }
  ands.
  - reflexivity.
  - exact OU.
  - rewrite OC. assert (A : forall x, x <> 0 -> sgn x * k * (k * Rabs x) = x).
    { intros x X. transitivity (k * k * (sgn x * Rabs x)); [ring|]. rewrite K. unfold sgn. field. now apply Rabs_no_R0. }
    pose proof (A _ H0) as A0. pose proof (A _ H1) as A1. pose proof (A _ H2) as A2. rewrite <- A0 at 3. rewrite <- A1 at 3. rewrite <- A2 at 3.
    clear. subst r0 r1 r2. generalize (sgn s0) (sgn s1) (sgn s2) (Rabs s0) (Rabs s1) (Rabs s2) k. clear. intros. ents.
  - intros P. rewrite PR in P. assert (k = 1) as ->; [|cbv [l3 map x3 y3 z3]; now rewrite !Rmult_1_l].
    destruct K1 as [?|E]; [assumption|]. rewrite E in P. lra.
  - intros P. rewrite PR in P. assert (k = -1) as ->; [|cbv [l3 map x3 y3 z3]; parts; ring].
    destruct K1 as [E|?]; [rewrite E in P; lra|assumption].
  - intros P. rewrite !Forall_cons_iff in P. destruct P as (P0 & P1 & P2 & _).
    assert (S0 : sgn s0 = 1) by (destruct (sgn_cases s0 H0) as [[? ?]|[? ?]]; lra).
    assert (S1 : sgn s1 = 1) by (destruct (sgn_cases s1 H1) as [[? ?]|[? ?]]; lra).
    assert (S2 : sgn s2 = 1) by (destruct (sgn_cases s2 H2) as [[? ?]|[? ?]]; lra).
    assert (K2 : k = 1) by (unfold k; rewrite S0, S1, S2; ring). rewrite OC, S0, S1, S2, K2. clear - P0 P1 P2. split.
    + cbv [l3 x3 y3 z3]. rewrite !Rabs_pos_eq by lra. now rewrite !Rmult_1_l.
    + subst r0 r1 r2. ents.
Qed.

(*PROPS
Example C52_ex : rotation 3 [0; 1; 0; -1; 0; 0; 0; 0; 1] /\ Forall (fun x => x <> 0) [2; -3; 4] /\
  exists m : mat4 R, lm4 m = affine (mprod 3 [0; 1; 0; -1; 0; 0; 0; 0; 1] (diagonal 3 [2; -3; 4])) [5; 6; 7].
Proof.
  ands.
  - unfold rotation; ands; cbv -[Rplus Rmult Ropp IZR]; repeat f_equal; ring.
  - repeat apply Forall_cons; try apply Forall_nil; lra.
  - exists (M4 (V4 0 2 0 0) (V4 3 0 0 0) (V4 0 0 4 0) (V4 5 6 7 1)). cbv -[Rplus Rmult Ropp IZR]. repeat f_equal; ring.
Qed.

PROPS*)
