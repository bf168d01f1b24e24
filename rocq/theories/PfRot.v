(** * Proofs: rotation matrices, quaternions, angle-axis, look-at, decomposition *)
From Coq Require Import ZArith Bool Reals List Lra.
From Flocq Require Import Core.
From Verif Require Import Scalar F32Tac RealInst Outcome Types Spec SpecR SpecMat SpecGeo RealTac
  ModelVec ModelQuat ModelGeom ModelMat ModelMatrix ModelQuaternion ModelTransform.
Import ListNotations.
Local Open Scope R_scope.
(*HEADER END*)
From Verif Require Import MatTac PfMat PfQuat RotLib.

(** ** Helpers *)
Lemma normalize3_eq (v : vec3 R) : l3 (normalize3 RS v) = unit_of (l3 v).
Proof.
  destruct v as [x y z]. unfold unit_of, norm. ms. replace (x * x + (y * y + (z * z + 0))) with (x * x + y * y + z * z) by ring.
  parts; unfold Rdiv; ring.
Qed.
Lemma normalize_q_eq (q : quat R) : lq (normalize_q RS q) = unit_of (lq q).
Proof.
  destruct q as [x y z w]. unfold unit_of, norm. ms.
  match goal with |- context [sqrt ?a] => replace (x * x + (y * y + (z * z + (w * w + 0)))) with a by ring end.
  parts; unfold Rdiv; ring.
Qed.
Lemma norm_nz u : ~ zeros u -> 0 < norm u.
Proof. intros Z. destruct (norm_pos u) as [H|H]; [exact H|]. symmetry in H. now apply norm_zero in H. Qed.
Lemma unit_of_ip u : ~ zeros u -> ip (unit_of u) (unit_of u) = 1.
Proof.
  intros Z. apply norm_nz in Z. unfold unit_of, vscale. rewrite ip_scale_l, ip_scale_r, <- norm_sq. field. lra.
Qed.
Lemma rotation_of_cols (m : mat3 R) :
  mprod 3 (mtransp 3 (lm3 m)) (lm3 m) = mident 3 -> leibniz 3 (lm3 m) = 1 -> rotation 3 (lm3 m).
Proof.
  intros O D. unfold rotation. ands; [exact O| |exact D].
  destruct ring3 as (_&_&_&PM&PI&_&_&_&As&_&_&Ur&Ul&_). destruct transp3 as (PT&_&_).
  assert (L : mat3_mul RS (transpose3 RS m) m = mat3_default RS).
  { apply lm3_inj. etransitivity; [apply PM|]. etransitivity; [|symmetry; apply PI].
    etransitivity; [|exact O]. reflexivity. }
  assert (N : determinant3 RS m <> 0) by (intros Z; assert (determinant3 RS m = 1) by (etransitivity; [apply det3_leibniz|exact D]); lra).
  assert (I : inverse3 RS m = transpose3 RS m).
  { transitivity (mat3_mul RS (mat3_mul RS (transpose3 RS m) m) (inverse3 RS m)).
    - now rewrite L, Ul.
    - now rewrite As, (inv3_r m N), Ur. }
  pose proof (inv3_r m N) as Rr. rewrite I in Rr. apply (f_equal (@lm3 R)) in Rr.
  etransitivity; [|etransitivity; [exact Rr|apply PI]]. symmetry. etransitivity; [apply PM|]. reflexivity.
Qed.
Lemma rotation_transp (m : mat3 R) : rotation 3 (lm3 m) -> rotation 3 (lm3 (transpose3 RS m)).
Proof.
  intros (A & B & C). destruct transp3 as (PT&_&_). destruct det3 as (DL&_&DT&_).
  assert (TT : mtransp 3 (lm3 (transpose3 RS m)) = lm3 m) by (vdestruct; reflexivity).
  unfold rotation. rewrite TT. ands.
  - etransitivity; [|exact B]. reflexivity.
  - etransitivity; [|exact A]. reflexivity.
  - etransitivity; [symmetry; apply DL|]. etransitivity; [apply DT|]. etransitivity; [apply DL|]. exact C.
Qed.
(** right-handed frame with first axis [s] and third axis [f] *)
Lemma frame (s f : vec3 R) : ip (l3 s) (l3 s) = 1 -> ip (l3 f) (l3 f) = 1 -> ip (l3 s) (l3 f) = 0 ->
  rotation 3 (lm3 (M3 s (cross RS f s) f)).
Proof.
  destruct s as [a b c], f as [g h i]. intros S F O. ms_in S. ms_in F. ms_in O.
  assert (L : (h * c - i * b) * (h * c - i * b) + (i * a - g * c) * (i * a - g * c) + (g * b - h * a) * (g * b - h * a) = 1).
  { transitivity ((a * a + (b * b + (c * c + 0))) * (g * g + (h * h + (i * i + 0)))
      - (a * g + (b * h + (c * i + 0))) * (a * g + (b * h + (c * i + 0)))); [ring|rewrite S, F, O; ring]. }
  apply rotation_of_cols.
  - ms. parts; lra.
  - ms. lra.
Qed.

(** ** C56 *)
(** C56: mat3_cast of a unit quaternion is a rotation matrix acting like the quaternion, and turns products into products. *)
Lemma C56_mat_cast_pf :
  (forall q, unit_quat q -> rotation 3 (lm3 (mat3_cast RS q)) /\ rotation 4 (lm4 (mat4_cast RS q))) /\
  (forall q v, mat3_mul_vec RS (mat3_cast RS q) v = quat_mul_vec RS q v) /\
  (forall q v w, mat4_mul_vec RS (mat4_cast RS q) (vec4_v3f RS v w) = vec4_v3f RS (quat_mul_vec RS q v) w) /\
  (forall p q, unit_quat p -> unit_quat q ->
     mat3_cast RS (quat_mul RS p q) = mat3_mul RS (mat3_cast RS p) (mat3_cast RS q) /\
     mat4_cast RS (quat_mul RS p q) = mat4_mul RS (mat4_cast RS p) (mat4_cast RS q)) /\
  mat3_cast RS (quat_default RS) = mat3_default RS /\
  (forall q, unit_quat q -> mat3_cast RS (conjugate RS q) = transpose3 RS (mat3_cast RS q)).
Proof.
  assert (P : forall p q, unit_quat p -> unit_quat q -> mat3_cast RS (quat_mul RS p q) = mat3_mul RS (mat3_cast RS p) (mat3_cast RS q)).
  { intros p q Up Uq. apply mat3_ext. intros v. destruct ring3 as (_&_&_&_&_&_&_&_&_&_&_&_&_&_&_&_&Av&_).
    rewrite Av. rewrite !mat3_cast_act. destruct C54_composition_pf as (C & _). now apply C. }
  ands.
  - intros q U. pose proof (mat3_cast_rotation q U) as (A & B & C). ands; [now apply mat3_cast_rotation|].
    revert A B C. unfold mat4_cast. generalize (mat3_cast RS q). intros m A B C. vdestruct.
    ms_in A. ms_in B. ms_in C. injection A; intros; clear A. injection B; intros; clear B. unfold rotation. ands.
    + ms. parts; lra.
    + ms. parts; lra.
    + rewrite <- C. ms. ring.
  - exact mat3_cast_act.
  - intros. vdestruct. ms. parts; ring.
  - intros p q Up Uq. split; [now apply P|]. unfold mat4_cast. rewrite P by assumption.
    destruct C46_homomorphism_pf as (H & _). apply H.
  - ms. parts; ring.
  - intros q U. vdestruct. ms. parts; ring.
Qed.

(** C56: quat_cast inverts mat3_cast up to sign, in every branch. *)
Lemma C56_quat_cast_pf :
  (forall q, unit_quat q -> quat_cast3 RS (mat3_cast RS q) = q \/ quat_cast3 RS (mat3_cast RS q) = quat_neg RS q) /\
  (forall q, unit_quat q -> quat_cast4 RS (mat4_cast RS q) = q \/ quat_cast4 RS (mat4_cast RS q) = quat_neg RS q) /\
  (forall m, rotation 3 (lm3 m) -> unit_quat (quat_cast3 RS m) /\ mat3_cast RS (quat_cast3 RS m) = m).
Proof.
  ands.
  - exact cast_pm.
  - intros q U. unfold quat_cast4, mat4_cast. destruct (C46_conversions_pf RS) as (_&_&_&H). rewrite H. now apply cast_pm.
  - exact cast_rotation.
Qed.

(*PROPS
(** a rotation taking the last branch of quat_cast *)
Example C56_ex : rotation 3 (lm3 (M3 (V3 0 1 0) (V3 (-1) 0 0) (V3 0 0 1))) /\ unit_quat (Quat 0 0 1 0).
Proof.
  split; [unfold rotation; ands; cbv -[Rplus Rmult Ropp IZR]; repeat f_equal; ring|].
  unfold unit_quat. apply norm1_ip. unfold ip. cbn. lra.
Qed.

PROPS*)
(** ** C57 *)
Lemma half_angle a : cos a = cos (a / 2) * cos (a / 2) - sin (a / 2) * sin (a / 2) /\
  sin a = 2 * sin (a / 2) * cos (a / 2) /\ cos (a / 2) * cos (a / 2) + sin (a / 2) * sin (a / 2) = 1.
Proof.
  ands.
  - replace a with (2 * (a / 2)) at 1 by field. apply cos_2a.
  - replace a with (2 * (a / 2)) at 1 by field. apply sin_2a.
  - pose proof (sin2_cos2 (a / 2)) as H. unfold Rsqr in H. lra.
Qed.
Lemma angleAxis_eq a (n : vec3 R) : angleAxis RS a n =
  Quat (x3 n * sin (a / 2)) (y3 n * sin (a / 2)) (z3 n * sin (a / 2)) (cos (a / 2)).
Proof.
  destruct n as [x y z]. ms. replace (a * (5 / 10)) with (a / 2) by field. reflexivity.
Qed.
Lemma angleAxis_unit a (n : vec3 R) : norm (l3 n) = 1 -> unit_quat (angleAxis RS a n).
Proof.
  intros N. apply norm1_ip in N. apply unit_qn. rewrite angleAxis_eq. destruct (half_angle a) as (_ & _ & H).
  destruct n as [x y z]. ms_in N. ms. revert H. generalize (sin (a / 2)) (cos (a / 2)). intros s c H.
  transitivity (s * s * (x * x + (y * y + (z * z + 0))) + c * c); [ring|rewrite N; lra].
Qed.
Lemma angleAxis_rodrigues a (n v : vec3 R) : norm (l3 n) = 1 -> l3 (quat_mul_vec RS (angleAxis RS a n) v) = rodrigues a (l3 n) (l3 v).
Proof.
  intros N. rewrite angleAxis_eq. destruct (half_angle a) as (C & S & H). unfold rodrigues. rewrite C, S.
  apply norm1_ip in N. destruct n as [x y z], v as [v0 v1 v2]. ms_in N. ms.
  revert H. generalize (sin (a / 2)) (cos (a / 2)). intros s c H.
  assert (Hs : c * c = 1 - s * s) by lra.
  assert (Hz : z * z = 1 - x * x - y * y) by lra.
  parts; ring_simplify; replace (c ^ 2) with (1 - s * s) by (rewrite <- Hs; ring);
    ring_simplify; replace (z ^ 2) with (1 - x * x - y * y) by (rewrite <- Hz; ring); ring.
Qed.

(** C57: angleAxis with a unit axis is the unit quaternion of the rotation by that angle about that axis. *)
Lemma C57_angleAxis_pf : forall a n, norm (l3 n) = 1 ->
  unit_quat (angleAxis RS a n) /\
  (forall v, l3 (quat_mul_vec RS (angleAxis RS a n) v) = rodrigues a (l3 n) (l3 v)) /\
  (0 <= a <= 2 * PI -> angle RS (angleAxis RS a n) = a) /\
  (0 < a < 2 * PI -> axis RS (angleAxis RS a n) = n) /\
  (forall b, quat_mul RS (angleAxis RS a n) (angleAxis RS b n) = angleAxis RS (a + b) n).
Proof.
  intros a n N. ands.
  - now apply angleAxis_unit.
  - intros v. now apply angleAxis_rodrigues.
  - intros B. unfold angle. rewrite angleAxis_eq. cbn [qw].
    change (acos (cos (a / 2)) * 2 = a). rewrite acos_cos by lra. field.
  - intros B. unfold axis. rewrite angleAxis_eq. destruct n as [x y z]. ms.
    assert (S : 0 < sin (a / 2)) by (apply sin_gt_0; lra).
    destruct (half_angle a) as (_ & _ & H). replace (1 - cos (a / 2) * cos (a / 2)) with (sin (a / 2) * sin (a / 2)) by lra.
    destruct (Rle_bool_spec (sin (a / 2) * sin (a / 2)) 0); [nra|]. rewrite sqrt_square by lra.
    parts; field; lra.
  - intros b. rewrite mul_is_ham, !angleAxis_eq.
    assert (E : (a + b) / 2 = a / 2 + b / 2) by field.
    change (@sadd RS a b) with (a + b)%R. rewrite E, cos_plus, sin_plus. clear E. apply norm1_ip in N. destruct n as [x y z]. ms_in N. ms.
    generalize (sin (a / 2)) (cos (a / 2)) (sin (b / 2)) (cos (b / 2)). intros s c s' c'. parts; try ring.
    assert (Hz : z * z = 1 - x * x - y * y) by lra.
    ring_simplify. replace (z ^ 2) with (1 - x * x - y * y) by (rewrite <- Hz; ring). ring.
Qed.

(** C57: axis and angle recover every unit quaternion, and axis is always a unit vector (never a division by zero). *)
Lemma C57_axis_angle_pf : forall q, unit_quat q ->
  norm (l3 (axis RS q)) = 1 /\ angleAxis RS (angle RS q) (axis RS q) = q.
Proof.
  intros q U. apply unit_qn in U. destruct q as [x y z w]. unfold qn in U; cbn [qx qy qz qw] in U.
  pose proof (Rle_0_sqr x) as Hx. pose proof (Rle_0_sqr y) as Hy. pose proof (Rle_0_sqr z) as Hz. pose proof (Rle_0_sqr w). unfold Rsqr in *.
  assert (Bw : -1 <= w <= 1) by (split; nra).
  assert (Hh : angle RS (Quat x y z w) / 2 = acos w) by (change (acos w * 2 / 2 = acos w); field).
  rewrite norm1_ip. rewrite angleAxis_eq, Hh, cos_acos by exact Bw. rewrite sin_acos by exact Bw.
  unfold axis. ms. destruct (Rle_bool_spec (1 - w * w) 0) as [L|L].
  - assert (W : w * w = 1) by lra. assert (x * x = 0) by lra. assert (y * y = 0) by lra. assert (z * z = 0) by lra.
    assert (x = 0) by nra. assert (y = 0) by nra. assert (z = 0) by nra. subst. split; [ring|].
    replace (1 - w * w) with 0 by lra. rewrite sqrt_0. parts; ring.
  - assert (P : 0 < sqrt (1 - w * w)) by (now apply sqrt_lt_R0).
    assert (Q : sqrt (1 - w * w) * sqrt (1 - w * w) = 1 - w * w) by (apply sqrt_sqrt; lra).
    revert P Q. generalize (sqrt (1 - w * w)). intros r P Q. split.
    + transitivity ((x * x + y * y + z * z) / (r * r)); [field; lra|]. rewrite Q. replace (x * x + y * y + z * z) with (1 - w * w) by lra. field. lra.
    + parts; field; lra.
Qed.

(** C57: rotate(q, a, v) appends the rotation about the normalized axis. *)
Lemma C57_rotate_pf : forall q a v w, unit_quat q -> ~ zeros (l3 v) ->
  unit_quat (rotate_q RS q a v) /\
  l3 (quat_mul_vec RS (rotate_q RS q a v) w) = qrot q (rodrigues a (unit_of (l3 v)) (l3 w)).
Proof.
  intros q a v w U Z. assert (N : norm (l3 (normalize3 RS v)) = 1).
  { apply norm1_ip. rewrite normalize3_eq. now apply unit_of_ip. }
  pose proof (angleAxis_unit a _ N) as U'. unfold rotate_q. split; [now apply unit_mul|].
  destruct C54_composition_pf as (C & _). rewrite C by assumption. rewrite <- normalize3_eq, <- angleAxis_rodrigues by exact N.
  now apply act_is_rot.
Qed.

(** ** C61 *)
Lemma unit_ip3 (v : vec3 R) : norm (l3 v) = 1 -> ip (l3 v) (l3 v) = 1.
Proof. apply norm1_ip. Qed.
Lemma cross_eq (u v : vec3 R) : l3 (cross RS u v) = cross_l (l3 u) (l3 v).
Proof. vdestruct. ms. parts; ring. Qed.
Lemma ip_unit_of_l u v : ip (unit_of u) v = / norm u * ip u v.
Proof. apply ip_scale_l. Qed.
Lemma cross_orth (u v : vec3 R) : ip (cross_l (l3 u) (l3 v)) (l3 v) = 0 /\ ip (cross_l (l3 u) (l3 v)) (l3 u) = 0.
Proof. vdestruct. split; ms; ring. Qed.

Section LookAt.
Variables d up : vec3 R.
Hypothesis Ud : norm (l3 d) = 1.
Hypothesis NP : ~ zeros (cross_l (l3 up) (l3 d)).
Let s := normalize3 RS (cross RS up d).

Lemma look_s : ip (l3 s) (l3 s) = 1 /\ ip (l3 s) (l3 d) = 0 /\ ip (l3 s) (l3 up) = 0.
Proof.
  unfold s. rewrite normalize3_eq, cross_eq, !ip_unit_of_l. destruct (cross_orth up d) as [A B]. rewrite A, B.
  ands; try ring. rewrite <- ip_unit_of_l. now apply unit_of_ip.
Qed.
Lemma look_rotation : rotation 3 (lm3 (M3 s (cross RS d s) d)).
Proof. destruct look_s as (A & B & _). apply frame; auto. now apply norm1_ip. Qed.
Lemma look_up : 0 < ip (l3 (cross RS d s)) (l3 up).
Proof.
  pose proof (norm_nz _ NP) as K. destruct look_s as (A & _ & _).
  assert (E : ip (l3 (cross RS d s)) (l3 up) = ip (l3 s) (cross_l (l3 up) (l3 d))) by (clear; destruct s, d, up; ms; ring).
  rewrite E. assert (F : cross_l (l3 up) (l3 d) = vscale (norm (cross_l (l3 up) (l3 d))) (l3 s)).
  { unfold s. rewrite normalize3_eq, cross_eq. unfold unit_of. unfold vscale. rewrite scale_scale, Rinv_r, scale_1 by lra. reflexivity. }
  rewrite F. unfold vscale. rewrite ip_scale_r, A. lra.
Qed.
End LookAt.

(** C61: quatLookAtLH turns +z, and quatLookAtRH turns -z, into the direction; x stays orthogonal to up and y on its side. *)
Lemma C61_lookAt_pf : forall d up, norm (l3 d) = 1 -> ~ zeros (cross_l (l3 up) (l3 d)) ->
  let l := quatLookAtLH RS d up in let r := quatLookAtRH RS d up in
  unit_quat l /\ unit_quat r /\
  quat_mul_vec RS l (V3 0 0 1) = d /\ quat_mul_vec RS r (V3 0 0 (-1)) = d /\
  dot3 RS (quat_mul_vec RS l (V3 1 0 0)) up = 0 /\ dot3 RS (quat_mul_vec RS r (V3 1 0 0)) up = 0 /\
  0 < dot3 RS (quat_mul_vec RS l (V3 0 1 0)) up /\ 0 < dot3 RS (quat_mul_vec RS r (V3 0 1 0)) up.
Proof.
  assert (G : forall d up, norm (l3 d) = 1 -> ~ zeros (cross_l (l3 up) (l3 d)) ->
    let q := quatLookAtLH RS d up in
    unit_quat q /\ quat_mul_vec RS q (V3 0 0 1) = d /\ dot3 RS (quat_mul_vec RS q (V3 1 0 0)) up = 0 /\
    0 < dot3 RS (quat_mul_vec RS q (V3 0 1 0)) up).
  { intros d up Ud NP. cbv zeta. unfold quatLookAtLH. cbv zeta.
    destruct (cast_rotation _ (look_rotation d up Ud NP)) as [U M].
    assert (D : forall a b : vec3 R, dot3 RS a b = ip (l3 a) (l3 b)) by (intros; clear; vdestruct; ms; ring).
    split; [exact U|]. rewrite !D.
    assert (Ex : forall (a b c : vec3 R) q, mat3_cast RS q = M3 a b c -> quat_mul_vec RS q (V3 1 0 0) = a /\
      quat_mul_vec RS q (V3 0 1 0) = b /\ quat_mul_vec RS q (V3 0 0 1) = c).
    { intros a b c q H. ands; (etransitivity; [symmetry; apply mat3_cast_act|]; rewrite H; clear; vdestruct; ms; parts; ring). }
    destruct (Ex _ _ _ _ M) as (E1 & E2 & E3). clear Ex.
    ands; [exact E3|..]; [rewrite E1|rewrite E2]; [now apply look_s|now apply look_up]. }
  intros d up Ud NP l r. destruct (G d up Ud NP) as (A & B & C & E).
  assert (Ud' : norm (l3 (vec3_neg RS d)) = 1).
  { apply norm1_ip. apply norm1_ip in Ud. rewrite <- Ud. clear. vdestruct. ms. ring. }
  assert (NP' : ~ zeros (cross_l (l3 up) (l3 (vec3_neg RS d)))).
  { intros Z. apply NP. apply ip_zero in Z. apply ip_zero. rewrite <- Z. clear. vdestruct. ms. ring. }
  destruct (G _ up Ud' NP') as (A' & B' & C' & E').
  change (quatLookAtLH RS (vec3_neg RS d) up) with r in *. ands; auto.
  assert (X : forall q v, quat_mul_vec RS q (vec3_neg RS v) = vec3_neg RS (quat_mul_vec RS q v)) by (intros; clear; vdestruct; ms; parts; ring).
  transitivity (quat_mul_vec RS r (vec3_neg RS (V3 0 0 1))); [f_equal; ms; parts; ring|].
  rewrite X, B'. clear. vdestruct. ms. parts; ring.
Qed.

(*PROPS
Example C61_ex : norm (l3 (V3 0 0 1)) = 1 /\ ~ zeros (cross_l (l3 (V3 0 1 0)) (l3 (V3 0 0 1))).
Proof.
  split; [apply norm1_ip; unfold ip; cbn; lra|]. cbn. intros Z. inversion Z. lra.
Qed.

PROPS*)
(*PROPS
(** a unit axis that is not a coordinate axis, an angle in range, a unit quaternion and a nonzero non-unit axis *)
Example C57_ex : norm (l3 (V3 (3 / 5) 0 (4 / 5))) = 1 /\ 0 < 1 < 2 * PI /\
  unit_quat (Quat (1 / 2) (1 / 2) (1 / 2) (1 / 2)) /\ ~ zeros (l3 (V3 1 2 3)).
Proof.
  pose proof PI_RGT_0. pose proof PI2_1. ands.
  - apply norm1_ip. unfold ip. cbn. lra.
  - lra.
  - lra.
  - unfold unit_quat. apply norm1_ip. unfold ip. cbn. lra.
  - cbn. intros Z. inversion Z. lra.
Qed.

PROPS*)
