(** * Proofs: comparison, selection and classification of floats *)
From Coq Require Import ZArith Bool Reals List Lra Lia.
From Flocq Require Import Core IEEE754.BinarySingleNaN.
From Verif Require Import Scalar IEEE32 FloatBasics Outcome Types Spec SpecF32 Int32 ModelVec ModelIVec ModelBVec
  ModelQuat ModelMat ModelCommon ModelComp.
Import ListNotations.
Local Open Scope R_scope.
(*HEADER END*)
From Verif Require Import F32Tac.

Ltac ands := repeat match goal with |- _ /\ _ => split end.

Lemma Bltb_ieee x y : Bltb x y = true <-> ieee_lt x y.
Proof.
  unfold ieee_lt. destruct (is_nan x) eqn:Nx; [rewrite Bltb_nan_l by assumption; intuition discriminate|].
  destruct (is_nan y) eqn:Ny; [rewrite Bltb_nan_r by assumption; intuition discriminate|].
  rewrite Bltb_xr by assumption. destruct (Rlt_bool_spec (xr x) (xr y)); intuition (try discriminate; lra).
Qed.
Lemma Bleb_ieee x y : Bleb x y = true <-> ieee_le x y.
Proof.
  unfold ieee_le. destruct (is_nan x) eqn:Nx; [rewrite Bleb_nan_l by assumption; intuition discriminate|].
  destruct (is_nan y) eqn:Ny; [rewrite Bleb_nan_r by assumption; intuition discriminate|].
  rewrite Bleb_xr by assumption. destruct (Rle_bool_spec (xr x) (xr y)); intuition (try discriminate; lra).
Qed.
Lemma Beqb_ieee x y : Beqb x y = true <-> ieee_eq x y.
Proof.
  unfold ieee_eq. destruct (is_nan x) eqn:Nx; [rewrite Beqb_nan_l by assumption; intuition discriminate|].
  destruct (is_nan y) eqn:Ny; [rewrite Beqb_nan_r by assumption; intuition discriminate|].
  rewrite Beqb_xr by assumption. destruct (Req_bool_spec (xr x) (xr y)); intuition (try discriminate; lra).
Qed.

(** ** C07 *)
Lemma equality_by {V} (comps : V -> list f32) (eq ne : V -> V -> bool) :
  (forall u v, eq u v = true <-> Forall2 (fun x y : f32 => Beqb x y = true) (comps u) (comps v)) ->
  (forall u v, ne u v = negb (eq u v)) -> equality_ok comps eq ne.
Proof.
  intros H Hne. unfold equality_ok. ands; trivial.
  - intros u v. rewrite H. split; intros F; induction F; constructor; trivial; now apply Beqb_ieee.
  - intros u v. apply eq_true_iff_eq. rewrite !H.
    assert (HS : forall l l' : list f32, Forall2 (fun x y : f32 => Beqb x y = true) l l' -> Forall2 (fun x y : f32 => Beqb x y = true) l' l).
    { induction 1; constructor; trivial. now rewrite Beqb_sym. }
    split; apply HS.
  - intros u v w. rewrite !H. generalize (comps u) (comps v) (comps w).
    intros l l' l'' F. revert l''. induction F; intros l'' G; inversion_clear G; constructor; eauto using Beqb_trans.
  - intros u. rewrite H. generalize (comps u). unfold no_nan. induction l; split; intros F; try constructor; inversion_clear F.
    + rewrite Beqb_refl in H0. now destruct (is_nan a).
    + now apply IHl.
    + rewrite Beqb_refl. now rewrite H0.
    + now apply IHl.
Qed.

Ltac eqs :=
  intros; repeat match goal with
  | v : vec2 _ |- _ => destruct v as [?e ?e] | v : vec3 _ |- _ => destruct v as [?e ?e ?e]
  | v : vec4 _ |- _ => destruct v as [?e ?e ?e ?e]
  | v : quat _ |- _ => destruct v as [?e ?e ?e ?e] | v : mat2 _ |- _ => destruct v as [?e ?e]
  | v : mat3 _ |- _ => destruct v as [?e ?e ?e] | v : mat4 _ |- _ => destruct v as [?e ?e ?e ?e] end;
  cbv [vec2_eq vec3_eq vec4_eq quat_eq mat2_eq mat3_eq mat4_eq l2 l3 l4 lq lm2 lm3 lm4 concat app
       m2c0 m2c1 m3c0 m3c1 m3c2 m4c0 m4c1 m4c2 m4c3 x2 y2 x3 y3 z3 x4 y4 z4 w4 qx qy qz qw
       col2 col3 col4 seq F32];
  rewrite ?andb_true_iff; split;
  [ intuition (repeat constructor; assumption)
  | intros H; repeat match goal with H : Forall2 _ (_ :: _) _ |- _ => inversion_clear H end; tauto ].

(** C07: == on float types is IEEE equality of every component pair; it is symmetric, transitive, and
    reflexive exactly on NaN-free values; != is its negation. *)
Lemma C07_float_equality_pf : forall L : Libm,
  equality_ok l2 (vec2_eq (F32 L)) (vec2_ne (F32 L)) /\
  equality_ok l3 (vec3_eq (F32 L)) (vec3_ne (F32 L)) /\
  equality_ok l4 (vec4_eq (F32 L)) (vec4_ne (F32 L)) /\
  equality_ok lq (quat_eq (F32 L)) (quat_ne (F32 L)) /\
  equality_ok lm2 (mat2_eq (F32 L)) (mat2_ne (F32 L)) /\
  equality_ok lm3 (mat3_eq (F32 L)) (mat3_ne (F32 L)) /\
  equality_ok lm4 (mat4_eq (F32 L)) (mat4_ne (F32 L)).
Proof.
  intros L. ands; (apply equality_by; [|reflexivity]).
  all: eqs.
Qed.

(** C07: == on int and bool vectors is identity. *)
Lemma C07_exact_equality_pf :
  identity_ok ivec2_eq ivec2_ne /\ identity_ok ivec3_eq ivec3_ne /\ identity_ok ivec4_eq ivec4_ne /\
  identity_ok bvec2_eq bvec2_ne /\ identity_ok bvec3_eq bvec3_ne /\ identity_ok bvec4_eq bvec4_ne.
Proof.
  unfold identity_ok. ands; intros u v; try reflexivity.
  all: destruct u, v; cbv [ivec2_eq ivec3_eq ivec4_eq bvec2_eq bvec3_eq bvec4_eq];
    cbn [Types.x2 Types.y2 Types.x3 Types.y3 Types.z3 Types.x4 Types.y4 Types.z4 Types.w4];
    rewrite ?andb_true_iff, ?Z.eqb_eq, ?eqb_true_iff.
  all: split; [intuition congruence|intros H; injection H; tauto].
Qed.

(*PROPS
(** zeros of opposite sign are equal, NaN is not equal to itself *)
Example C07_ex : vec2_eq (F32 L0) (V2 (B754_zero true) (B754_zero false)) (V2 (B754_zero false) (B754_zero false)) = true
  /\ vec2_eq (F32 L0) (V2 B754_nan Bone) (V2 B754_nan Bone) = false.
Proof. split; vm_compute; reflexivity. Qed.

PROPS*)
(** ** C16 *)
Lemma xr_max x y L : is_nan x = false -> is_nan y = false -> xr (max_f (F32 L) x y) = Rmax (xr x) (xr y).
Proof.
  intros Nx Ny. unfold max_f; cbn [slt F32]. rewrite Bltb_xr by assumption.
  destruct (Rlt_bool_spec (xr x) (xr y)); [rewrite Rmax_right|rewrite Rmax_left]; lra.
Qed.
Lemma xr_min x y L : is_nan x = false -> is_nan y = false -> xr (min_f (F32 L) x y) = Rmin (xr x) (xr y).
Proof.
  intros Nx Ny. unfold min_f; cbn [slt F32]. rewrite Bltb_xr by assumption.
  destruct (Rlt_bool_spec (xr y) (xr x)); [rewrite Rmin_right|rewrite Rmin_left]; lra.
Qed.
Lemma max_f_cases L x y : max_f (F32 L) x y = x \/ max_f (F32 L) x y = y.
Proof. unfold max_f. destruct (slt x y); auto. Qed.
Lemma min_f_cases L x y : min_f (F32 L) x y = x \/ min_f (F32 L) x y = y.
Proof. unfold min_f. destruct (slt y x); auto. Qed.
Lemma max_f_nan L x y : is_nan x = true \/ is_nan y = true -> max_f (F32 L) x y = x.
Proof. unfold max_f; cbn [slt F32]. intros [H|H]; [rewrite Bltb_nan_l|rewrite Bltb_nan_r]; trivial. Qed.
Lemma min_f_nan L x y : is_nan x = true \/ is_nan y = true -> min_f (F32 L) x y = x.
Proof. unfold min_f; cbn [slt F32]. intros [H|H]; [rewrite Bltb_nan_r|rewrite Bltb_nan_l]; trivial. Qed.
Lemma max_f_nn L x y : is_nan x = false -> is_nan y = false -> is_nan (max_f (F32 L) x y) = false.
Proof. destruct (max_f_cases L x y) as [->| ->]; trivial. Qed.
Lemma min_f_nn L x y : is_nan x = false -> is_nan y = false -> is_nan (min_f (F32 L) x y) = false.
Proof. destruct (min_f_cases L x y) as [->| ->]; trivial. Qed.

(** C16: min and max return one of their arguments (the first one on ties and when an argument is NaN), which is
    the larger or smaller one when both are numbers. *)
Lemma C16_min_max_pf : forall (L : Libm) (x y : f32),
  (max_f (F32 L) x y = x \/ max_f (F32 L) x y = y) /\
  (min_f (F32 L) x y = x \/ min_f (F32 L) x y = y) /\
  (is_nan x = true \/ is_nan y = true -> max_f (F32 L) x y = x /\ min_f (F32 L) x y = x) /\
  (is_nan x = false -> is_nan y = false ->
    ieee_le x (max_f (F32 L) x y) /\ ieee_le y (max_f (F32 L) x y) /\
    ieee_le (min_f (F32 L) x y) x /\ ieee_le (min_f (F32 L) x y) y) /\
  (ieee_eq x y -> max_f (F32 L) x y = x /\ min_f (F32 L) x y = x).
Proof.
  intros L x y. ands.
  - apply max_f_cases.
  - apply min_f_cases.
  - intros H; split; [apply max_f_nan|apply min_f_nan]; assumption.
  - intros Nx Ny. pose proof (Rmax_l (xr x) (xr y)). pose proof (Rmax_r (xr x) (xr y)).
    pose proof (Rmin_l (xr x) (xr y)). pose proof (Rmin_r (xr x) (xr y)).
    unfold ieee_le. rewrite max_f_nn, min_f_nn, xr_max, xr_min by assumption. tauto.
  - intros [Nx [Ny E]]. unfold max_f, min_f; cbn [slt F32]. rewrite !Bltb_xr by assumption.
    rewrite !Rlt_bool_false by lra. split; reflexivity.
Qed.

(** C16: clamp. *)
Lemma C16_clamp_pf : forall (L : Libm) (x lo hi : f32), ieee_le lo hi ->
  (is_nan x = false -> ieee_le lo (clamp_f (F32 L) x lo hi) /\ ieee_le (clamp_f (F32 L) x lo hi) hi) /\
  (ieee_le lo x -> ieee_le x hi -> clamp_f (F32 L) x lo hi = x) /\
  (ieee_lt x lo -> ieee_lt lo hi -> clamp_f (F32 L) x lo hi = lo) /\
  (ieee_lt hi x -> clamp_f (F32 L) x lo hi = hi) /\
  clamp_f (F32 L) (clamp_f (F32 L) x lo hi) lo hi = clamp_f (F32 L) x lo hi /\
  (is_nan x = true -> clamp_f (F32 L) x lo hi = x).
Proof.
  intros L x lo hi [Nlo [Nhi Hle]].
  assert (In : forall x, ieee_le lo x -> ieee_le x hi -> clamp_f (F32 L) x lo hi = x).
  { intros z [_ [Nz H1]] [_ [_ H2]]. unfold clamp_f, max_f, min_f; cbn [slt F32].
    rewrite (Bltb_xr z lo), (Rlt_bool_false (xr z)) by (assumption || lra).
    now rewrite Bltb_xr, Rlt_bool_false by (assumption || lra). }
  assert (Rng : is_nan x = false -> ieee_le lo (clamp_f (F32 L) x lo hi) /\ ieee_le (clamp_f (F32 L) x lo hi) hi).
  { intros Nx. unfold ieee_le, clamp_f. rewrite min_f_nn, xr_min, xr_max by auto using max_f_nn.
    pose proof (Rmax_r (xr x) (xr lo)). repeat split; trivial; [apply Rmin_glb; assumption|apply Rmin_r]. }
  assert (Hn : is_nan x = true -> clamp_f (F32 L) x lo hi = x).
  { intros Nx. unfold clamp_f. rewrite max_f_nan, min_f_nan by auto. reflexivity. }
  ands; trivial.
  - apply In.
  - intros [Nx [_ H1]] [_ [_ H2]]. unfold clamp_f, max_f, min_f; cbn [slt F32].
    rewrite (Bltb_xr x lo), (Rlt_bool_true (xr x)) by (assumption || lra).
    now rewrite Bltb_xr, Rlt_bool_false by (assumption || lra).
  - intros [_ [Nx H1]]. unfold clamp_f, max_f, min_f; cbn [slt F32].
    rewrite (Bltb_xr x lo), (Rlt_bool_false (xr x)) by (assumption || lra).
    now rewrite Bltb_xr, Rlt_bool_true by (assumption || lra).
  - destruct (is_nan x) eqn:Nx; [rewrite !Hn; trivial; now rewrite Hn|].
    destruct (Rng eq_refl). now apply In.
Qed.

(** C16: vector min, max, clamp and their int counterparts act componentwise. *)
Lemma C16_componentwise_pf : forall (L : Libm),
  (forall x y, l2 (max2 (F32 L) x y) = zip (max_f (F32 L)) (l2 x) (l2 y) /\ l2 (min2 (F32 L) x y) = zip (min_f (F32 L)) (l2 x) (l2 y)) /\
  (forall x y, l3 (max3 (F32 L) x y) = zip (max_f (F32 L)) (l3 x) (l3 y) /\ l3 (min3 (F32 L) x y) = zip (min_f (F32 L)) (l3 x) (l3 y)) /\
  (forall x y, l4 (max4 (F32 L) x y) = zip (max_f (F32 L)) (l4 x) (l4 y) /\ l4 (min4 (F32 L) x y) = zip (min_f (F32 L)) (l4 x) (l4 y)) /\
  (forall x lo hi, l2 (clamp2 (F32 L) x lo hi) = zip3 (clamp_f (F32 L)) (l2 x) (l2 lo) (l2 hi)) /\
  (forall x lo hi, l3 (clamp3 (F32 L) x lo hi) = zip3 (clamp_f (F32 L)) (l3 x) (l3 lo) (l3 hi)) /\
  (forall x lo hi, l4 (clamp4 (F32 L) x lo hi) = zip3 (clamp_f (F32 L)) (l4 x) (l4 lo) (l4 hi)) /\
  (forall x y, l2 (imax2 x y) = zip Z.max (l2 x) (l2 y) /\ l2 (imin2 x y) = zip Z.min (l2 x) (l2 y)) /\
  (forall x y, l3 (imax3 x y) = zip Z.max (l3 x) (l3 y) /\ l3 (imin3 x y) = zip Z.min (l3 x) (l3 y)) /\
  (forall x y, l4 (imax4 x y) = zip Z.max (l4 x) (l4 y) /\ l4 (imin4 x y) = zip Z.min (l4 x) (l4 y)) /\
  (forall x lo hi, l2 (iclamp2 x lo hi) = zip3 (fun x lo hi => Z.min (Z.max x lo) hi) (l2 x) (l2 lo) (l2 hi)) /\
  (forall x lo hi, l3 (iclamp3 x lo hi) = zip3 (fun x lo hi => Z.min (Z.max x lo) hi) (l3 x) (l3 lo) (l3 hi)) /\
  (forall x lo hi, l4 (iclamp4 x lo hi) = zip3 (fun x lo hi => Z.min (Z.max x lo) hi) (l4 x) (l4 lo) (l4 hi)).
Proof.
  assert (A : forall a b, max_i a b = Z.max a b) by (intros; unfold max_i; destruct (Z.ltb_spec a b); lia).
  assert (B : forall a b, min_i a b = Z.min a b) by (intros; unfold min_i; destruct (Z.ltb_spec b a); lia).
  intros L; ands; intros; ands; try reflexivity.
  all: cbv [imax2 imax3 imax4 imin2 imin3 imin4 iclamp2 iclamp3 iclamp4 l2 l3 l4 zip zip3
            x2 y2 x3 y3 z3 x4 y4 z4 w4]; rewrite ?A, ?B; reflexivity.
Qed.

(*PROPS
Example C16_ex : ieee_le (f32_lit 0 0) (f32_lit 1 0) /\ ieee_lt (f32_lit 1 0) (B754_infinity false)
  /\ clamp_f (F32 L0) (B754_infinity false) (f32_lit 0 0) (f32_lit 1 0) = f32_lit 1 0.
Proof.
  assert (ieee_lt (f32_lit 1 0) (B754_infinity false)) by (apply Bltb_ieee; vm_compute; reflexivity).
  assert (ieee_le (f32_lit 0 0) (f32_lit 1 0)) by (apply Bleb_ieee; vm_compute; reflexivity).
  split; [assumption|split; [assumption|]]. now apply C16_clamp_pf.
Qed.

PROPS*)
(** ** C17 *)
Lemma xr_abs x : xr (Babs x : f32) = if is_nan x then 0 else Rabs (xr x).
Proof.
  pose proof big_pos. destruct x as [s|s| |s m e He]; cbn [Babs xr is_nan].
  - cbn. now rewrite Rabs_R0.
  - destruct s; [rewrite Rabs_left|rewrite Rabs_right]; lra.
  - reflexivity.
  - pose proof (B2R_Babs 24 128 (B754_finite s m e He)) as E. cbn [Babs] in E. exact E.
Qed.

Lemma Bmult_one_l (x : f32) : Bmult mode_NE (f32_lit 1 0) x = x.
Proof.
  destruct x as [s|s| |s m e He]; try (destruct s; reflexivity); try reflexivity.
  pose proof (Bmult_correct 24 128 _ _ mode_NE (f32_lit 1 0) (B754_finite s m e He)) as H.
  assert (E1 : B2R (f32_lit 1 0) = 1) by (unfold f32_lit; vm_compute; lra).
  rewrite E1, Rmult_1_l in H.
  rewrite round_generic in H; [|apply valid_rnd_N|apply generic_format_B2R].
  rewrite Rlt_bool_true in H by apply abs_B2R_lt_emax.
  destruct H as [H1 [H2 H3]].
  apply B2R_Bsign_inj; [|reflexivity|exact H1|].
  - rewrite H2. reflexivity.
  - rewrite H3; [destruct s; reflexivity|].
    destruct (Bmult mode_NE (f32_lit 1 0) (B754_finite s m e He)); try reflexivity; discriminate H2.
Qed.
Lemma Bmult_mone_l (x : f32) : Bmult mode_NE (Bopp (f32_lit 1 0)) x = Bopp x.
Proof.
  destruct x as [s|s| |s m e He]; try (destruct s; reflexivity); try reflexivity.
  pose proof (Bmult_correct 24 128 _ _ mode_NE (Bopp (f32_lit 1 0)) (B754_finite s m e He)) as H.
  assert (E1 : B2R (Bopp (f32_lit 1 0)) = -1) by (unfold f32_lit; vm_compute; lra).
  rewrite E1 in H. replace (-1 * b2r (B754_finite s m e He)) with (b2r (Bopp (B754_finite s m e He))) in H
    by (rewrite B2R_Bopp; ring).
  rewrite round_generic in H; [|apply valid_rnd_N|apply generic_format_B2R].
  rewrite Rlt_bool_true in H by apply abs_B2R_lt_emax.
  destruct H as [H1 [H2 H3]].
  apply B2R_Bsign_inj; [|reflexivity|exact H1|].
  - rewrite H2. reflexivity.
  - rewrite H3; [destruct s; reflexivity|].
    destruct (Bmult mode_NE (Bopp (f32_lit 1 0)) (B754_finite s m e He)); try reflexivity; discriminate H2.
Qed.

(** C17: abs clears the sign and keeps the magnitude of every float. *)
Lemma C17_abs_pf : forall (L : Libm) (x : f32),
  (is_nan x = false -> Bsign (abs_f (F32 L) x) = false /\ xr (abs_f (F32 L) x) = Rabs (xr x)) /\
  (is_nan x = true -> is_nan (abs_f (F32 L) x) = true) /\
  (is_finite (abs_f (F32 L) x) = is_finite x).
Proof.
  intros L x. unfold abs_f; cbn [sabs F32]. ands.
  - intros N; split; [destruct x; cbn in *; congruence|]. rewrite xr_abs. now rewrite N.
  - now destruct x.
  - now destruct x.
Qed.

Lemma sign_f_spec L (x : f32) :
  sign_f (F32 L) x = if Beqb x (f32_lit 0 0) then f32_lit 0 0 else if Bltb (f32_lit 0 0) x then f32_lit 1 0 else Bopp (f32_lit 1 0).
Proof. reflexivity. Qed.
Lemma xr_0 : xr (f32_lit 0 0) = 0. Proof. reflexivity. Qed.
Lemma xr_1 : xr (f32_lit 1 0) = 1. Proof. rewrite xr_finite by reflexivity. unfold f32_lit; vm_compute; lra. Qed.
Lemma xr_m1 : xr (Bopp (f32_lit 1 0)) = -1. Proof. rewrite xr_finite by reflexivity. unfold f32_lit; vm_compute; lra. Qed.

(** C17: sign is the sign of a number (0 for both zeros), signNotZero maps both zeros to 1, and both
    return -1 on NaN. *)
Lemma C17_sign_pf : forall (L : Libm) (x : f32),
  (ieee_lt x (f32_lit 0 0) -> xr (sign_f (F32 L) x) = -1 /\ xr (signNotZero_f (F32 L) x) = -1) /\
  (ieee_eq x (f32_lit 0 0) -> xr (sign_f (F32 L) x) = 0 /\ xr (signNotZero_f (F32 L) x) = 1) /\
  (ieee_lt (f32_lit 0 0) x -> xr (sign_f (F32 L) x) = 1 /\ xr (signNotZero_f (F32 L) x) = 1) /\
  (is_nan x = true -> xr (sign_f (F32 L) x) = -1 /\ xr (signNotZero_f (F32 L) x) = -1).
Proof.
  intros L x. unfold sign_f, signNotZero_f, sgt, sge; cbn [seq slt sle slit sneg F32].
  ands; intros H.
  - pose proof H as [Nx [_ H']]. rewrite xr_0 in H'.
    rewrite Beqb_xr, xr_0, Req_bool_false, Bltb_xr, xr_0, Rlt_bool_false, Bleb_xr, xr_0, Rle_bool_false by (trivial; lra).
    split; apply xr_m1.
  - pose proof H as [Nx [_ H']]. rewrite xr_0 in H'.
    rewrite Beqb_xr, xr_0, Req_bool_true, Bleb_xr, xr_0, Rle_bool_true by (trivial; lra).
    split; [apply xr_0|apply xr_1].
  - pose proof H as [_ [Nx H']]. rewrite xr_0 in H'.
    rewrite Beqb_xr, xr_0, Req_bool_false, Bltb_xr, xr_0, Rlt_bool_true, Bleb_xr, xr_0, Rle_bool_true by (trivial; lra).
    split; apply xr_1.
  - rewrite Beqb_nan_l, Bltb_nan_r, Bleb_nan_r by assumption. split; apply xr_m1.
Qed.

(** C17: sign(x)*abs(x) == x for every number, infinities included. *)
Lemma C17_sign_abs_pf : forall (L : Libm) (x : f32), is_nan x = false ->
  ieee_eq (@smul (F32 L) (sign_f (F32 L) x) (abs_f (F32 L) x)) x.
Proof.
  intros L x N. apply Beqb_ieee. cbn [smul F32]. rewrite sign_f_spec. unfold abs_f; cbn [sabs F32].
  rewrite (Beqb_xr x (f32_lit 0 0) N eq_refl), (Bltb_xr (f32_lit 0 0) x eq_refl N), xr_0.
  destruct (Req_bool_spec (xr x) 0) as [E|E].
  - destruct (xr_eq_cases x (f32_lit 0 0) N eq_refl) as [->|[Z _]]; [rewrite xr_0; exact E|reflexivity|].
    destruct x; try discriminate Z. reflexivity.
  - destruct (Rlt_bool_spec 0 (xr x)) as [P|P].
    + rewrite Bmult_one_l.
      assert (Babs x = x) as ->.
      { destruct x as [s|[]| |[] m e He]; try discriminate N; try reflexivity.
        - exfalso. apply E. reflexivity.
        - pose proof big_pos. cbn [xr] in P. lra.
        - exfalso. rewrite xr_finite in P by reflexivity. cbn in P.
          pose proof (F2R_lt_0 radix2 (Float radix2 (Zneg m) e) eq_refl). lra. }
      rewrite Beqb_refl. now rewrite N.
    + rewrite Bmult_mone_l.
      assert (Bopp (Babs x) = x) as ->.
      { destruct x as [s|[]| |[] m e He]; try discriminate N; try reflexivity.
        - exfalso. apply E. reflexivity.
        - pose proof big_pos. cbn [xr] in P. lra.
        - exfalso. rewrite xr_finite in P by reflexivity. cbn in P.
          pose proof (F2R_gt_0 radix2 (Float radix2 (Zpos m) e) eq_refl). lra. }
      rewrite Beqb_refl. now rewrite N.
Qed.

(** C17: the int forms. *)
Lemma C17_int_pf : forall x : Z, fits x ->
  (x <> - 2 ^ 31 -> abs_i x = Ret (Z.abs x))%Z /\ (x = - 2 ^ 31 -> abs_i x = Undefined)%Z /\
  sign_i x = Z.sgn x /\ ((0 <= x -> signNotZero_i x = 1) /\ (x < 0 -> signNotZero_i x = -1))%Z.
Proof.
  unfold fits. intros x Hx. ands.
  - intros H. unfold abs_i, chk, in_i32, int_min, int_max.
    destruct (Z.leb_spec (- 2 ^ 31) (Z.abs x)); [|lia]. destruct (Z.leb_spec (Z.abs x) (2 ^ 31 - 1)); [reflexivity|lia].
  - intros ->. reflexivity.
  - unfold sign_i. destruct (Z.eqb_spec x 0) as [->|]; [reflexivity|]. rewrite Z.gtb_ltb.
    destruct (Z.ltb_spec 0 x); destruct x; lia || reflexivity.
  - intros H. unfold signNotZero_i. rewrite Z.geb_leb. destruct (Z.leb_spec 0 x); lia.
  - intros H. unfold signNotZero_i. rewrite Z.geb_leb. destruct (Z.leb_spec 0 x); lia.
Qed.

(*PROPS
Example C17_ex : xr (sign_f (F32 L0) (B754_infinity true)) = -1 /\ xr (sign_f (F32 L0) B754_nan) = -1.
Proof.
  split.
  - apply (proj1 (C17_sign_pf L0 (B754_infinity true))). apply Bltb_ieee. vm_compute. reflexivity.
  - apply C17_sign_pf. reflexivity.
Qed.

PROPS*)
(** ** C25 *)
Lemma negb_Beqb_ieee x y : negb (Beqb x y) = true <-> ~ ieee_eq x y.
Proof. rewrite <- Beqb_ieee. destruct (Beqb x y); cbn; intuition discriminate. Qed.

(** C25: every relational function decides its IEEE relation in every component. *)
Lemma C25_decides_pf : forall L : Libm,
  (forall x y, decides ieee_lt (l2 (lessThan2 (F32 L) x y)) (l2 x) (l2 y)) /\
  (forall x y, decides ieee_lt (l3 (lessThan3 (F32 L) x y)) (l3 x) (l3 y)) /\
  (forall x y, decides ieee_lt (l4 (lessThan4 (F32 L) x y)) (l4 x) (l4 y)) /\
  (forall x y, decides ieee_le (l2 (lessThanEqual2 (F32 L) x y)) (l2 x) (l2 y)) /\
  (forall x y, decides ieee_le (l3 (lessThanEqual3 (F32 L) x y)) (l3 x) (l3 y)) /\
  (forall x y, decides ieee_le (l4 (lessThanEqual4 (F32 L) x y)) (l4 x) (l4 y)) /\
  (forall x y, decides (fun a b => ieee_lt b a) (l2 (greaterThan2 (F32 L) x y)) (l2 x) (l2 y)) /\
  (forall x y, decides (fun a b => ieee_lt b a) (l3 (greaterThan3 (F32 L) x y)) (l3 x) (l3 y)) /\
  (forall x y, decides (fun a b => ieee_lt b a) (l4 (greaterThan4 (F32 L) x y)) (l4 x) (l4 y)) /\
  (forall x y, decides (fun a b => ieee_le b a) (l2 (greaterThanEqual2 (F32 L) x y)) (l2 x) (l2 y)) /\
  (forall x y, decides (fun a b => ieee_le b a) (l3 (greaterThanEqual3 (F32 L) x y)) (l3 x) (l3 y)) /\
  (forall x y, decides (fun a b => ieee_le b a) (l4 (greaterThanEqual4 (F32 L) x y)) (l4 x) (l4 y)) /\
  (forall x y, decides ieee_eq (l2 (equal2 (F32 L) x y)) (l2 x) (l2 y)) /\
  (forall x y, decides ieee_eq (l3 (equal3 (F32 L) x y)) (l3 x) (l3 y)) /\
  (forall x y, decides ieee_eq (l4 (equal4 (F32 L) x y)) (l4 x) (l4 y)) /\
  (forall x y, decides ieee_eq (l4 (equal_q (F32 L) x y)) (lq x) (lq y)) /\
  (forall x y, decides (fun a b => ~ ieee_eq a b) (l2 (notEqual2 (F32 L) x y)) (l2 x) (l2 y)) /\
  (forall x y, decides (fun a b => ~ ieee_eq a b) (l3 (notEqual3 (F32 L) x y)) (l3 x) (l3 y)) /\
  (forall x y, decides (fun a b => ~ ieee_eq a b) (l4 (notEqual4 (F32 L) x y)) (l4 x) (l4 y)) /\
  (forall x y, decides (fun a b => ~ ieee_eq a b) (l4 (notEqual_q (F32 L) x y)) (lq x) (lq y)).
Proof.
  intros L; ands; intros x y; cbn; ands; trivial;
    first [apply Bltb_ieee | apply Bleb_ieee | apply Beqb_ieee | apply negb_Beqb_ieee].
Qed.

(** C25: relations between the relational functions, and with ==. *)
Lemma C25_laws_pf : forall L : Libm,
  (forall x y, lessThan2 (F32 L) x y = greaterThan2 (F32 L) y x /\ lessThanEqual2 (F32 L) x y = greaterThanEqual2 (F32 L) y x) /\
  (forall x y, lessThan3 (F32 L) x y = greaterThan3 (F32 L) y x /\ lessThanEqual3 (F32 L) x y = greaterThanEqual3 (F32 L) y x) /\
  (forall x y, lessThan4 (F32 L) x y = greaterThan4 (F32 L) y x /\ lessThanEqual4 (F32 L) x y = greaterThanEqual4 (F32 L) y x) /\
  (forall x y, all2 (equal2 (F32 L) x y) = vec2_eq (F32 L) x y /\ any2 (notEqual2 (F32 L) x y) = vec2_ne (F32 L) x y) /\
  (forall x y, all3 (equal3 (F32 L) x y) = vec3_eq (F32 L) x y /\ any3 (notEqual3 (F32 L) x y) = vec3_ne (F32 L) x y) /\
  (forall x y, all4 (equal4 (F32 L) x y) = vec4_eq (F32 L) x y /\ any4 (notEqual4 (F32 L) x y) = vec4_ne (F32 L) x y) /\
  (forall x y, all4 (equal_q (F32 L) x y) = quat_eq (F32 L) x y /\ any4 (notEqual_q (F32 L) x y) = quat_ne (F32 L) x y) /\
  (forall x y, l2 (bequal2 x y) = zip eqb (l2 x) (l2 y) /\ l2 (bnotEqual2 x y) = zip xorb (l2 x) (l2 y)) /\
  (forall x y, l3 (bequal3 x y) = zip eqb (l3 x) (l3 y) /\ l3 (bnotEqual3 x y) = zip xorb (l3 x) (l3 y)) /\
  (forall x y, l4 (bequal4 x y) = zip eqb (l4 x) (l4 y) /\ l4 (bnotEqual4 x y) = zip xorb (l4 x) (l4 y)).
Proof.
  intros L; ands; intros x y; ands; try reflexivity.
  all: try (destruct x, y; cbv [any2 any3 any4 notEqual2 notEqual3 notEqual4 notEqual_q
    vec2_ne vec3_ne vec4_ne quat_ne vec2_eq vec3_eq vec4_eq quat_eq Types.x2 Types.y2 Types.x3 Types.y3 Types.z3 Types.x4 Types.y4 Types.z4 Types.w4
    Types.qx Types.qy Types.qz Types.qw];
    rewrite ?negb_andb; reflexivity).
  all: destruct x, y; repeat match goal with b : bool |- _ => destruct b end; reflexivity.
Qed.

(*PROPS
Example C25_ex : lessThan2 (F32 L0) (V2 B754_nan (f32_lit 1 0)) (V2 (f32_lit 1 0) (f32_lit 2 0)) = V2 false true
  /\ notEqual2 (F32 L0) (V2 B754_nan (B754_zero true)) (V2 B754_nan (B754_zero false)) = V2 true false.
Proof. split; vm_compute; reflexivity. Qed.

PROPS*)
(** ** C24 *)
(** C24: isnan and isinf decide the two exceptional classes in every component. *)
Lemma C24_classify_pf : forall L : Libm,
  (forall x, isnan_f (F32 L) x = true <-> x = B754_nan) /\
  (forall x, isinf_f (F32 L) x = true <-> x = B754_infinity true \/ x = B754_infinity false) /\
  (forall x, isnan_f (F32 L) x = false -> isinf_f (F32 L) x = false -> finite x) /\
  (forall v, l2 (isnan2 (F32 L) v) = map (isnan_f (F32 L)) (l2 v) /\ l2 (isinf2 (F32 L) v) = map (isinf_f (F32 L)) (l2 v)) /\
  (forall v, l3 (isnan3 (F32 L) v) = map (isnan_f (F32 L)) (l3 v) /\ l3 (isinf3 (F32 L) v) = map (isinf_f (F32 L)) (l3 v)) /\
  (forall v, l4 (isnan4 (F32 L) v) = map (isnan_f (F32 L)) (l4 v) /\ l4 (isinf4 (F32 L) v) = map (isinf_f (F32 L)) (l4 v)) /\
  (forall q, l4 (isnan_q (F32 L) q) = map (isnan_f (F32 L)) (lq q) /\ l4 (isinf_q (F32 L) q) = map (isinf_f (F32 L)) (lq q)).
Proof.
  intros L; ands; intros; ands; try reflexivity.
  - destruct x; cbn; intuition discriminate.
  - destruct x as [s|[]| |s m e He]; cbn; intuition congruence.
  - destruct x; cbn in *; unfold finite; cbn; congruence.
Qed.

(** C24: fma rounds the exact a*b+c once. *)
Lemma C24_fma_pf : forall (L : Libm) (a b c : f32), finite a -> finite b -> finite c ->
  Rabs (rnd (b2r a * b2r b + b2r c)) < big ->
  finite (fma_f (F32 L) a b c) /\ b2r (fma_f (F32 L) a b c) = rnd (b2r a * b2r b + b2r c).
Proof.
  intros L a b c Ha Hb Hc Hov. unfold finite in *.
  pose proof (Bfma_correct 24 128 _ _ mode_NE a b c Ha Hb Hc) as H. cbv zeta in H.
  change (round radix2 (SpecFloat.fexp 24 128) (round_mode mode_NE)) with rnd in H.
  rewrite Rlt_bool_true in H by exact Hov. unfold fma_f; cbn [sfma F32]. tauto.
Qed.

Lemma C24_fma_componentwise_pf : forall L : Libm,
  (forall a b c, l2 (fma2 (F32 L) a b c) = zip3 (fma_f (F32 L)) (l2 a) (l2 b) (l2 c)) /\
  (forall a b c, l3 (fma3 (F32 L) a b c) = zip3 (fma_f (F32 L)) (l3 a) (l3 b) (l3 c)) /\
  (forall a b c, l4 (fma4 (F32 L) a b c) = zip3 (fma_f (F32 L)) (l4 a) (l4 b) (l4 c)).
Proof. intros L; ands; reflexivity. Qed.

(** ** C69 *)
Lemma least2 L a b : is_nan a = false -> is_nan b = false -> is_least (min_f (F32 L) a b) [a; b].
Proof.
  intros Na Nb. destruct (C16_min_max_pf L a b) as [_ [H1 [_ [H2 _]]]]. split.
  - destruct H1 as [-> | ->]; cbn; auto.
  - constructor; [|constructor; [|constructor]]; apply H2; assumption.
Qed.
Lemma greatest2 L a b : is_nan a = false -> is_nan b = false -> is_greatest (max_f (F32 L) a b) [a; b].
Proof.
  intros Na Nb. destruct (C16_min_max_pf L a b) as [H1 [_ [_ [H2 _]]]]. split.
  - destruct H1 as [-> | ->]; cbn; auto.
  - constructor; [|constructor; [|constructor]]; apply H2; assumption.
Qed.
Lemma ieee_le_trans a b c : ieee_le a b -> ieee_le b c -> ieee_le a c.
Proof. unfold ieee_le. intuition lra. Qed.
Lemma least_app L a b k l : is_least a k -> is_least b l -> is_least (min_f (F32 L) a b) (k ++ l).
Proof.
  intros [Ia Fa] [Ib Fb].
  rewrite Forall_forall in Fa, Fb. pose proof (Fa a Ia) as [Na _]. pose proof (Fb b Ib) as [Nb _].
  destruct (least2 L a b Na Nb) as [I F]. rewrite Forall_forall in F. split.
  - apply in_or_app. destruct I as [<-|[<-|[]]]; auto.
  - apply Forall_forall. intros z Hz. apply in_app_or in Hz as [Hz|Hz];
    (eapply ieee_le_trans; [apply F|eauto]); cbn; auto.
Qed.
Lemma greatest_app L a b k l : is_greatest a k -> is_greatest b l -> is_greatest (max_f (F32 L) a b) (k ++ l).
Proof.
  intros [Ia Fa] [Ib Fb].
  rewrite Forall_forall in Fa, Fb. pose proof (Fa a Ia) as [Na _]. pose proof (Fb b Ib) as [Nb _].
  destruct (greatest2 L a b Na Nb) as [I F]. rewrite Forall_forall in F. split.
  - apply in_or_app. destruct I as [<-|[<-|[]]]; auto.
  - apply Forall_forall. intros z Hz. apply in_app_or in Hz as [Hz|Hz];
    (eapply ieee_le_trans; [eauto|apply F]); cbn; auto.
Qed.
Lemma least1 a : is_nan a = false -> is_least a [a].
Proof. intros N. split; [now left|]. constructor; [|constructor]. repeat split; trivial; apply Rle_refl. Qed.
Lemma greatest1 a : is_nan a = false -> is_greatest a [a].
Proof. intros N. split; [now left|]. constructor; [|constructor]. repeat split; trivial; apply Rle_refl. Qed.

(** C69: compMin and compMax return an extremal component of a NaN-free vector. *)
Lemma C69_extrema_pf : forall L : Libm,
  (forall v, no_nan (l2 v) -> is_least (compMin2 (F32 L) v) (l2 v) /\ is_greatest (compMax2 (F32 L) v) (l2 v)) /\
  (forall v, no_nan (l3 v) -> is_least (compMin3 (F32 L) v) (l3 v) /\ is_greatest (compMax3 (F32 L) v) (l3 v)) /\
  (forall v, no_nan (l4 v) -> is_least (compMin4 (F32 L) v) (l4 v) /\ is_greatest (compMax4 (F32 L) v) (l4 v)).
Proof.
  intros L; ands; intros [?e ?e ?e ?e] H || intros [?e ?e ?e] H || intros [?e ?e] H;
    unfold no_nan in H; split.
  all: cbv [l2 l3 l4 compMin2 compMin3 compMin4 compMax2 compMax3 compMax4 x2 y2 x3 y3 z3 x4 y4 z4 w4] in *;
    repeat match goal with H : Forall _ (_ :: _) |- _ => inversion_clear H end.
  - now apply least2.
  - now apply greatest2.
  - apply (least_app L _ _ [_] [_; _]); [now apply least1|now apply least2].
  - apply (greatest_app L _ _ [_] [_; _]); [now apply greatest1|now apply greatest2].
  - apply (least_app L _ _ [_; _] [_; _]); now apply least2.
  - apply (greatest_app L _ _ [_; _] [_; _]); now apply greatest2.
Qed.

(** C69: compAdd and compMul are the left-to-right float sum and product. *)
Lemma C69_fold_pf : forall L : Libm,
  (forall v, compAdd2 (F32 L) v = fold_left (Bplus mode_NE) (tl (l2 v)) (x2 v) /\
             compMul2 (F32 L) v = fold_left (Bmult mode_NE) (tl (l2 v)) (x2 v)) /\
  (forall v, compAdd3 (F32 L) v = fold_left (Bplus mode_NE) (tl (l3 v)) (x3 v) /\
             compMul3 (F32 L) v = fold_left (Bmult mode_NE) (tl (l3 v)) (x3 v)) /\
  (forall v, compAdd4 (F32 L) v = fold_left (Bplus mode_NE) (tl (l4 v)) (x4 v) /\
             compMul4 (F32 L) v = fold_left (Bmult mode_NE) (tl (l4 v)) (x4 v)).
Proof. intros L; ands; intros; split; reflexivity. Qed.

(*PROPS
Example C69_ex : compMin3 (F32 L0) (V3 (f32_lit 3 0) (f32_lit (-2) 0) (f32_lit 5 (-1))) = f32_lit (-2) 0.
Proof. reflexivity. Qed.
PROPS*)
