(** * Proofs: rounding error bounds *)
From Coq Require Import ZArith Bool Reals List Lra Lia.
From Flocq Require Import Core IEEE754.BinarySingleNaN.
From Verif Require Import Scalar IEEE32 RealInst Types Outcome Spec SpecR SpecMat SpecGeo SpecF32 SpecErr FloatBasics FloatOps
  ModelVec ModelGeom ModelMat ModelMatrix ModelQuat ModelQuaternion ModelComp ModelTransform ErrExpr.
Import ListNotations.
Local Open Scope R_scope.
(*HEADER END*)
From Verif Require Import ErrLib.

Definition v2 n : vec2 expr := V2 (EVar n) (EVar (1+n)).
Definition v3 n : vec3 expr := V3 (EVar n) (EVar (1+n)) (EVar (2+n)).
Definition v4 n : vec4 expr := V4 (EVar n) (EVar (1+n)) (EVar (2+n)) (EVar (3+n)).
Definition vq n : quat expr := Quat (EVar n) (EVar (1+n)) (EVar (2+n)) (EVar (3+n)).
Definition vm2 n := M2 (v2 n) (v2 (2+n)).
Definition vm3 n := M3 (v3 n) (v3 (3+n)) (v3 (6+n)).
Definition vm4 n := M4 (v4 n) (v4 (4+n)) (v4 (8+n)) (v4 (12+n)).

Lemma gam_nonneg k : (k <= 100)%nat -> 0 <= gam k.
Proof.
  intros K. assert (KB : (k <= Pos.to_nat (2 ^ 23))%nat) by lia. pose proof (INR_u_small k KB). pose proof u_pos.
  unfold gam. rewrite <- u32_ulp. apply Rmult_le_pos; [apply Rmult_le_pos; [apply pos_INR|lra]|]. left. apply Rinv_0_lt_compat. lra.
Qed.
Lemma near_eq k u u' c x x' m m' : near k u c x m -> (k <= 100)%nat -> u <= u' -> x = x' -> m <= m' -> near k u' c x' m'.
Proof.
  unfold near. intros H K U <- Hm. eapply Rle_trans; [exact H|]. apply Rplus_le_compat; [|exact U].
  apply Rmult_le_compat_l; [now apply gam_nonneg|exact Hm].
Qed.
Lemma nears_eq k u u' c x x' m m' : nears k u c x m -> (k <= 100)%nat -> u <= u' -> x = x' -> Forall2 Rle m m' -> nears k u' c x' m'.
Proof.
  intros H K U <- F. revert c x H. induction F as [|a b m m' Hab F IH]; intros [|c cs] [|x xs] H; try exact H; try contradiction.
  destruct H as [H1 H2]. split; [|now apply IH]. eapply near_eq; eauto.
Qed.
Lemma Forall2_le_eq (m m' : list R) : m = m' -> Forall2 Rle m m'.
Proof. intros ->. induction m' as [|a l IH]; [apply Forall2_nil|apply Forall2_cons; [apply Rle_refl|exact IH]]. Qed.
Lemma bounded_env B l : 0 <= B -> bounded_by B l -> forall n, Rabs (env 0 (vals l) n) <= B.
Proof.
  intros P H n. rewrite <- env_vals. unfold env. destruct (nth_in_or_default n l (B754_zero false)) as [I|E].
  - unfold bounded_by in H. rewrite Forall_forall in H. now apply H.
  - rewrite E. cbn. now rewrite Rabs_R0.
Qed.
Lemma bounded_app B l l' : bounded_by B l -> bounded_by B l' -> bounded_by B (l ++ l').
Proof. unfold bounded_by. intros. now apply Forall_app. Qed.

Ltac redR := cbv -[Rplus Rmult Rminus Ropp Rabs IZR Rinv Rdiv B2R Rle].
Ltac lists := repeat (apply (f_equal2 cons)); try reflexivity.
Lemma absm1 : Rabs (-1) = 1. Proof. rewrite Rabs_left; lra. Qed.
Lemma abs2 : Rabs 2 = 2. Proof. apply Rabs_pos_eq; lra. Qed.
Ltac ringR := redR; lists; rewrite ?Rabs_R1, ?Rabs_R0, ?absm1, ?abs2; field.
Ltac under := cbn; lra.
Ltac redF := cbv -[Bplus Bmult Bminus Bopp f32_lit f32_ofZ].
Ltac one L l e F :=
  let E := fresh "E" in
  match type of F with finite ?c => assert (E : c = eval (F32 L) (env (B754_zero false) l) e) by (redF; reflexivity) end;
  rewrite E in F |- *; clear E.
Ltac many L l e F :=
  let E := fresh "E" in
  match type of F with all_finite ?c => assert (E : c = map (eval (F32 L) (env (B754_zero false) l)) e) by (redF; reflexivity) end;
  rewrite E in F |- *; clear E.
Ltac flat1 L l e k w F := one L l e F; eapply near_eq; [exact (near_flat L l e k w eq_refl ltac:(lia) F)|lia|under|ringR|apply Req_le; ringR].
Ltac flats L l e k w F := many L l e F; eapply nears_eq; [exact (nears_flat L l e k w eq_refl ltac:(lia) F)|lia|under|ringR|apply Forall2_le_eq; ringR].
Ltac deg1 L l e k w d B M1 HB F := one L l e F;
  eapply near_eq; [exact (expr_near L l e k w d B eq_refl ltac:(lia) M1 HB F)|lia|apply Rle_refl|ringR|apply Req_le; ringR].
Ltac degs L l e k w d B M1 HB F := many L l e F;
  eapply nears_eq; [exact (nears_exprs L l e k w d B eq_refl ltac:(lia) M1 HB F)|lia|apply Rle_refl|ringR|apply Forall2_le_eq; ringR].

(** ** Inner products *)
(** dot of two vectors of any dimension and of two quaternions: with no overflow the error is at
    most gamma_n times the sum of the absolute products, plus n times the smallest positive number *)
Lemma C64_dot_pf : forall (L : Libm),
  dot_error_ok 2 l2 (dot2 (F32 L)) /\ dot_error_ok 3 l3 (dot3 (F32 L)) /\
  dot_error_ok 4 l4 (dot4 (F32 L)) /\ dot_error_ok 4 lq (dot_q (F32 L)).
Proof.
  intros L.
  split; [|split; [|split]].
  - intros [a0 a1] [b0 b1] F. flat1 L [a0; a1; b0; b1] (dot2 ES (v2 0) (v2 2)) 2%nat 2%Z F.
  - intros [a0 a1 a2] [b0 b1 b2] F. flat1 L [a0; a1; a2; b0; b1; b2] (dot3 ES (v3 0) (v3 3)) 3%nat 3%Z F.
  - intros [a0 a1 a2 a3] [b0 b1 b2 b3] F. flat1 L [a0; a1; a2; a3; b0; b1; b2; b3] (dot4 ES (v4 0) (v4 4)) 4%nat 4%Z F.
  - intros [a0 a1 a2 a3] [b0 b1 b2 b3] F. flat1 L [a0; a1; a2; a3; b0; b1; b2; b3] (dot_q ES (vq 0) (vq 4)) 4%nat 4%Z F.
Qed.
Lemma abs_sq x : Rabs x * Rabs x = x * x.
Proof. rewrite <- Rabs_mult. apply Rabs_pos_eq. apply Rle_0_sqr. Qed.
Lemma square_from_dot {V} n comps (dot : V -> V -> f32) (len2 : V -> f32) :
  dot_error_ok n comps dot -> (forall v, len2 v = dot v v) -> square_error_ok n comps len2.
Proof.
  intros D E a F. rewrite E in *. specialize (D a a F). unfold near in D.
  assert (X : forall l : list R, map (fun p => fst p * snd p) (combine l l) = map (fun x => x * x) l).
  { intros l. induction l as [|x l IH]; [reflexivity|]. cbn. now rewrite IH. }
  rewrite !X in D.
  assert (Y : map (fun x => x * x) (mags (comps a)) = map (fun x => x * x) (vals (comps a))).
  { unfold mags, vals. rewrite !map_map. apply map_ext. intros x. apply abs_sq. }
  rewrite Y in D. exact D.
Qed.
(** the squared length has a relative error of at most gamma_n, up to underflow *)
Lemma C64_length2_pf : forall (L : Libm),
  square_error_ok 2 l2 (length2_2 (F32 L)) /\ square_error_ok 3 l3 (length2_3 (F32 L)) /\
  square_error_ok 4 l4 (length2_4 (F32 L)) /\ square_error_ok 4 lq (length2_q (F32 L)).
Proof.
  intros L.
  destruct (C64_dot_pf L) as [A [B [C D]]].
  split; [|split; [|split]]; eapply square_from_dot; try eassumption; reflexivity.
Qed.

(** ** Every expression *)
(** For every expression built from inputs, integer literals, one half, +, -, * and negation, every
    assignment of binary32 inputs bounded by [M], and every result that is finite: the error is at most
    gamma_k times the magnitude of the expression plus an explicit underflow term. *)
Lemma C65_expressions_pf : forall (L : Libm) (rho : nat -> f32) (e : expr) (M : R),
  lits_ok e = true -> (roundings e <= Pos.to_nat (2 ^ 23))%nat -> 1 <= M -> (forall n, Rabs (b2r (rho n)) <= M) ->
  finite (eval (F32 L) rho e) ->
  Rabs (b2r (eval (F32 L) rho e) - eval RS (fun n => b2r (rho n)) e) <=
    gam (roundings e) * magnitude (fun n => b2r (rho n)) e + IZR (uweight e) * M ^ udegree e * tiny.
Proof. apply expression_error. Qed.

(** ** Cross product and matrix products *)
(** each component of cross within gamma_2 of the exact one, relative to |a_i b_j| + |a_j b_i| *)
Lemma C65_cross_pf : forall (L : Libm) (a b : vec3 f32), all_finite (l3 (cross (F32 L) a b)) ->
  nears 2 (2 * tiny) (l3 (cross (F32 L) a b)) (cross_l (vals (l3 a)) (vals (l3 b))) (cross_mag (mags (l3 a)) (mags (l3 b))).
Proof.
  intros L a b.
  destruct a as [a0 a1 a2], b as [b0 b1 b2]. intros F.
  flats L [a0; a1; a2; b0; b1; b2] (l3 (cross ES (v3 0) (v3 3))) 2%nat 2%Z F.
Qed.
(** matrix products, matrix times vector and vector times matrix, entry by entry; the 4x4 matrix
    times vector adds pairwise and so needs only three roundings *)
Lemma C65_matrix_products_pf : forall (L : Libm),
  matrix_error_ok 2 2 lm2 l2 (mat2_mul (F32 L)) (mat2_mul_vec (F32 L)) (vec_mul_mat2 (F32 L)) /\
  matrix_error_ok 3 3 lm3 l3 (mat3_mul (F32 L)) (mat3_mul_vec (F32 L)) (vec_mul_mat3 (F32 L)) /\
  matrix_error_ok 4 3 lm4 l4 (mat4_mul (F32 L)) (mat4_mul_vec (F32 L)) (vec_mul_mat4 (F32 L)).
Proof.
  intros L.
  split; [|split]; (split; [|split]).
  - intros [[a0 a1] [a2 a3]] [[b0 b1] [b2 b3]] F.
    flats L [a0; a1; a2; a3; b0; b1; b2; b3] (lm2 (mat2_mul ES (vm2 0) (vm2 4))) 2%nat 2%Z F.
  - intros [[a0 a1] [a2 a3]] [b0 b1] F. flats L [a0; a1; a2; a3; b0; b1] (l2 (mat2_mul_vec ES (vm2 0) (v2 4))) 2%nat 2%Z F.
  - intros [[a0 a1] [a2 a3]] [b0 b1] F. flats L [a0; a1; a2; a3; b0; b1] (l2 (vec_mul_mat2 ES (v2 4) (vm2 0))) 2%nat 2%Z F.
  - intros [[a0 a1 a2] [a3 a4 a5] [a6 a7 a8]] [[b0 b1 b2] [b3 b4 b5] [b6 b7 b8]] F.
    flats L [a0; a1; a2; a3; a4; a5; a6; a7; a8; b0; b1; b2; b3; b4; b5; b6; b7; b8] (lm3 (mat3_mul ES (vm3 0) (vm3 9))) 3%nat 3%Z F.
  - intros [[a0 a1 a2] [a3 a4 a5] [a6 a7 a8]] [b0 b1 b2] F.
    flats L [a0; a1; a2; a3; a4; a5; a6; a7; a8; b0; b1; b2] (l3 (mat3_mul_vec ES (vm3 0) (v3 9))) 3%nat 3%Z F.
  - intros [[a0 a1 a2] [a3 a4 a5] [a6 a7 a8]] [b0 b1 b2] F.
    flats L [a0; a1; a2; a3; a4; a5; a6; a7; a8; b0; b1; b2] (l3 (vec_mul_mat3 ES (v3 9) (vm3 0))) 3%nat 3%Z F.
  - intros [[a0 a1 a2 a3] [a4 a5 a6 a7] [a8 a9 a10 a11] [a12 a13 a14 a15]] [[b0 b1 b2 b3] [b4 b5 b6 b7] [b8 b9 b10 b11] [b12 b13 b14 b15]] F.
    flats L [a0; a1; a2; a3; a4; a5; a6; a7; a8; a9; a10; a11; a12; a13; a14; a15; b0; b1; b2; b3; b4; b5; b6; b7; b8; b9; b10; b11; b12; b13; b14; b15]
      (lm4 (mat4_mul ES (vm4 0) (vm4 16))) 4%nat 4%Z F.
  - intros [[a0 a1 a2 a3] [a4 a5 a6 a7] [a8 a9 a10 a11] [a12 a13 a14 a15]] [b0 b1 b2 b3] F.
    flats L [a0; a1; a2; a3; a4; a5; a6; a7; a8; a9; a10; a11; a12; a13; a14; a15; b0; b1; b2; b3]
      (l4 (mat4_mul_vec ES (vm4 0) (v4 16))) 3%nat 4%Z F.
  - intros [[a0 a1 a2 a3] [a4 a5 a6 a7] [a8 a9 a10 a11] [a12 a13 a14 a15]] [b0 b1 b2 b3] F.
    flats L [a0; a1; a2; a3; a4; a5; a6; a7; a8; a9; a10; a11; a12; a13; a14; a15; b0; b1; b2; b3]
      (l4 (vec_mul_mat4 ES (v4 16) (vm4 0))) 4%nat 4%Z F.
Qed.

(** ** Determinants and adjugates *)
(** determinants: relative to the permanent of the absolute values *)
Lemma C65_determinant_pf : forall (L : Libm),
  determinant_error_ok 2 2 2 0 lm2 (determinant2 (F32 L)) /\
  determinant_error_ok 3 5 9 1 lm3 (determinant3 (F32 L)) /\
  determinant_error_ok 4 9 40 2 lm4 (determinant4 (F32 L)).
Proof.
  intros L.
  split; [|split].
  - intros [[a0 a1] [a2 a3]] B F B1 HB. pose proof (bounded_env B _ ltac:(lra) HB) as HB1.
    deg1 L [a0; a1; a2; a3] (determinant2 ES (vm2 0)) 2%nat 2%Z 0%nat B B1 HB1 F.
  - intros [[a0 a1 a2] [a3 a4 a5] [a6 a7 a8]] B F B1 HB. pose proof (bounded_env B _ ltac:(lra) HB) as HB1.
    deg1 L [a0; a1; a2; a3; a4; a5; a6; a7; a8] (determinant3 ES (vm3 0)) 5%nat 9%Z 1%nat B B1 HB1 F.
  - intros [[a0 a1 a2 a3] [a4 a5 a6 a7] [a8 a9 a10 a11] [a12 a13 a14 a15]] B F B1 HB. pose proof (bounded_env B _ ltac:(lra) HB) as HB1.
    deg1 L [a0; a1; a2; a3; a4; a5; a6; a7; a8; a9; a10; a11; a12; a13; a14; a15] (determinant4 ES (vm4 0)) 9%nat 40%Z 2%nat B B1 HB1 F.
Qed.
(** adjugates: every entry is its cofactor, relative to the permanent of the minor of absolute values;
    the 2x2 adjugate is exact *)
Lemma C65_adjugate_pf : forall (L : Libm),
  adjugate_error_ok 2 0 0 0 lm2 (adjugate2 (F32 L)) /\
  adjugate_error_ok 3 2 2 0 lm3 (adjugate3 (F32 L)) /\
  adjugate_error_ok 4 6 10 1 lm4 (adjugate4 (F32 L)).
Proof.
  intros L.
  split; [|split].
  - intros [[a0 a1] [a2 a3]] B F B1 HB. pose proof (bounded_env B _ ltac:(lra) HB) as HB1.
    degs L [a0; a1; a2; a3] (lm2 (adjugate2 ES (vm2 0))) 0%nat 0%Z 0%nat B B1 HB1 F.
  - intros [[a0 a1 a2] [a3 a4 a5] [a6 a7 a8]] B F B1 HB. pose proof (bounded_env B _ ltac:(lra) HB) as HB1.
    degs L [a0; a1; a2; a3; a4; a5; a6; a7; a8] (lm3 (adjugate3 ES (vm3 0))) 2%nat 2%Z 0%nat B B1 HB1 F.
  - intros [[a0 a1 a2 a3] [a4 a5 a6 a7] [a8 a9 a10 a11] [a12 a13 a14 a15]] B F B1 HB. pose proof (bounded_env B _ ltac:(lra) HB) as HB1.
    degs L [a0; a1; a2; a3; a4; a5; a6; a7; a8; a9; a10; a11; a12; a13; a14; a15] (lm4 (adjugate4 ES (vm4 0))) 6%nat 10%Z 1%nat B B1 HB1 F.
Qed.

(** ** Quaternions *)
Ltac pos_products l1 l2 :=
  match l1 with
  | nil => idtac
  | cons ?a ?t => 
      let rec go m := match m with nil => idtac | cons ?b ?r => pose proof (Rmult_le_pos _ _ (Rabs_pos a) (Rabs_pos b)); go r end in
      go l2; pos_products t l2
  end.
(** The quaternion product goes through sums and differences, so its error is relative to the product
    of the absolute sums of both operands, not to the individual products. *)
Lemma C65_quat_product_pf : forall (L : Libm) (p q : quat f32), all_finite (lq (quat_mul (F32 L) p q)) ->
  let b := 4 * (total (mags (lq p)) * total (mags (lq q))) in
  nears 9 (9 * tiny) (lq (quat_mul (F32 L) p q))
    (lq (ham (Quat (b2r (qx p)) (b2r (qy p)) (b2r (qz p)) (b2r (qw p))) (Quat (b2r (qx q)) (b2r (qy q)) (b2r (qz q)) (b2r (qw q)))))
    [b; b; b; b].
Proof.
  intros L p q.
  destruct p as [p0 p1 p2 p3], q as [q0 q1 q2 q3]. intros F.
  many L [p0; p1; p2; p3; q0; q1; q2; q3] (lq (quat_mul ES (vq 0) (vq 4))) F.
  eapply nears_eq; [exact (nears_flat L _ (lq (quat_mul ES (vq 0) (vq 4))) 9 9 eq_refl ltac:(lia) F)|lia|under|ringR|].
  redR. pos_products constr:([b2r p0; b2r p1; b2r p2; b2r p3]) constr:([b2r q0; b2r q1; b2r q2; b2r q3]).
  repeat (apply Forall2_cons); try apply Forall2_nil; lra.
Qed.
(** rotating a vector by a quaternion: relative to the same formula in absolute values *)
Lemma C65_quat_rotation_pf : forall (L : Libm) (q : quat f32) (v : vec3 f32) (B : R), all_finite (l3 (quat_mul_vec (F32 L) q v)) ->
  1 <= B -> bounded_by B (lq q) -> bounded_by B (l3 v) ->
  nears 6 (18 * B * tiny) (l3 (quat_mul_vec (F32 L) q v))
    (turned (b2r (qx q)) (b2r (qy q)) (b2r (qz q)) (b2r (qw q)) (vals (l3 v)))
    (turned_mag (Rabs (b2r (qx q))) (Rabs (b2r (qy q))) (Rabs (b2r (qz q))) (Rabs (b2r (qw q))) (mags (l3 v))).
Proof.
  intros L q v B.
  destruct q as [p0 p1 p2 p3], v as [q0 q1 q2]. intros F B1 HB HB'. pose proof (bounded_env B _ ltac:(lra) (bounded_app B _ _ HB HB')) as HB1.
  replace (18 * B) with (18 * B ^ 1) by ring.
  degs L [p0; p1; p2; p3; q0; q1; q2] (l3 (quat_mul_vec ES (vq 0) (v3 4))) 6%nat 18%Z 1%nat B B1 HB1 F.
Qed.
(** so a quaternion with components in [-1, 1] turns a vector with components of at most V with an
    absolute error of at most 79 half-ulps of V, plus underflow *)
Lemma C65_quat_rotation_bound_pf : forall (L : Libm) (q : quat f32) (v : vec3 f32) (V : R), all_finite (l3 (quat_mul_vec (F32 L) q v)) ->
  1 <= V -> bounded_by 1 (lq q) -> bounded_by V (l3 v) ->
  Forall2 (fun c x => Rabs (b2r c - x) <= 79 * ulp_half * V) (l3 (quat_mul_vec (F32 L) q v))
    (turned (b2r (qx q)) (b2r (qy q)) (b2r (qz q)) (b2r (qw q)) (vals (l3 v))).
Proof.
  intros L q v V.
  intros F V1 Hq Hv. assert (Hq' : bounded_by V (lq q)).
  { unfold bounded_by in *. eapply Forall_impl; [|exact Hq]. cbn. intros; lra. }
  assert (G : gam 6 * 13 <= 785 / 10 * ulp_half).
  { unfold gam. replace (INR 6) with 6 by (cbn; lra). unfold ulp_half. change (2 ^ 24)%Z with 16777216%Z.
    replace (6 * / 16777216 / (1 - 6 * / 16777216)) with (6 / 16777210) by (field; lra). lra. }
  assert (T : 18 * V * tiny <= 5 / 10 * ulp_half * V).
  { assert (tiny <= / 36 * ulp_half).
    { unfold tiny, ulp_half. change (2 ^ 149)%Z with (2 ^ 125 * 2 ^ 24)%Z. rewrite mult_IZR, Rinv_mult.
      apply Rmult_le_compat_r; [left; apply Rinv_0_lt_compat; now apply IZR_lt|].
      apply Rinv_le_contravar; [lra|]. now apply IZR_le. }
    nra. }
  pose proof (C65_quat_rotation_pf L q v V F V1 Hq' Hv) as N.
  destruct q as [p0 p1 p2 p3], v as [q0 q1 q2]. cbn [qx qy qz qw] in *.
  assert (M : Forall (fun m => m <= 13 * V) (turned_mag (Rabs (b2r p0)) (Rabs (b2r p1)) (Rabs (b2r p2)) (Rabs (b2r p3)) (mags (l3 (V3 q0 q1 q2))))).
  { unfold bounded_by, lq, l3 in *. cbn [x3 y3 z3 qx qy qz qw] in Hq, Hv. apply Forall_cons_iff in Hq as [A0 Hq]. apply Forall_cons_iff in Hq as [A1 Hq]. apply Forall_cons_iff in Hq as [A2 Hq].
    apply Forall_cons_iff in Hq as [A3 _]. apply Forall_cons_iff in Hv as [B0 Hv]. apply Forall_cons_iff in Hv as [B1 Hv]. apply Forall_cons_iff in Hv as [B2 _].
    pose proof (Rabs_pos (b2r p0)). pose proof (Rabs_pos (b2r p1)). pose proof (Rabs_pos (b2r p2)). pose proof (Rabs_pos (b2r p3)).
    pose proof (Rabs_pos (b2r q0)). pose proof (Rabs_pos (b2r q1)). pose proof (Rabs_pos (b2r q2)).
    cbn. set (a0 := Rabs (b2r p0)) in *. set (a1 := Rabs (b2r p1)) in *. set (a2 := Rabs (b2r p2)) in *. set (a3 := Rabs (b2r p3)) in *.
    set (c0 := Rabs (b2r q0)) in *. set (c1 := Rabs (b2r q1)) in *. set (c2 := Rabs (b2r q2)) in *. clearbody a0 a1 a2 a3 c0 c1 c2.
    assert (P : forall a c X, 0 <= a <= 1 -> 0 <= c <= X -> 0 <= a * c <= X) by (intros; nra).
    assert (Q : forall a b c d X, 0 <= a <= 1 -> 0 <= b <= 1 -> 0 <= c <= X -> 0 <= d <= X -> 0 <= a * c + b * d <= 2 * X).
    { intros a b c d X Ha Hb Hc Hd. pose proof (P a c X Ha Hc). pose proof (P b d X Hb Hd). lra. }
    assert (W : forall w a b c d e g f h, 0 <= w <= 1 -> 0 <= a <= 1 -> 0 <= b <= 1 -> 0 <= c <= V -> 0 <= d <= V -> 0 <= e <= 2 * V -> 0 <= f <= 2 * V ->
      0 <= g <= 1 -> 0 <= h <= 1 -> 2 * w * (a * c + b * d) + 2 * (g * e + h * f) <= 12 * V).
    { intros w a b c d e g f h Hw Ha Hb Hc Hd He Hf Hg Hh. pose proof (Q a b c d V Ha Hb Hc Hd) as Q1. pose proof (P w _ _ Hw Q1).
      pose proof (Q g h e f _ Hg Hh He Hf). lra. }
    repeat apply Forall_cons; try apply Forall_nil; rewrite Rplus_assoc;
      (eapply Rle_trans; [apply Rplus_le_compat_l, W; try (split; assumption); apply Q; split; assumption|lra]). }
  revert N M. generalize (l3 (quat_mul_vec (F32 L) (Quat p0 p1 p2 p3) (V3 q0 q1 q2))).
  generalize (turned (b2r p0) (b2r p1) (b2r p2) (b2r p3) (vals (l3 (V3 q0 q1 q2)))).
  generalize (turned_mag (Rabs (b2r p0)) (Rabs (b2r p1)) (Rabs (b2r p2)) (Rabs (b2r p3)) (mags (l3 (V3 q0 q1 q2)))).
  intros ms xs cs. revert xs ms. induction cs as [|c cs IH]; intros [|x xs] [|m ms]; cbn [nears]; try contradiction; [intros; apply Forall2_nil|].
  intros [N1 N2] M. apply Forall_cons_iff in M as [M1 M2]. apply Forall2_cons; [|eapply IH; eassumption].
  unfold near in N1. pose proof (gam_nonneg 6 ltac:(lia)).
  assert (gam 6 * m <= gam 6 * (13 * V)) by (apply Rmult_le_compat_l; lra).
  assert (gam 6 * 13 * V <= 785 / 10 * ulp_half * V) by (apply Rmult_le_compat_r; lra). lra.
Qed.
(** the rotation matrix of a quaternion, entry by entry *)
Lemma C65_mat3_cast_pf : forall (L : Libm) (q : quat f32), all_finite (lm3 (mat3_cast (F32 L) q)) ->
  nears 4 (5 * tiny) (lm3 (mat3_cast (F32 L) q))
    (rotation_entries (-1) (b2r (qx q)) (b2r (qy q)) (b2r (qz q)) (b2r (qw q)))
    (rotation_entries 1 (Rabs (b2r (qx q))) (Rabs (b2r (qy q))) (Rabs (b2r (qz q))) (Rabs (b2r (qw q)))).
Proof.
  intros L q.
  destruct q as [p0 p1 p2 p3]. intros F. flats L [p0; p1; p2; p3] (lm3 (mat3_cast ES (vq 0))) 4%nat 5%Z F.
Qed.
(** lerp, whenever it returns *)
Lemma C65_lerp_pf : forall (L : Libm) (b : build) (x y r : quat f32) (t : f32), lerp (F32 L) b x y t = Ret r -> all_finite (lq r) ->
  nears 3 (2 * tiny) (lq r)
    (map (fun p => (1 - b2r t) * fst p + b2r t * snd p) (combine (vals (lq x)) (vals (lq y))))
    (map (fun p => (1 + Rabs (b2r t)) * fst p + Rabs (b2r t) * snd p) (combine (mags (lq x)) (mags (lq y)))).
Proof.
  intros L b x y r t.
  intros H. assert (E : r = quat_add (F32 L) (quat_mul_sc (F32 L) x (@ssub (F32 L) (@slit (F32 L) 1 0) t)) (quat_mul_sc (F32 L) y t)).
  { assert (R : lerp (F32 L) Release x y t = Ret r).
    { rewrite <- H. destruct b; [|reflexivity]. unfold lerp in *. unfold cassert in *.
      repeat match type of H with context [if ?c then _ else _] => destruct c end; cbn in *; congruence. }
    change (Ret (quat_add (F32 L) (quat_mul_sc (F32 L) x (@ssub (F32 L) (@slit (F32 L) 1 0) t)) (quat_mul_sc (F32 L) y t)) = Ret r) in R.
    congruence. }
  subst r. destruct x as [p0 p1 p2 p3], y as [q0 q1 q2 q3]. intros F.
  flats L [p0; p1; p2; p3; q0; q1; q2; q3; t]
    (lq (quat_add ES (quat_mul_sc ES (vq 0) (ESub (ELit 1) (EVar 8))) (quat_mul_sc ES (vq 4) (EVar 8)))) 3%nat 2%Z F.
Qed.

(** ** Transformations and reflection *)
(** translate and scale are the products with the translation and the scaling matrix *)
Lemma C65_translate_scale_pf : forall (L : Libm) (m : mat4 f32) (v : vec3 f32),
  (all_finite (lm4 (translate (F32 L) m v)) ->
    nears 4 (3 * tiny) (lm4 (translate (F32 L) m v)) (mprod 4 (vals (lm4 m)) (translation (vals (l3 v))))
      (mprod 4 (mags (lm4 m)) (translation (mags (l3 v))))) /\
  (all_finite (lm4 (scale (F32 L) m v)) ->
    nears 1 tiny (lm4 (scale (F32 L) m v)) (mprod 4 (vals (lm4 m)) (scaling (vals (l3 v))))
      (mprod 4 (mags (lm4 m)) (scaling (mags (l3 v))))).
Proof.
  intros L m v.
  destruct m as [[a0 a1 a2 a3] [a4 a5 a6 a7] [a8 a9 a10 a11] [a12 a13 a14 a15]], v as [b0 b1 b2]. split; intros F.
  - flats L [a0; a1; a2; a3; a4; a5; a6; a7; a8; a9; a10; a11; a12; a13; a14; a15; b0; b1; b2] (lm4 (translate ES (vm4 0) (v3 16))) 4%nat 3%Z F.
  - flats L [a0; a1; a2; a3; a4; a5; a6; a7; a8; a9; a10; a11; a12; a13; a14; a15; b0; b1; b2] (lm4 (scale ES (vm4 0) (v3 16))) 1%nat 1%Z F.
Qed.
Lemma C65_reflect_pf : forall (L : Libm),
  reflect_error_ok 5 6 l2 (reflect2 (F32 L)) /\ reflect_error_ok 6 8 l3 (reflect3 (F32 L)) /\ reflect_error_ok 7 10 l4 (reflect4 (F32 L)).
Proof.
  intros L.
  split; [|split].
  - intros [a0 a1] [b0 b1] B F B1 HB HB'. pose proof (bounded_env B _ ltac:(lra) (bounded_app B _ _ HB HB')) as HB1.
    intros dp. unfold dp. clear dp. replace (6 * B) with (6 * B ^ 1) by ring.
    degs L [a0; a1; b0; b1] (l2 (reflect2 ES (v2 0) (v2 2))) 5%nat 6%Z 1%nat B B1 HB1 F.
  - intros [a0 a1 a2] [b0 b1 b2] B F B1 HB HB'. pose proof (bounded_env B _ ltac:(lra) (bounded_app B _ _ HB HB')) as HB1.
    intros dp. unfold dp. clear dp. replace (8 * B) with (8 * B ^ 1) by ring.
    degs L [a0; a1; a2; b0; b1; b2] (l3 (reflect3 ES (v3 0) (v3 3))) 6%nat 8%Z 1%nat B B1 HB1 F.
  - intros [a0 a1 a2 a3] [b0 b1 b2 b3] B F B1 HB HB'. pose proof (bounded_env B _ ltac:(lra) (bounded_app B _ _ HB HB')) as HB1.
    intros dp. unfold dp. clear dp. replace (10 * B) with (10 * B ^ 1) by ring.
    degs L [a0; a1; a2; a3; b0; b1; b2; b3] (l4 (reflect4 ES (v4 0) (v4 4))) 7%nat 10%Z 1%nat B B1 HB1 F.
Qed.

(** ** Component reductions *)
(** compAdd has no underflow error; compMul has a relative error of at most gamma_(n-1) up to underflow *)
Lemma C69_compAdd_pf : forall (L : Libm), sum_error_ok 1 l2 (compAdd2 (F32 L)) /\ sum_error_ok 2 l3 (compAdd3 (F32 L)) /\ sum_error_ok 3 l4 (compAdd4 (F32 L)).
Proof.
  intros L.
  assert (Z : forall k c x m, near k (0 * tiny) c x m -> Rabs (b2r c - x) <= gam k * m) by (unfold near; intros; lra).
  split; [|split].
  - intros [a0 a1] F. apply Z. flat1 L [a0; a1] (compAdd2 ES (v2 0)) 1%nat 0%Z F.
  - intros [a0 a1 a2] F. apply Z. flat1 L [a0; a1; a2] (compAdd3 ES (v3 0)) 2%nat 0%Z F.
  - intros [a0 a1 a2 a3] F. apply Z. flat1 L [a0; a1; a2; a3] (compAdd4 ES (v4 0)) 3%nat 0%Z F.
Qed.
Lemma C69_compMul_pf : forall (L : Libm), product_error_ok 1 1 0 l2 (compMul2 (F32 L)) /\ product_error_ok 2 2 1 l3 (compMul3 (F32 L)) /\
  product_error_ok 3 3 2 l4 (compMul4 (F32 L)).
Proof.
  intros L.
  split; [|split].
  - intros [a0 a1] B F B1 HB. pose proof (bounded_env B _ ltac:(lra) HB) as HB1. deg1 L [a0; a1] (compMul2 ES (v2 0)) 1%nat 1%Z 0%nat B B1 HB1 F.
  - intros [a0 a1 a2] B F B1 HB. pose proof (bounded_env B _ ltac:(lra) HB) as HB1. deg1 L [a0; a1; a2] (compMul3 ES (v3 0)) 2%nat 2%Z 1%nat B B1 HB1 F.
  - intros [a0 a1 a2 a3] B F B1 HB. pose proof (bounded_env B _ ltac:(lra) HB) as HB1. deg1 L [a0; a1; a2; a3] (compMul4 ES (v4 0)) 3%nat 3%Z 2%nat B B1 HB1 F.
Qed.
(*PROPS
(** The hypotheses hold at non-trivial inputs: 0.1, 0.2, ... are not representable, every product rounds. *)
Definition e_a : vec3 f32 := V3 (f32_lit 1 (-1)) (f32_lit (-2) (-1)) (f32_lit 3 (-1)).
Definition e_b : vec3 f32 := V3 (f32_lit 7 (-1)) (f32_lit 11 (-1)) (f32_lit 13 (-1)).
Definition e_q : quat f32 := Quat (f32_lit 1 (-1)) (f32_lit 7 (-1)) (f32_lit 1 (-1)) (f32_lit 7 (-1)).
Definition e_m : mat3 f32 := M3 e_a e_b (V3 (f32_lit 17 (-1)) (f32_lit 19 (-1)) (f32_lit 23 (-1))).
Definition e_m4 : mat4 f32 :=
  M4 (V4 (f32_lit 1 (-1)) (f32_lit 2 (-1)) (f32_lit 3 (-1)) (f32_lit 0 0)) (V4 (f32_lit 7 (-1)) (f32_lit 11 (-1)) (f32_lit 13 (-1)) (f32_lit 0 0))
     (V4 (f32_lit 17 (-1)) (f32_lit 19 (-1)) (f32_lit 23 (-1)) (f32_lit 0 0)) (V4 (f32_lit 29 (-1)) (f32_lit 31 (-1)) (f32_lit 37 (-1)) (f32_lit 1 0)).
Example C64_dot_case : finite (dot3 (F32 L0) e_a e_b).
Proof. vm_compute; reflexivity. Qed.
Example C65_cross_case : forallb is_finite (l3 (cross (F32 L0) e_a e_b)) = true.
Proof. vm_compute; reflexivity. Qed.
Example C65_matrix_case : forallb is_finite (lm3 (mat3_mul (F32 L0) e_m e_m) ++ lm4 (mat4_mul (F32 L0) e_m4 e_m4) ++
  [determinant3 (F32 L0) e_m; determinant4 (F32 L0) e_m4] ++ lm3 (adjugate3 (F32 L0) e_m) ++ lm4 (adjugate4 (F32 L0) e_m4)) = true.
Proof. vm_compute; reflexivity. Qed.
Example C65_quat_case : forallb is_finite (lq (quat_mul (F32 L0) e_q e_q) ++ l3 (quat_mul_vec (F32 L0) e_q e_a) ++ lm3 (mat3_cast (F32 L0) e_q)) = true.
Proof. vm_compute; reflexivity. Qed.
Example C65_lerp_case : match lerp (F32 L0) Debug e_q e_q (f32_lit 3 (-1)) with Ret r => forallb is_finite (lq r) | _ => false end = true.
Proof. vm_compute; reflexivity. Qed.
Example C69_comp_case : forallb is_finite [compAdd3 (F32 L0) e_a; compMul3 (F32 L0) e_b] = true.
Proof. vm_compute; reflexivity. Qed.
(** an expression with nested products: (x y - z) x *)
Example C65_expressions_case : let e := EMul (ESub (EMul (EVar 0) (EVar 1)) (EVar 2)) (EVar 0) in
  lits_ok e = true /\ roundings e = 3%nat /\ uweight e = 2%Z /\ udegree e = 1%nat /\
  finite (eval (F32 L0) (fun n => nth n [f32_lit 1 (-1); f32_lit 3 (-1); f32_lit 7 (-1)] (f32_lit 0 0)) e).
Proof. repeat split. Qed.
PROPS*)
