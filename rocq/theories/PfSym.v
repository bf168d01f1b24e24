(** * Proofs: sign symmetry in binary32 *)
From Coq Require Import ZArith Bool Reals List Lra Lia.
From Flocq Require Import Core IEEE754.BinarySingleNaN.
From Verif Require Import Scalar IEEE32 RealInst Types Outcome Spec SpecF32 SpecSym FloatBasics FloatOps
  ModelVec ModelCommon ModelGeom ModelMat ModelMatrix ModelQuat ModelQuaternion ModelComp ModelTransform ErrExpr F32Tac.
Import ListNotations.
(*HEADER END*)
From Verif Require Import FloatAlg SpecErr ErrLib PfErr SymLib.

Ltac par L ps s l es :=
  cbv beta;
  match goal with |- Forall2 alike ?o' ?o =>
    let r := match o with map (fun x => Bopp x) ?r => constr:(r) | _ => constr:(o) end in
    let E := fresh "E" in let E' := fresh "E" in
    assert (E' : o' = map (eval (F32 L) (env (B754_zero false) (negs ps l))) es) by (redF; reflexivity);
    assert (E : r = map (eval (F32 L) (env (B754_zero false) l)) es) by (redF; reflexivity);
    rewrite E', E; exact (exprs_parity L ps l es s eq_refl) end.

(** Every expression built from inputs, literals, +, -, * and negation whose sign under negating some of the inputs
    is determined by its form: the computed value has that symmetry exactly, also when it overflows or is NaN. *)
Lemma C78_expressions_pf : forall (L : Libm) (rho rho' : nat -> f32) (p : nat -> bool) (e : expr) (s : bool),
  (forall n, alike (rho' n) (neg_if (p n) (rho n))) -> parity p e = Some s ->
  alike (eval (F32 L) rho' e) (neg_if s (eval (F32 L) rho e)).
Proof. intros L rho rho' p e s H E. now apply (parity_ok L rho rho' p e H). Qed.

(** inner, cross and matrix products *)
Lemma C78_products_pf : forall L : Libm,
  odd_in_both (vec2_neg (F32 L)) (vec2_neg (F32 L)) (fun a b => [dot2 (F32 L) a b]) /\
  odd_in_both (vec3_neg (F32 L)) (vec3_neg (F32 L)) (fun a b => [dot3 (F32 L) a b]) /\
  odd_in_both (vec4_neg (F32 L)) (vec4_neg (F32 L)) (fun a b => [dot4 (F32 L) a b]) /\
  odd_in_both (quat_neg (F32 L)) (quat_neg (F32 L)) (fun a b => [dot_q (F32 L) a b]) /\
  odd_in_both (vec3_neg (F32 L)) (vec3_neg (F32 L)) (fun a b => l3 (cross (F32 L) a b)) /\
  odd_in_both (mat2_neg (F32 L)) (mat2_neg (F32 L)) (fun a b => lm2 (mat2_mul (F32 L) a b)) /\
  odd_in_both (mat3_neg (F32 L)) (mat3_neg (F32 L)) (fun a b => lm3 (mat3_mul (F32 L) a b)) /\
  odd_in_both (mat4_neg (F32 L)) (mat4_neg (F32 L)) (fun a b => lm4 (mat4_mul (F32 L) a b)) /\
  odd_in_both (mat2_neg (F32 L)) (vec2_neg (F32 L)) (fun a b => l2 (mat2_mul_vec (F32 L) a b)) /\
  odd_in_both (mat3_neg (F32 L)) (vec3_neg (F32 L)) (fun a b => l3 (mat3_mul_vec (F32 L) a b)) /\
  odd_in_both (mat4_neg (F32 L)) (vec4_neg (F32 L)) (fun a b => l4 (mat4_mul_vec (F32 L) a b)) /\
  odd_in_both (vec2_neg (F32 L)) (mat2_neg (F32 L)) (fun a b => l2 (vec_mul_mat2 (F32 L) a b)) /\
  odd_in_both (vec3_neg (F32 L)) (mat3_neg (F32 L)) (fun a b => l3 (vec_mul_mat3 (F32 L) a b)) /\
  odd_in_both (vec4_neg (F32 L)) (mat4_neg (F32 L)) (fun a b => l4 (vec_mul_mat4 (F32 L) a b)).
Proof.
  intros L.
  split; [split; [intros [b0 b1] [a0 a1]; par L [true; true; false; false] true [a0; a1; b0; b1] ([dot2 ES (v2 0) (v2 2)])|intros [a0 a1] [b0 b1]; par L [false; false; true; true] true [a0; a1; b0; b1] ([dot2 ES (v2 0) (v2 2)])]|].
  split; [split; [intros [b0 b1 b2] [a0 a1 a2]; par L [true; true; true; false; false; false] true [a0; a1; a2; b0; b1; b2] ([dot3 ES (v3 0) (v3 3)])|intros [a0 a1 a2] [b0 b1 b2]; par L [false; false; false; true; true; true] true [a0; a1; a2; b0; b1; b2] ([dot3 ES (v3 0) (v3 3)])]|].
  split; [split; [intros [b0 b1 b2 b3] [a0 a1 a2 a3]; par L [true; true; true; true; false; false; false; false] true [a0; a1; a2; a3; b0; b1; b2; b3] ([dot4 ES (v4 0) (v4 4)])|intros [a0 a1 a2 a3] [b0 b1 b2 b3]; par L [false; false; false; false; true; true; true; true] true [a0; a1; a2; a3; b0; b1; b2; b3] ([dot4 ES (v4 0) (v4 4)])]|].
  split; [split; [intros [b0 b1 b2 b3] [a0 a1 a2 a3]; par L [true; true; true; true; false; false; false; false] true [a0; a1; a2; a3; b0; b1; b2; b3] ([dot_q ES (vq 0) (vq 4)])|intros [a0 a1 a2 a3] [b0 b1 b2 b3]; par L [false; false; false; false; true; true; true; true] true [a0; a1; a2; a3; b0; b1; b2; b3] ([dot_q ES (vq 0) (vq 4)])]|].
  split; [split; [intros [b0 b1 b2] [a0 a1 a2]; par L [true; true; true; false; false; false] true [a0; a1; a2; b0; b1; b2] (l3 (cross ES (v3 0) (v3 3)))|intros [a0 a1 a2] [b0 b1 b2]; par L [false; false; false; true; true; true] true [a0; a1; a2; b0; b1; b2] (l3 (cross ES (v3 0) (v3 3)))]|].
  split; [split; [intros [[b0 b1] [b2 b3]] [[a0 a1] [a2 a3]]; par L [true; true; true; true; false; false; false; false] true [a0; a1; a2; a3; b0; b1; b2; b3] (lm2 (mat2_mul ES (vm2 0) (vm2 4)))|intros [[a0 a1] [a2 a3]] [[b0 b1] [b2 b3]]; par L [false; false; false; false; true; true; true; true] true [a0; a1; a2; a3; b0; b1; b2; b3] (lm2 (mat2_mul ES (vm2 0) (vm2 4)))]|].
  split; [split; [intros [[b0 b1 b2] [b3 b4 b5] [b6 b7 b8]] [[a0 a1 a2] [a3 a4 a5] [a6 a7 a8]]; par L [true; true; true; true; true; true; true; true; true; false; false; false; false; false; false; false; false; false] true [a0; a1; a2; a3; a4; a5; a6; a7; a8; b0; b1; b2; b3; b4; b5; b6; b7; b8] (lm3 (mat3_mul ES (vm3 0) (vm3 9)))|intros [[a0 a1 a2] [a3 a4 a5] [a6 a7 a8]] [[b0 b1 b2] [b3 b4 b5] [b6 b7 b8]]; par L [false; false; false; false; false; false; false; false; false; true; true; true; true; true; true; true; true; true] true [a0; a1; a2; a3; a4; a5; a6; a7; a8; b0; b1; b2; b3; b4; b5; b6; b7; b8] (lm3 (mat3_mul ES (vm3 0) (vm3 9)))]|].
  split; [split; [intros [[b0 b1 b2 b3] [b4 b5 b6 b7] [b8 b9 b10 b11] [b12 b13 b14 b15]] [[a0 a1 a2 a3] [a4 a5 a6 a7] [a8 a9 a10 a11] [a12 a13 a14 a15]]; par L [true; true; true; true; true; true; true; true; true; true; true; true; true; true; true; true; false; false; false; false; false; false; false; false; false; false; false; false; false; false; false; false] true [a0; a1; a2; a3; a4; a5; a6; a7; a8; a9; a10; a11; a12; a13; a14; a15; b0; b1; b2; b3; b4; b5; b6; b7; b8; b9; b10; b11; b12; b13; b14; b15] (lm4 (mat4_mul ES (vm4 0) (vm4 16)))|intros [[a0 a1 a2 a3] [a4 a5 a6 a7] [a8 a9 a10 a11] [a12 a13 a14 a15]] [[b0 b1 b2 b3] [b4 b5 b6 b7] [b8 b9 b10 b11] [b12 b13 b14 b15]]; par L [false; false; false; false; false; false; false; false; false; false; false; false; false; false; false; false; true; true; true; true; true; true; true; true; true; true; true; true; true; true; true; true] true [a0; a1; a2; a3; a4; a5; a6; a7; a8; a9; a10; a11; a12; a13; a14; a15; b0; b1; b2; b3; b4; b5; b6; b7; b8; b9; b10; b11; b12; b13; b14; b15] (lm4 (mat4_mul ES (vm4 0) (vm4 16)))]|].
  split; [split; [intros [b0 b1] [[a0 a1] [a2 a3]]; par L [true; true; true; true; false; false] true [a0; a1; a2; a3; b0; b1] (l2 (mat2_mul_vec ES (vm2 0) (v2 4)))|intros [[a0 a1] [a2 a3]] [b0 b1]; par L [false; false; false; false; true; true] true [a0; a1; a2; a3; b0; b1] (l2 (mat2_mul_vec ES (vm2 0) (v2 4)))]|].
  split; [split; [intros [b0 b1 b2] [[a0 a1 a2] [a3 a4 a5] [a6 a7 a8]]; par L [true; true; true; true; true; true; true; true; true; false; false; false] true [a0; a1; a2; a3; a4; a5; a6; a7; a8; b0; b1; b2] (l3 (mat3_mul_vec ES (vm3 0) (v3 9)))|intros [[a0 a1 a2] [a3 a4 a5] [a6 a7 a8]] [b0 b1 b2]; par L [false; false; false; false; false; false; false; false; false; true; true; true] true [a0; a1; a2; a3; a4; a5; a6; a7; a8; b0; b1; b2] (l3 (mat3_mul_vec ES (vm3 0) (v3 9)))]|].
  split; [split; [intros [b0 b1 b2 b3] [[a0 a1 a2 a3] [a4 a5 a6 a7] [a8 a9 a10 a11] [a12 a13 a14 a15]]; par L [true; true; true; true; true; true; true; true; true; true; true; true; true; true; true; true; false; false; false; false] true [a0; a1; a2; a3; a4; a5; a6; a7; a8; a9; a10; a11; a12; a13; a14; a15; b0; b1; b2; b3] (l4 (mat4_mul_vec ES (vm4 0) (v4 16)))|intros [[a0 a1 a2 a3] [a4 a5 a6 a7] [a8 a9 a10 a11] [a12 a13 a14 a15]] [b0 b1 b2 b3]; par L [false; false; false; false; false; false; false; false; false; false; false; false; false; false; false; false; true; true; true; true] true [a0; a1; a2; a3; a4; a5; a6; a7; a8; a9; a10; a11; a12; a13; a14; a15; b0; b1; b2; b3] (l4 (mat4_mul_vec ES (vm4 0) (v4 16)))]|].
  split; [split; [intros [[b0 b1] [b2 b3]] [a0 a1]; par L [true; true; false; false; false; false] true [a0; a1; b0; b1; b2; b3] (l2 (vec_mul_mat2 ES (v2 0) (vm2 2)))|intros [a0 a1] [[b0 b1] [b2 b3]]; par L [false; false; true; true; true; true] true [a0; a1; b0; b1; b2; b3] (l2 (vec_mul_mat2 ES (v2 0) (vm2 2)))]|].
  split; [split; [intros [[b0 b1 b2] [b3 b4 b5] [b6 b7 b8]] [a0 a1 a2]; par L [true; true; true; false; false; false; false; false; false; false; false; false] true [a0; a1; a2; b0; b1; b2; b3; b4; b5; b6; b7; b8] (l3 (vec_mul_mat3 ES (v3 0) (vm3 3)))|intros [a0 a1 a2] [[b0 b1 b2] [b3 b4 b5] [b6 b7 b8]]; par L [false; false; false; true; true; true; true; true; true; true; true; true] true [a0; a1; a2; b0; b1; b2; b3; b4; b5; b6; b7; b8] (l3 (vec_mul_mat3 ES (v3 0) (vm3 3)))]|].
  split; [intros [[b0 b1 b2 b3] [b4 b5 b6 b7] [b8 b9 b10 b11] [b12 b13 b14 b15]] [a0 a1 a2 a3]; par L [true; true; true; true; false; false; false; false; false; false; false; false; false; false; false; false; false; false; false; false] true [a0; a1; a2; a3; b0; b1; b2; b3; b4; b5; b6; b7; b8; b9; b10; b11; b12; b13; b14; b15] (l4 (vec_mul_mat4 ES (v4 0) (vm4 4)))|intros [a0 a1 a2 a3] [[b0 b1 b2 b3] [b4 b5 b6 b7] [b8 b9 b10 b11] [b12 b13 b14 b15]]; par L [false; false; false; false; true; true; true; true; true; true; true; true; true; true; true; true; true; true; true; true] true [a0; a1; a2; a3; b0; b1; b2; b3; b4; b5; b6; b7; b8; b9; b10; b11; b12; b13; b14; b15] (l4 (vec_mul_mat4 ES (v4 0) (vm4 4)))].
Qed.
(** determinants and adjugates: the sign is (-1)^n and (-1)^(n-1) *)
Lemma C78_determinants_pf : forall L : Libm,
  (even_under (mat2_neg (F32 L)) (fun a => [determinant2 (F32 L) a])) /\
  (odd_under (mat3_neg (F32 L)) (fun a => [determinant3 (F32 L) a])) /\
  (even_under (mat4_neg (F32 L)) (fun a => [determinant4 (F32 L) a])) /\
  (odd_under (mat2_neg (F32 L)) (fun a => lm2 (adjugate2 (F32 L) a))) /\
  (even_under (mat3_neg (F32 L)) (fun a => lm3 (adjugate3 (F32 L) a))) /\
  (odd_under (mat4_neg (F32 L)) (fun a => lm4 (adjugate4 (F32 L) a))).
Proof.
  intros L.
  split; [intros [[a0 a1] [a2 a3]]; par L [true; true; true; true] false [a0; a1; a2; a3] ([determinant2 ES (vm2 0)])|].
  split; [intros [[a0 a1 a2] [a3 a4 a5] [a6 a7 a8]]; par L [true; true; true; true; true; true; true; true; true] true [a0; a1; a2; a3; a4; a5; a6; a7; a8] ([determinant3 ES (vm3 0)])|].
  split; [intros [[a0 a1 a2 a3] [a4 a5 a6 a7] [a8 a9 a10 a11] [a12 a13 a14 a15]]; par L [true; true; true; true; true; true; true; true; true; true; true; true; true; true; true; true] false [a0; a1; a2; a3; a4; a5; a6; a7; a8; a9; a10; a11; a12; a13; a14; a15] ([determinant4 ES (vm4 0)])|].
  split; [intros [[a0 a1] [a2 a3]]; par L [true; true; true; true] true [a0; a1; a2; a3] (lm2 (adjugate2 ES (vm2 0)))|].
  split; [intros [[a0 a1 a2] [a3 a4 a5] [a6 a7 a8]]; par L [true; true; true; true; true; true; true; true; true] false [a0; a1; a2; a3; a4; a5; a6; a7; a8] (lm3 (adjugate3 ES (vm3 0)))|].
  intros [[a0 a1 a2 a3] [a4 a5 a6 a7] [a8 a9 a10 a11] [a12 a13 a14 a15]]; par L [true; true; true; true; true; true; true; true; true; true; true; true; true; true; true; true] true [a0; a1; a2; a3; a4; a5; a6; a7; a8; a9; a10; a11; a12; a13; a14; a15] (lm4 (adjugate4 ES (vm4 0))).
Qed.
(** the quaternion product is odd in both factors; q and -q turn every vector alike and give the same matrix *)
Lemma C78_quaternions_pf : forall L : Libm,
  odd_in_both (quat_neg (F32 L)) (quat_neg (F32 L)) (fun a b => lq (quat_mul (F32 L) a b)) /\
  (forall b, even_under (quat_neg (F32 L)) (fun a => l3 (quat_mul_vec (F32 L) a b))) /\
  (forall a, odd_under (vec3_neg (F32 L)) (fun b => l3 (quat_mul_vec (F32 L) a b))) /\
  (even_under (quat_neg (F32 L)) (fun a => lm3 (mat3_cast (F32 L) a))).
Proof.
  intros L.
  split; [split; [intros [b0 b1 b2 b3] [a0 a1 a2 a3]; par L [true; true; true; true; false; false; false; false] true [a0; a1; a2; a3; b0; b1; b2; b3] (lq (quat_mul ES (vq 0) (vq 4)))|intros [a0 a1 a2 a3] [b0 b1 b2 b3]; par L [false; false; false; false; true; true; true; true] true [a0; a1; a2; a3; b0; b1; b2; b3] (lq (quat_mul ES (vq 0) (vq 4)))]|].
  split; [intros [b0 b1 b2] [a0 a1 a2 a3]; par L [true; true; true; true; false; false; false] false [a0; a1; a2; a3; b0; b1; b2] (l3 (quat_mul_vec ES (vq 0) (v3 4)))|].
  split; [intros [a0 a1 a2 a3] [b0 b1 b2]; par L [false; false; false; false; true; true; true] true [a0; a1; a2; a3; b0; b1; b2] (l3 (quat_mul_vec ES (vq 0) (v3 4)))|].
  intros [a0 a1 a2 a3]; par L [true; true; true; true] false [a0; a1; a2; a3] (lm3 (mat3_cast ES (vq 0))).
Qed.
(** reflect is odd in the vector and even in the normal *)
Lemma C78_reflect_pf : forall L : Libm,
  (forall b, odd_under (vec2_neg (F32 L)) (fun a => l2 (reflect2 (F32 L) a b))) /\
  (forall a, even_under (vec2_neg (F32 L)) (fun b => l2 (reflect2 (F32 L) a b))) /\
  (forall b, odd_under (vec3_neg (F32 L)) (fun a => l3 (reflect3 (F32 L) a b))) /\
  (forall a, even_under (vec3_neg (F32 L)) (fun b => l3 (reflect3 (F32 L) a b))) /\
  (forall b, odd_under (vec4_neg (F32 L)) (fun a => l4 (reflect4 (F32 L) a b))) /\
  (forall a, even_under (vec4_neg (F32 L)) (fun b => l4 (reflect4 (F32 L) a b))).
Proof.
  intros L.
  split; [intros [b0 b1] [a0 a1]; par L [true; true; false; false] true [a0; a1; b0; b1] (l2 (reflect2 ES (v2 0) (v2 2)))|].
  split; [intros [a0 a1] [b0 b1]; par L [false; false; true; true] false [a0; a1; b0; b1] (l2 (reflect2 ES (v2 0) (v2 2)))|].
  split; [intros [b0 b1 b2] [a0 a1 a2]; par L [true; true; true; false; false; false] true [a0; a1; a2; b0; b1; b2] (l3 (reflect3 ES (v3 0) (v3 3)))|].
  split; [intros [a0 a1 a2] [b0 b1 b2]; par L [false; false; false; true; true; true] false [a0; a1; a2; b0; b1; b2] (l3 (reflect3 ES (v3 0) (v3 3)))|].
  split; [intros [b0 b1 b2 b3] [a0 a1 a2 a3]; par L [true; true; true; true; false; false; false; false] true [a0; a1; a2; a3; b0; b1; b2; b3] (l4 (reflect4 ES (v4 0) (v4 4)))|].
  intros [a0 a1 a2 a3] [b0 b1 b2 b3]; par L [false; false; false; false; true; true; true; true] false [a0; a1; a2; a3; b0; b1; b2; b3] (l4 (reflect4 ES (v4 0) (v4 4))).
Qed.
(** ** Bit for bit *)
Local Open Scope R_scope.
Lemma nearby_opp (md md' : mode) (x : f32) : (forall r, round radix2 (FIX_exp 0) (round_mode md') (- r) = - round radix2 (FIX_exp 0) (round_mode md) r) ->
  Bnearbyint md' (Bopp x) = Bopp (Bnearbyint md x).
Proof.
  intros H. destruct (fin_cases x) as [[F|[s ->]]|F]; [|reflexivity|now destruct x].
  destruct (Bnearbyint_correct 24 128 eq_refl md x) as [A1 [A2 A3]]. destruct (Bnearbyint_correct 24 128 eq_refl md' (Bopp x)) as [B1 [B2 B3]].
  rewrite is_finite_Bopp in B2. assert (FA : is_finite (Bnearbyint md x) = true) by (etransitivity; [exact A2|exact F]). assert (FB : is_finite (Bnearbyint md' (Bopp x)) = true) by (etransitivity; [exact B2|exact F]).
  apply B2R_Bsign_inj; [exact FB|now rewrite is_finite_Bopp| |].
  - etransitivity; [exact B1|]. rewrite B2R_Bopp. etransitivity; [apply H|]. symmetry. etransitivity; [apply B2R_Bopp|]. f_equal. exact A1.
  - etransitivity; [apply B3; now apply finite_nn|]. etransitivity; [apply Bsign_opp; now apply finite_nn|]. symmetry. etransitivity; [apply Bsign_opp; now apply finite_nn|]. f_equal. apply A3. now apply finite_nn.
Qed.
Lemma Bltb_opp (x y : f32) : Bltb (Bopp x) (Bopp y) = Bltb y x.
Proof.
  destruct (is_nan x) eqn:Nx; [rewrite Bltb_nan_l by (now rewrite is_nan_Bopp); now rewrite Bltb_nan_r|].
  destruct (is_nan y) eqn:Ny; [rewrite Bltb_nan_r by (now rewrite is_nan_Bopp); now rewrite Bltb_nan_l|].
  rewrite !Bltb_xr by (rewrite ?is_nan_Bopp; assumption). rewrite !xr_opp. destruct (Rlt_bool_spec (xr y) (xr x)).
  - apply Rlt_bool_true. lra.
  - apply Rlt_bool_false. lra.
Qed.
Lemma abs_alike (x y : f32) : alike x y \/ opposite x y -> Babs x = Babs y.
Proof.
  intros [[->|[A B]]|H]; [reflexivity|destruct x, y; try discriminate; reflexivity|]. apply alike_opposite in H. destruct H as [<-|[A B]]; [now destruct x|].
  rewrite iszero_opp in A. destruct x, y; try discriminate; reflexivity.
Qed.
Lemma clamp_swap (x lo hi : f32) : is_nan x = false -> is_nan lo = false -> is_nan hi = false -> xr lo <= xr hi ->
  (let m := if Bltb hi x then hi else x in if Bltb m lo then lo else m) = (let m := if Bltb x lo then lo else x in if Bltb hi m then hi else m).
Proof.
  intros Nx Nl Nh H. cbv zeta. rewrite (Bltb_xr hi x), (Bltb_xr x lo) by trivial.
  destruct (Rlt_bool_spec (xr hi) (xr x)); destruct (Rlt_bool_spec (xr x) (xr lo)); rewrite ?Bltb_xr by trivial.
  - lra.
  - rewrite Rlt_bool_false by lra. rewrite Rlt_bool_true by lra. reflexivity.
  - rewrite Rlt_bool_true by lra. rewrite Rlt_bool_false by lra. reflexivity.
  - rewrite !Rlt_bool_false by lra. reflexivity.
Qed.
(** length and length2 do not change under negation, distance is symmetric, normalize is odd: bit for bit, for all inputs *)
Lemma C78_lengths_pf : forall L : Libm,
  (forall v, length2 (F32 L) (vec2_neg (F32 L) v) = length2 (F32 L) v) /\ (forall v, length3 (F32 L) (vec3_neg (F32 L) v) = length3 (F32 L) v) /\
  (forall v, length4 (F32 L) (vec4_neg (F32 L) v) = length4 (F32 L) v) /\ (forall q, length_q (F32 L) (quat_neg (F32 L) q) = length_q (F32 L) q) /\
  (forall a b, distance_f (F32 L) a b = distance_f (F32 L) b a) /\ (forall a b, distance2 (F32 L) a b = distance2 (F32 L) b a) /\
  (forall a b, distance3 (F32 L) a b = distance3 (F32 L) b a) /\ (forall a b, distance4 (F32 L) a b = distance4 (F32 L) b a) /\
  (forall v, normalize2 (F32 L) (vec2_neg (F32 L) v) = vec2_neg (F32 L) (normalize2 (F32 L) v)) /\
  (forall v, normalize3 (F32 L) (vec3_neg (F32 L) v) = vec3_neg (F32 L) (normalize3 (F32 L) v)) /\
  (forall v, normalize4 (F32 L) (vec4_neg (F32 L) v) = vec4_neg (F32 L) (normalize4 (F32 L) v)) /\
  (forall q, normalize_q (F32 L) (quat_neg (F32 L) q) = quat_neg (F32 L) (normalize_q (F32 L) q)).
Proof.
  intros L. pose proof (fun x y : f32 => square_opposite _ _ (opposite_swap x y)) as SQ.
  repeat apply conj.
  - intros [x y]. fs. now rewrite !bmul_opp_l, !bmul_opp_r, !opp_involutive.
  - intros [x y z]. fs. now rewrite !bmul_opp_l, !bmul_opp_r, !opp_involutive.
  - intros [x y z w]. fs. now rewrite !bmul_opp_l, !bmul_opp_r, !opp_involutive.
  - intros [x y z w]. fs. now rewrite !bmul_opp_l, !bmul_opp_r, !opp_involutive.
  - intros x y. fs. apply abs_alike. right. apply opposite_swap.
  - intros [x y] [x' y']. fs. now rewrite (SQ x' x), (SQ y' y).
  - intros [x y z] [x' y' z']. fs. now rewrite (SQ x' x), (SQ y' y), (SQ z' z).
  - intros [x y z w] [x' y' z' w']. fs. now rewrite (SQ x' x), (SQ y' y), (SQ z' z), (SQ w' w).
  - intros [x y]. fs. now rewrite !bmul_opp_l, !bmul_opp_r, !opp_involutive.
  - intros [x y z]. fs. now rewrite !bmul_opp_l, !bmul_opp_r, !opp_involutive.
  - intros [x y z w]. fs. now rewrite !bmul_opp_l, !bmul_opp_r, !opp_involutive.
  - intros [x y z w]. fs. now rewrite !bdiv_opp_l, !bmul_opp_l, !bmul_opp_r, !opp_involutive.
Qed.
(** negation exchanges min and max, floor and ceil; trunc and round are odd, abs even, clamp odd with the bounds exchanged: bit for bit *)
Lemma C78_common_pf : forall L : Libm,
  (forall x y : f32, min_f (F32 L) (Bopp x) (Bopp y) = Bopp (max_f (F32 L) x y)) /\
  (forall x y : f32, max_f (F32 L) (Bopp x) (Bopp y) = Bopp (min_f (F32 L) x y)) /\
  (forall x lo hi : f32, is_nan x = false -> ieee_le lo hi -> clamp_f (F32 L) (Bopp x) (Bopp hi) (Bopp lo) = Bopp (clamp_f (F32 L) x lo hi)) /\
  (forall x : f32, floor_f (F32 L) (Bopp x) = Bopp (ceil_f (F32 L) x)) /\ (forall x : f32, ceil_f (F32 L) (Bopp x) = Bopp (floor_f (F32 L) x)) /\
  (forall x : f32, trunc_f (F32 L) (Bopp x) = Bopp (trunc_f (F32 L) x)) /\ (forall x : f32, round_f (F32 L) (Bopp x) = Bopp (round_f (F32 L) x)) /\
  (forall x : f32, roundEven_f (F32 L) (Bopp x) = Bopp (roundEven_f (F32 L) x)) /\
  (forall x : f32, abs_f (F32 L) (Bopp x) = abs_f (F32 L) x) /\
  (forall x : f32, is_nan x = false -> alike (sign_f (F32 L) (Bopp x)) (Bopp (sign_f (F32 L) x))).
Proof.
  intros L. repeat apply conj.
  - intros x y. fs. rewrite Bltb_opp. now destruct (Bltb _ _).
  - intros x y. fs. rewrite Bltb_opp. now destruct (Bltb _ _).
  - intros x lo hi Nx [Nl [Nh Hle]]. pose proof (clamp_swap x lo hi Nx Nl Nh Hle) as Q. apply (f_equal (fun t : f32 => Bopp t)) in Q.
    etransitivity; [|exact Q]. clear Q. fs. rewrite Bltb_opp. destruct (Bltb hi x); rewrite Bltb_opp; [destruct (Bltb hi lo)|destruct (Bltb x lo)]; reflexivity.
  - intros x. apply nearby_opp. intros r. apply round_DN_opp.
  - intros x. apply nearby_opp. intros r. apply round_UP_opp.
  - intros x. apply nearby_opp. intros r. apply round_ZR_opp.
  - intros x. apply nearby_opp. intros r. apply round_NA_opp.
  - intros x. fs. rewrite bmul_opp_l. rewrite (nearby_opp mode_NE mode_NE) by (intros r; apply round_NE_opp). apply bmul_opp_l.
  - intros x. now destruct x.
  - intros x N. change (alike (if Beqb (Bopp x) (B754_zero false) then B754_zero false else if Bltb (B754_zero false) (Bopp x) then f32_lit 1 0 else Bopp (f32_lit 1 0))
      (Bopp (if Beqb x (B754_zero false) then B754_zero false else if Bltb (B754_zero false) x then f32_lit 1 0 else Bopp (f32_lit 1 0)))).
    rewrite !Beqb_xr, !Bltb_xr by (rewrite ?is_nan_Bopp; trivial). rewrite xr_opp. change (xr (B754_zero false)) with 0.
    destruct (Req_bool_spec (- xr x) 0); destruct (Req_bool_spec (xr x) 0); try lra; [right; now split|].
    destruct (Rlt_bool_spec 0 (- xr x)); destruct (Rlt_bool_spec 0 (xr x)); try lra; left; [now rewrite opp_involutive|reflexivity].
Qed.

(*PROPS
(** the qualification about zeros is needed: (1,1).(1,-1) is +0 and stays +0 when a factor is negated *)
Example C78_zero_case : let a : vec2 f32 := V2 (f32_ofZ 1) (f32_ofZ 1) in let b := V2 (f32_ofZ 1) (f32_ofZ (-1)) in
  dot2 (F32 L0) (vec2_neg (F32 L0) a) b = B754_zero false /\ Bopp (dot2 (F32 L0) a b) = B754_zero true.
Proof. split; apply f32_by_sf; vm_compute; reflexivity. Qed.
(** an expression with a determined sign: x * (y + y) under negating x *)
Example C78_parity_case : parity (fun n => Nat.eqb n 0) (EMul (EVar 0) (EAdd (EVar 1) (EVar 1))) = Some true /\
  parity (fun n => Nat.eqb n 0) (EAdd (EVar 0) (EVar 1)) = None.
Proof. split; reflexivity. Qed.
(** clamp with bounds in order *)
Example C78_clamp_case : ieee_le (f32_ofZ (-1)) (f32_ofZ 2) /\ is_nan (f32_ofZ 5) = false /\ clamp_f (F32 L0) (Bopp (f32_ofZ 5)) (Bopp (f32_ofZ 2)) (Bopp (f32_ofZ (-1))) = f32_ofZ (-2).
Proof.
  split; [|split; [reflexivity|apply f32_by_sf; vm_compute; reflexivity]].
  split; [reflexivity|]. split; [reflexivity|]. rewrite !xr_finite by reflexivity. unfold B2R, F2R. cbn. Lra.lra.
Qed.
PROPS*)
