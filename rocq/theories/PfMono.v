(** * Proofs: order and range laws in binary32 *)
From Coq Require Import ZArith Bool Reals List Lra Lia.
From Flocq Require Import Core IEEE754.BinarySingleNaN.
From Verif Require Import Scalar IEEE32 RealInst Types Outcome Spec SpecR SpecMat SpecGeo SpecF32 SpecErr SpecOrd FloatBasics FloatOps
  ModelVec ModelCommon ModelExp ModelGeom ModelMat ModelMatrix ModelQuat ModelQuaternion ModelComp ModelTransform ModelTrig ErrExpr ErrLib F32Tac PfOrder.
Import ListNotations.
Local Open Scope R_scope.
(*HEADER END*)
From Verif Require Import FloatAlg OvfLib PfErr ScaleLib LenLib MonoLib PfRound PfOrder PfExp PfInv.

Ltac increasing L l l' e :=
  match goal with |- increases _ _ ?o ?o' =>
    let E := fresh "E" in let E' := fresh "E" in
    assert (E : o = map (eval (F32 L) (env (B754_zero false) l)) e) by (redF; reflexivity);
    assert (E' : o' = map (eval (F32 L) (env (B754_zero false) l')) e) by (redF; reflexivity);
    rewrite E, E'; clear E E'; apply (exprs_increase L l l' e eq_refl) end.

(** Every expression built from inputs, nonnegative literals, + and *: on nonnegative inputs the computed value grows with each input,
    and it is finite whenever the value on the larger inputs is. *)
Lemma C81_expressions_pf : forall (L : Libm) (rho rho' : nat -> f32) (e : expr), lits_ok e = true -> positive_expr e = true ->
  (forall n, finite (rho n)) -> (forall n, 0 <= b2r (rho n) <= b2r (rho' n)) -> finite (eval (F32 L) rho' e) ->
  finite (eval (F32 L) rho e) /\ 0 <= b2r (eval (F32 L) rho e) <= b2r (eval (F32 L) rho' e).
Proof. intros L rho rho' e Hl Hp F R. now apply positive_monotone. Qed.

(** inner products, products of matrices and vectors, translate, scale and component reductions grow with nonnegative entries *)
Lemma C81_products_pf : forall L : Libm,
  (forall a b a' b', increases (l2 a ++ l2 b) (l2 a' ++ l2 b') ([dot2 (F32 L) a b]) ([dot2 (F32 L) a' b'])) /\
  (forall a b a' b', increases (l3 a ++ l3 b) (l3 a' ++ l3 b') ([dot3 (F32 L) a b]) ([dot3 (F32 L) a' b'])) /\
  (forall a b a' b', increases (l4 a ++ l4 b) (l4 a' ++ l4 b') ([dot4 (F32 L) a b]) ([dot4 (F32 L) a' b'])) /\
  (forall a b a' b', increases (lq a ++ lq b) (lq a' ++ lq b') ([dot_q (F32 L) a b]) ([dot_q (F32 L) a' b'])) /\
  (forall a b a' b', increases (lm2 a ++ lm2 b) (lm2 a' ++ lm2 b') (lm2 (mat2_mul (F32 L) a b)) (lm2 (mat2_mul (F32 L) a' b'))) /\
  (forall a b a' b', increases (lm3 a ++ lm3 b) (lm3 a' ++ lm3 b') (lm3 (mat3_mul (F32 L) a b)) (lm3 (mat3_mul (F32 L) a' b'))) /\
  (forall a b a' b', increases (lm4 a ++ lm4 b) (lm4 a' ++ lm4 b') (lm4 (mat4_mul (F32 L) a b)) (lm4 (mat4_mul (F32 L) a' b'))) /\
  (forall a v a' v', increases (lm2 a ++ l2 v) (lm2 a' ++ l2 v') (l2 (mat2_mul_vec (F32 L) a v)) (l2 (mat2_mul_vec (F32 L) a' v'))) /\
  (forall a v a' v', increases (lm3 a ++ l3 v) (lm3 a' ++ l3 v') (l3 (mat3_mul_vec (F32 L) a v)) (l3 (mat3_mul_vec (F32 L) a' v'))) /\
  (forall a v a' v', increases (lm4 a ++ l4 v) (lm4 a' ++ l4 v') (l4 (mat4_mul_vec (F32 L) a v)) (l4 (mat4_mul_vec (F32 L) a' v'))) /\
  (forall a v a' v', increases (lm2 a ++ l2 v) (lm2 a' ++ l2 v') (l2 (vec_mul_mat2 (F32 L) v a)) (l2 (vec_mul_mat2 (F32 L) v' a'))) /\
  (forall a v a' v', increases (lm3 a ++ l3 v) (lm3 a' ++ l3 v') (l3 (vec_mul_mat3 (F32 L) v a)) (l3 (vec_mul_mat3 (F32 L) v' a'))) /\
  (forall a v a' v', increases (lm4 a ++ l4 v) (lm4 a' ++ l4 v') (l4 (vec_mul_mat4 (F32 L) v a)) (l4 (vec_mul_mat4 (F32 L) v' a'))) /\
  (forall a b a' b', increases (lm2 a ++ lm2 b) (lm2 a' ++ lm2 b') (lm2 (matrixCompMult2 (F32 L) a b)) (lm2 (matrixCompMult2 (F32 L) a' b'))) /\
  (forall a b a' b', increases (lm3 a ++ lm3 b) (lm3 a' ++ lm3 b') (lm3 (matrixCompMult3 (F32 L) a b)) (lm3 (matrixCompMult3 (F32 L) a' b'))) /\
  (forall a b a' b', increases (lm4 a ++ lm4 b) (lm4 a' ++ lm4 b') (lm4 (matrixCompMult4 (F32 L) a b)) (lm4 (matrixCompMult4 (F32 L) a' b'))) /\
  (forall m v m' v', increases (lm4 m ++ l3 v) (lm4 m' ++ l3 v') (lm4 (translate (F32 L) m v)) (lm4 (translate (F32 L) m' v'))) /\
  (forall m v m' v', increases (lm4 m ++ l3 v) (lm4 m' ++ l3 v') (lm4 (scale (F32 L) m v)) (lm4 (scale (F32 L) m' v'))) /\
  (forall v v', increases (l2 v) (l2 v') ([compAdd2 (F32 L) v]) ([compAdd2 (F32 L) v'])) /\
  (forall v v', increases (l2 v) (l2 v') ([compMul2 (F32 L) v]) ([compMul2 (F32 L) v'])) /\
  (forall v v', increases (l3 v) (l3 v') ([compAdd3 (F32 L) v]) ([compAdd3 (F32 L) v'])) /\
  (forall v v', increases (l3 v) (l3 v') ([compMul3 (F32 L) v]) ([compMul3 (F32 L) v'])) /\
  (forall v v', increases (l4 v) (l4 v') ([compAdd4 (F32 L) v]) ([compAdd4 (F32 L) v'])) /\
  (forall v v', increases (l4 v) (l4 v') ([compMul4 (F32 L) v]) ([compMul4 (F32 L) v'])).
Proof.
  intros L.
  split; [intros [a0 a1] [b0 b1] [a'0 a'1] [b'0 b'1]; increasing L [a0; a1; b0; b1] [a'0; a'1; b'0; b'1] ([dot2 ES (v2 0) (v2 2)])|].
  split; [intros [a0 a1 a2] [b0 b1 b2] [a'0 a'1 a'2] [b'0 b'1 b'2]; increasing L [a0; a1; a2; b0; b1; b2] [a'0; a'1; a'2; b'0; b'1; b'2] ([dot3 ES (v3 0) (v3 3)])|].
  split; [intros [a0 a1 a2 a3] [b0 b1 b2 b3] [a'0 a'1 a'2 a'3] [b'0 b'1 b'2 b'3]; increasing L [a0; a1; a2; a3; b0; b1; b2; b3] [a'0; a'1; a'2; a'3; b'0; b'1; b'2; b'3] ([dot4 ES (v4 0) (v4 4)])|].
  split; [intros [a0 a1 a2 a3] [b0 b1 b2 b3] [a'0 a'1 a'2 a'3] [b'0 b'1 b'2 b'3]; increasing L [a0; a1; a2; a3; b0; b1; b2; b3] [a'0; a'1; a'2; a'3; b'0; b'1; b'2; b'3] ([dot_q ES (vq 0) (vq 4)])|].
  split; [intros [[a0 a1] [a2 a3]] [[b0 b1] [b2 b3]] [[a'0 a'1] [a'2 a'3]] [[b'0 b'1] [b'2 b'3]]; increasing L [a0; a1; a2; a3; b0; b1; b2; b3] [a'0; a'1; a'2; a'3; b'0; b'1; b'2; b'3] (lm2 (mat2_mul ES (vm2 0) (vm2 4)))|].
  split; [intros [[a0 a1 a2] [a3 a4 a5] [a6 a7 a8]] [[b0 b1 b2] [b3 b4 b5] [b6 b7 b8]] [[a'0 a'1 a'2] [a'3 a'4 a'5] [a'6 a'7 a'8]] [[b'0 b'1 b'2] [b'3 b'4 b'5] [b'6 b'7 b'8]]; increasing L [a0; a1; a2; a3; a4; a5; a6; a7; a8; b0; b1; b2; b3; b4; b5; b6; b7; b8] [a'0; a'1; a'2; a'3; a'4; a'5; a'6; a'7; a'8; b'0; b'1; b'2; b'3; b'4; b'5; b'6; b'7; b'8] (lm3 (mat3_mul ES (vm3 0) (vm3 9)))|].
  split; [intros [[a0 a1 a2 a3] [a4 a5 a6 a7] [a8 a9 a10 a11] [a12 a13 a14 a15]] [[b0 b1 b2 b3] [b4 b5 b6 b7] [b8 b9 b10 b11] [b12 b13 b14 b15]] [[a'0 a'1 a'2 a'3] [a'4 a'5 a'6 a'7] [a'8 a'9 a'10 a'11] [a'12 a'13 a'14 a'15]] [[b'0 b'1 b'2 b'3] [b'4 b'5 b'6 b'7] [b'8 b'9 b'10 b'11] [b'12 b'13 b'14 b'15]]; increasing L [a0; a1; a2; a3; a4; a5; a6; a7; a8; a9; a10; a11; a12; a13; a14; a15; b0; b1; b2; b3; b4; b5; b6; b7; b8; b9; b10; b11; b12; b13; b14; b15] [a'0; a'1; a'2; a'3; a'4; a'5; a'6; a'7; a'8; a'9; a'10; a'11; a'12; a'13; a'14; a'15; b'0; b'1; b'2; b'3; b'4; b'5; b'6; b'7; b'8; b'9; b'10; b'11; b'12; b'13; b'14; b'15] (lm4 (mat4_mul ES (vm4 0) (vm4 16)))|].
  split; [intros [[a0 a1] [a2 a3]] [b0 b1] [[a'0 a'1] [a'2 a'3]] [b'0 b'1]; increasing L [a0; a1; a2; a3; b0; b1] [a'0; a'1; a'2; a'3; b'0; b'1] (l2 (mat2_mul_vec ES (vm2 0) (v2 4)))|].
  split; [intros [[a0 a1 a2] [a3 a4 a5] [a6 a7 a8]] [b0 b1 b2] [[a'0 a'1 a'2] [a'3 a'4 a'5] [a'6 a'7 a'8]] [b'0 b'1 b'2]; increasing L [a0; a1; a2; a3; a4; a5; a6; a7; a8; b0; b1; b2] [a'0; a'1; a'2; a'3; a'4; a'5; a'6; a'7; a'8; b'0; b'1; b'2] (l3 (mat3_mul_vec ES (vm3 0) (v3 9)))|].
  split; [intros [[a0 a1 a2 a3] [a4 a5 a6 a7] [a8 a9 a10 a11] [a12 a13 a14 a15]] [b0 b1 b2 b3] [[a'0 a'1 a'2 a'3] [a'4 a'5 a'6 a'7] [a'8 a'9 a'10 a'11] [a'12 a'13 a'14 a'15]] [b'0 b'1 b'2 b'3]; increasing L [a0; a1; a2; a3; a4; a5; a6; a7; a8; a9; a10; a11; a12; a13; a14; a15; b0; b1; b2; b3] [a'0; a'1; a'2; a'3; a'4; a'5; a'6; a'7; a'8; a'9; a'10; a'11; a'12; a'13; a'14; a'15; b'0; b'1; b'2; b'3] (l4 (mat4_mul_vec ES (vm4 0) (v4 16)))|].
  split; [intros [[a0 a1] [a2 a3]] [b0 b1] [[a'0 a'1] [a'2 a'3]] [b'0 b'1]; increasing L [a0; a1; a2; a3; b0; b1] [a'0; a'1; a'2; a'3; b'0; b'1] (l2 (vec_mul_mat2 ES (v2 4) (vm2 0)))|].
  split; [intros [[a0 a1 a2] [a3 a4 a5] [a6 a7 a8]] [b0 b1 b2] [[a'0 a'1 a'2] [a'3 a'4 a'5] [a'6 a'7 a'8]] [b'0 b'1 b'2]; increasing L [a0; a1; a2; a3; a4; a5; a6; a7; a8; b0; b1; b2] [a'0; a'1; a'2; a'3; a'4; a'5; a'6; a'7; a'8; b'0; b'1; b'2] (l3 (vec_mul_mat3 ES (v3 9) (vm3 0)))|].
  split; [intros [[a0 a1 a2 a3] [a4 a5 a6 a7] [a8 a9 a10 a11] [a12 a13 a14 a15]] [b0 b1 b2 b3] [[a'0 a'1 a'2 a'3] [a'4 a'5 a'6 a'7] [a'8 a'9 a'10 a'11] [a'12 a'13 a'14 a'15]] [b'0 b'1 b'2 b'3]; increasing L [a0; a1; a2; a3; a4; a5; a6; a7; a8; a9; a10; a11; a12; a13; a14; a15; b0; b1; b2; b3] [a'0; a'1; a'2; a'3; a'4; a'5; a'6; a'7; a'8; a'9; a'10; a'11; a'12; a'13; a'14; a'15; b'0; b'1; b'2; b'3] (l4 (vec_mul_mat4 ES (v4 16) (vm4 0)))|].
  split; [intros [[a0 a1] [a2 a3]] [[b0 b1] [b2 b3]] [[a'0 a'1] [a'2 a'3]] [[b'0 b'1] [b'2 b'3]]; increasing L [a0; a1; a2; a3; b0; b1; b2; b3] [a'0; a'1; a'2; a'3; b'0; b'1; b'2; b'3] (lm2 (matrixCompMult2 ES (vm2 0) (vm2 4)))|].
  split; [intros [[a0 a1 a2] [a3 a4 a5] [a6 a7 a8]] [[b0 b1 b2] [b3 b4 b5] [b6 b7 b8]] [[a'0 a'1 a'2] [a'3 a'4 a'5] [a'6 a'7 a'8]] [[b'0 b'1 b'2] [b'3 b'4 b'5] [b'6 b'7 b'8]]; increasing L [a0; a1; a2; a3; a4; a5; a6; a7; a8; b0; b1; b2; b3; b4; b5; b6; b7; b8] [a'0; a'1; a'2; a'3; a'4; a'5; a'6; a'7; a'8; b'0; b'1; b'2; b'3; b'4; b'5; b'6; b'7; b'8] (lm3 (matrixCompMult3 ES (vm3 0) (vm3 9)))|].
  split; [intros [[a0 a1 a2 a3] [a4 a5 a6 a7] [a8 a9 a10 a11] [a12 a13 a14 a15]] [[b0 b1 b2 b3] [b4 b5 b6 b7] [b8 b9 b10 b11] [b12 b13 b14 b15]] [[a'0 a'1 a'2 a'3] [a'4 a'5 a'6 a'7] [a'8 a'9 a'10 a'11] [a'12 a'13 a'14 a'15]] [[b'0 b'1 b'2 b'3] [b'4 b'5 b'6 b'7] [b'8 b'9 b'10 b'11] [b'12 b'13 b'14 b'15]]; increasing L [a0; a1; a2; a3; a4; a5; a6; a7; a8; a9; a10; a11; a12; a13; a14; a15; b0; b1; b2; b3; b4; b5; b6; b7; b8; b9; b10; b11; b12; b13; b14; b15] [a'0; a'1; a'2; a'3; a'4; a'5; a'6; a'7; a'8; a'9; a'10; a'11; a'12; a'13; a'14; a'15; b'0; b'1; b'2; b'3; b'4; b'5; b'6; b'7; b'8; b'9; b'10; b'11; b'12; b'13; b'14; b'15] (lm4 (matrixCompMult4 ES (vm4 0) (vm4 16)))|].
  split; [intros [[a0 a1 a2 a3] [a4 a5 a6 a7] [a8 a9 a10 a11] [a12 a13 a14 a15]] [b0 b1 b2] [[a'0 a'1 a'2 a'3] [a'4 a'5 a'6 a'7] [a'8 a'9 a'10 a'11] [a'12 a'13 a'14 a'15]] [b'0 b'1 b'2]; increasing L [a0; a1; a2; a3; a4; a5; a6; a7; a8; a9; a10; a11; a12; a13; a14; a15; b0; b1; b2] [a'0; a'1; a'2; a'3; a'4; a'5; a'6; a'7; a'8; a'9; a'10; a'11; a'12; a'13; a'14; a'15; b'0; b'1; b'2] (lm4 (translate ES (vm4 0) (v3 16)))|].
  split; [intros [[a0 a1 a2 a3] [a4 a5 a6 a7] [a8 a9 a10 a11] [a12 a13 a14 a15]] [b0 b1 b2] [[a'0 a'1 a'2 a'3] [a'4 a'5 a'6 a'7] [a'8 a'9 a'10 a'11] [a'12 a'13 a'14 a'15]] [b'0 b'1 b'2]; increasing L [a0; a1; a2; a3; a4; a5; a6; a7; a8; a9; a10; a11; a12; a13; a14; a15; b0; b1; b2] [a'0; a'1; a'2; a'3; a'4; a'5; a'6; a'7; a'8; a'9; a'10; a'11; a'12; a'13; a'14; a'15; b'0; b'1; b'2] (lm4 (scale ES (vm4 0) (v3 16)))|].
  split; [intros [a0 a1] [a'0 a'1]; increasing L [a0; a1] [a'0; a'1] ([compAdd2 ES (v2 0)])|].
  split; [intros [a0 a1] [a'0 a'1]; increasing L [a0; a1] [a'0; a'1] ([compMul2 ES (v2 0)])|].
  split; [intros [a0 a1 a2] [a'0 a'1 a'2]; increasing L [a0; a1; a2] [a'0; a'1; a'2] ([compAdd3 ES (v3 0)])|].
  split; [intros [a0 a1 a2] [a'0 a'1 a'2]; increasing L [a0; a1; a2] [a'0; a'1; a'2] ([compMul3 ES (v3 0)])|].
  split; [intros [a0 a1 a2 a3] [a'0 a'1 a'2 a'3]; increasing L [a0; a1; a2; a3] [a'0; a'1; a'2; a'3] ([compAdd4 ES (v4 0)])|].
  intros [a0 a1 a2 a3] [a'0 a'1 a'2 a'3]; increasing L [a0; a1; a2; a3] [a'0; a'1; a'2; a'3] ([compMul4 ES (v4 0)]).
Qed.

(** ** Scalar functions *)
Lemma nondecreasing_by (f : f32 -> f32) : (forall s, f (B754_infinity s) = B754_infinity s) ->
  (forall x y, finite x -> finite y -> b2r x <= b2r y -> xr (f x) <= xr (f y)) -> nondecreasing f.
Proof.
  intros I H x y (Nx & Ny & Hxy) Mx My. split; [exact Mx|]. split; [exact My|]. pose proof big_pos as B.
  destruct (fin_cases x) as [[Fx|[s ->]]|K]; [| |congruence].
  - destruct (fin_cases y) as [[Fy|[s ->]]|K]; [| |congruence].
    + apply H; trivial. now rewrite (xr_finite x Fx), (xr_finite y Fy) in Hxy.
    + rewrite I. destruct s; [|apply xr_bounds]. exfalso. cbn [xr] in Hxy. rewrite (xr_finite x Fx) in Hxy. pose proof (b2r_lt_big x). lra.
  - rewrite I. destruct s; [apply xr_bounds|]. cbn [xr] in Hxy |- *. destruct (fin_cases y) as [[Fy|[s ->]]|K]; [| |congruence].
    + exfalso. rewrite (xr_finite y Fy) in Hxy. pose proof (b2r_lt_big y). lra.
    + rewrite I. exact Hxy.
Qed.
Lemma nearby_mono md (x y : f32) : finite x -> finite y -> b2r x <= b2r y -> xr (Bnearbyint md x) <= xr (Bnearbyint md y).
Proof.
  intros Fx Fy H. destruct (nearby_ok md x Fx) as [A B]. destruct (nearby_ok md y Fy) as [C D]. rewrite !xr_finite by trivial.
  change (b2r (Bnearbyint md x) <= b2r (Bnearbyint md y)). rewrite B, D. apply IZR_le. apply Zrnd_le; [apply valid_rnd_round_mode|exact H].
Qed.
Lemma times_const_mono (c : f32) : finite c -> 0 < b2r c -> nondecreasing (fun x => Bmult mode_NE x c).
Proof.
  intros F P. apply nondecreasing_by.
  - intros s. destruct (Bsign_b2r c F) as [_ G]. specialize (G P). destruct c as [b|b| |b m e B]; try discriminate F; cbn in G; [cbn in P; lra|subst b; destruct s; reflexivity].
  - intros x y Fx Fy H. destruct (mult_xr x c Fx F) as [-> _]. destruct (mult_xr y c Fy F) as [-> _]. apply clip_mono, rnd_mono. nra.
Qed.
(** sqrt, floor, ceil, trunc, round, roundEven, radians, degrees, min and max with a number, clamp, step, sign preserve the order, on infinities too *)
Lemma C81_scalars_pf : forall L : Libm,
  nondecreasing (sqrt_f (F32 L)) /\ nondecreasing (floor_f (F32 L)) /\ nondecreasing (ceil_f (F32 L)) /\ nondecreasing (trunc_f (F32 L)) /\
  nondecreasing (round_f (F32 L)) /\ nondecreasing (roundEven_f (F32 L)) /\ nondecreasing (radians_f (F32 L)) /\ nondecreasing (degrees_f (F32 L)) /\
  nondecreasing (sign_f (F32 L)) /\ nondecreasing (signNotZero_f (F32 L)) /\
  (forall y : f32, is_nan y = false -> nondecreasing (fun x => min_f (F32 L) x y) /\ nondecreasing (fun x => max_f (F32 L) x y) /\ nondecreasing (fun x => step_f (F32 L) y x)) /\
  (forall lo hi : f32, ieee_le lo hi -> nondecreasing (fun x => clamp_f (F32 L) x lo hi)).
Proof.
  intros L. split; [|split; [|split; [|split; [|split; [|split; [|split; [|split; [|split; [|split; [|split]]]]]]]]]].
  - intros x y (Nx & Ny & H) Mx My. change (is_nan (Bsqrt mode_NE x) = false) in Mx. change (is_nan (Bsqrt mode_NE y) = false) in My.
    assert (P : forall z : f32, is_nan z = false -> is_nan (Bsqrt mode_NE z) = false -> 0 <= xr z).
    { intros z Nz Mz. destruct (Rle_or_lt 0 (xr z)) as [A|A]; [exact A|]. exfalso. destruct z as [b|b| |b m e B]; [cbn in A; lra| |discriminate Nz|].
      - destruct b; [discriminate Mz|]. cbn in A. pose proof big_pos. lra.
      - destruct b; [discriminate Mz|]. rewrite xr_finite in A by reflexivity. cbn in A. assert (0 < F2R (Float radix2 (Z.pos m) e)) by (apply F2R_gt_0; reflexivity). lra. }
    apply (nn_sqrt x y); [split; auto|split; auto|exact H].
  - apply nondecreasing_by; [intros []; reflexivity|]. intros. now apply (nearby_mono mode_DN).
  - apply nondecreasing_by; [intros []; reflexivity|]. intros. now apply (nearby_mono mode_UP).
  - apply nondecreasing_by; [intros []; reflexivity|]. intros. now apply (nearby_mono mode_ZR).
  - apply nondecreasing_by; [intros []; reflexivity|]. intros. now apply (nearby_mono mode_NA).
  - apply nondecreasing_by; [intros []; reflexivity|]. intros x y Fx Fy H. destruct (roundEven_val L x Fx) as [A B]. destruct (roundEven_val L y Fy) as [C D].
    rewrite !xr_finite by trivial. change (b2r (roundEven_f (F32 L) x) <= b2r (roundEven_f (F32 L) y)). rewrite B, D, !mult_IZR. apply Rmult_le_compat_l; [lra|]. apply IZR_le. apply Zrnd_le; [apply valid_rnd_N|lra].
  - apply (times_const_mono (f32_lit 1745329251994 (-14))); [reflexivity|]. unfold f32_lit; vm_compute; lra.
  - apply (times_const_mono (f32_lit 572957795130823 (-13))); [reflexivity|]. unfold f32_lit; vm_compute; lra.
  - intros x y (Nx & Ny & H) Mx My. split; [exact Mx|]. split; [exact My|]. pose proof (C17_sign_pf L x) as (X1 & X2 & X3 & _). pose proof (C17_sign_pf L y) as (Y1 & Y2 & Y3 & _).
    unfold ieee_lt, ieee_eq in *. change (f32_lit 0 0) with (B754_zero false : f32) in *. change (xr (B754_zero false)) with 0 in *. cbn [is_nan] in *.
    destruct (Rtotal_order (xr x) 0) as [A|[A|A]]; destruct (Rtotal_order (xr y) 0) as [B|[B|B]]; try (exfalso; lra).
    all: try (destruct (X1 (conj Nx (conj eq_refl A))) as [-> _]); try (destruct (X2 (conj Nx (conj eq_refl A))) as [-> _]); try (destruct (X3 (conj eq_refl (conj Nx A))) as [-> _]).
    all: try (destruct (Y1 (conj Ny (conj eq_refl B))) as [-> _]); try (destruct (Y2 (conj Ny (conj eq_refl B))) as [-> _]); try (destruct (Y3 (conj eq_refl (conj Ny B))) as [-> _]); try lra.
  - intros x y (Nx & Ny & H) Mx My. split; [exact Mx|]. split; [exact My|]. pose proof (C17_sign_pf L x) as (X1 & X2 & X3 & _). pose proof (C17_sign_pf L y) as (Y1 & Y2 & Y3 & _).
    unfold ieee_lt, ieee_eq in *. change (f32_lit 0 0) with (B754_zero false : f32) in *. change (xr (B754_zero false)) with 0 in *. cbn [is_nan] in *.
    destruct (Rtotal_order (xr x) 0) as [A|[A|A]]; destruct (Rtotal_order (xr y) 0) as [B|[B|B]]; try (exfalso; lra).
    all: try (destruct (X1 (conj Nx (conj eq_refl A))) as [_ ->]); try (destruct (X2 (conj Nx (conj eq_refl A))) as [_ ->]); try (destruct (X3 (conj eq_refl (conj Nx A))) as [_ ->]).
    all: try (destruct (Y1 (conj Ny (conj eq_refl B))) as [_ ->]); try (destruct (Y2 (conj Ny (conj eq_refl B))) as [_ ->]); try (destruct (Y3 (conj eq_refl (conj Ny B))) as [_ ->]); try lra.
  - intros z Nz. split; [|split].
    + intros x y (Nx & Ny & H) Mx My. split; [exact Mx|]. split; [exact My|]. rewrite !xr_min by trivial. apply Rle_min_compat_r. exact H.
    + intros x y (Nx & Ny & H) Mx My. split; [exact Mx|]. split; [exact My|]. rewrite !xr_max by trivial. apply Rle_max_compat_r. exact H.
    + intros x y (Nx & Ny & H) Mx My. split; [exact Mx|]. split; [exact My|]. unfold step_f. cbn [slt F32 slit].
      rewrite !Bltb_xr by trivial. destruct (Rlt_bool_spec (xr x) (xr z)); destruct (Rlt_bool_spec (xr y) (xr z)); try lra.
      * change (xr (f32_lit 0 0) <= xr (f32_lit 1 0)). rewrite xr_0, xr_1. lra.
  - intros lo hi (Nl & Nh & Hlh) x y (Nx & Ny & H) Mx My. split; [exact Mx|]. split; [exact My|]. unfold clamp_f.
    rewrite !xr_min, !xr_max by (trivial; now apply max_f_nn). apply Rle_min_compat_r, Rle_max_compat_r. exact H.
Qed.
(** inversesqrt reverses the order of positive numbers *)
Lemma C81_inversesqrt_pf : forall (L : Libm) (x y : f32), 0 < b2r x -> ieee_le x y -> ieee_le (inversesqrt_f (F32 L) y) (inversesqrt_f (F32 L) x).
Proof.
  intros L x y P (Nx & Ny & H). assert (Fx : finite x) by (destruct x; try reflexivity; cbn in P; lra). rewrite (xr_finite x Fx) in H.
  pose proof (C28_inversesqrt_pf L x) as X. cbv zeta in X. destruct X as (X & _). destruct (X Fx P) as [FX _]. clear X.
  destruct (fin_cases y) as [[Fy|[s ->]]|K]; [| |congruence].
  - rewrite (xr_finite y Fy) in H. assert (Py : 0 < b2r y) by lra.
    pose proof (C28_inversesqrt_pf L y) as Y. cbv zeta in Y. destruct Y as (Y & _). destruct (Y Fy Py) as [FY _]. clear Y.
    split; [now apply finite_nn|]. split; [now apply finite_nn|]. rewrite (xr_finite _ FX), (xr_finite _ FY).
    change (b2r (Bdiv mode_NE (f32_lit 1 0) (Bsqrt mode_NE y)) <= b2r (Bdiv mode_NE (f32_lit 1 0) (Bsqrt mode_NE x))).
    pose proof (sqrt_range x P) as [X1 X2]. pose proof (sqrt_range y Py) as [Y1 Y2]. pose proof (bpow_gt_0 radix2 (-75)) as B0.
    destruct (finite_sqrt x Fx ltac:(lra)) as [SX _]. destruct (finite_sqrt y Fy ltac:(lra)) as [SY _].
    rewrite (div_inv (f32_lit 1 0) _ fin_lit1 SX ltac:(lra) FX), (div_inv (f32_lit 1 0) _ fin_lit1 SY ltac:(lra) FY). apply rnd_mono. rewrite b2r_lit1.
    apply Rmult_le_compat_l; [lra|]. apply Rinv_le_contravar; [lra|]. rewrite !b2r_sqrt. apply rnd_mono, sqrt_le_1_alt. lra.
  - destruct s; [exfalso; cbn [xr] in H; pose proof big_pos; lra|].
    change (inversesqrt_f (F32 L) (B754_infinity false)) with (B754_zero false : f32). split; [reflexivity|]. split; [now apply finite_nn|]. rewrite (xr_finite _ FX).
    change (0 <= b2r (Bdiv mode_NE (f32_lit 1 0) (Bsqrt mode_NE x))). pose proof (sqrt_range x P) as [X1 X2]. pose proof (bpow_gt_0 radix2 (-75)) as B0.
    destruct (finite_sqrt x Fx ltac:(lra)) as [SX _]. rewrite (div_inv (f32_lit 1 0) _ fin_lit1 SX ltac:(lra) FX), b2r_lit1. apply rnd_pos. apply Rlt_le. apply Rdiv_lt_0_compat; lra.
Qed.
(** mix(x, y, t) moves from x towards y as t grows and never steps back *)
Lemma C81_mix_pf : forall (L : Libm) (x y t t' : f32), finite (mix_f (F32 L) x y t) -> finite (mix_f (F32 L) x y t') -> b2r t <= b2r t' ->
  (b2r x <= b2r y -> b2r (mix_f (F32 L) x y t) <= b2r (mix_f (F32 L) x y t')) /\
  (b2r y <= b2r x -> b2r (mix_f (F32 L) x y t') <= b2r (mix_f (F32 L) x y t)) /\
  (b2r x <= b2r y -> 0 <= b2r t -> b2r x <= b2r (mix_f (F32 L) x y t)) /\
  (b2r y <= b2r x -> 0 <= b2r t -> b2r (mix_f (F32 L) x y t) <= b2r x).
Proof.
  intros L x y t t' F F' H.
  change (finite (Bplus mode_NE x (Bmult mode_NE t (Bminus mode_NE y x)))) in F. change (finite (Bplus mode_NE x (Bmult mode_NE t' (Bminus mode_NE y x)))) in F'.
  change (mix_f (F32 L) x y t) with (Bplus mode_NE x (Bmult mode_NE t (Bminus mode_NE y x))). change (mix_f (F32 L) x y t') with (Bplus mode_NE x (Bmult mode_NE t' (Bminus mode_NE y x))).
  apply plus_inv in F as (Fx & F & ->). apply plus_inv in F' as (_ & F' & ->). apply mult_inv in F as (Ft & F & ->). apply mult_inv in F' as (_ & F' & ->).
  apply minus_inv in F as (_ & _ & ->).
  assert (P : b2r x <= b2r y -> 0 <= rnd (b2r y - b2r x)) by (intros; apply rnd_pos; lra).
  assert (N : b2r y <= b2r x -> rnd (b2r y - b2r x) <= 0) by (intros; rewrite <- rnd_0; apply rnd_mono; lra).
  split; [|split; [|split]].
  - intros A. specialize (P A). apply rnd_mono, Rplus_le_compat_l, rnd_mono. nra.
  - intros A. specialize (N A). apply rnd_mono, Rplus_le_compat_l, rnd_mono. nra.
  - intros A T. specialize (P A). apply rnd_ge_fmt; [apply fmt_b2r|]. assert (0 <= rnd (b2r t * rnd (b2r y - b2r x))) by (apply rnd_pos; nra). lra.
  - intros A T. specialize (N A). apply rnd_le_fmt; [apply fmt_b2r|]. assert (rnd (b2r t * rnd (b2r y - b2r x)) <= 0) by (rewrite <- rnd_0; apply rnd_mono; nra). lra.
Qed.
(** smoothstep is not monotone in binary32: near 0.9 one step of x upwards lowers the result *)
Lemma C81_smoothstep_refuted_pf : exists x y : f32, ieee_lt x y /\
  ieee_lt (smoothstep_f (F32 L0) (f32_lit 0 0) (f32_lit 1 0) y) (smoothstep_f (F32 L0) (f32_lit 0 0) (f32_lit 1 0) x).
Proof.
  exists (f32_lit 9000001549720764 (-16)), (f32_lit 9000002145767212 (-16)). split; apply Bltb_ieee; vm_compute; reflexivity.
Qed.

(** ** Lengths *)
Definition rises (x y : f32) : Prop := nonneg x /\ nonneg y /\ xr x <= xr y.
Lemma sum_mono (x x' y y' : f32) : rises x x' -> rises y y' -> rises (Bplus mode_NE x y) (Bplus mode_NE x' y').
Proof.
  intros (A & A' & H) (B & B' & K). unfold rises. destruct (nn_add x y A B) as [C ->]. destruct (nn_add x' y' A' B') as [D ->]. split; [exact C|]. split; [exact D|]. apply clip_mono, rnd_mono. lra.
Qed.
Lemma sq_mono (x y : f32) : is_nan x = false /\ is_nan y = false /\ Rabs (xr x) <= Rabs (xr y) -> rises (Bmult mode_NE x x) (Bmult mode_NE y y).
Proof.
  intros (Nx & Ny & H). unfold rises. destruct (nn_sq x Nx) as [A ->]. destruct (nn_sq y Ny) as [B ->]. split; [exact A|]. split; [exact B|]. apply clip_mono, rnd_mono. apply Rmult_le_compat; trivial; apply Rabs_pos.
Qed.
Lemma sqrt_rises (x y : f32) : rises x y -> ieee_le (Bsqrt mode_NE x) (Bsqrt mode_NE y).
Proof. intros (A & B & C). now apply nn_sqrt. Qed.
Ltac unlist := repeat match goal with K : Forall2 _ ?a ?b |- _ => (let a' := eval cbv in a in let b' := eval cbv in b in change a with a' in K; change b with b' in K); inversion K; clear K; subst end.
(** the length grows with the absolute values of the components, infinities and overflow included *)
Lemma C81_length_pf : forall L : Libm, length_monotone l2 (length2 (F32 L)) /\ length_monotone l3 (length3 (F32 L)) /\
  length_monotone l4 (length4 (F32 L)) /\ length_monotone lq (length_q (F32 L)).
Proof.
  intros L. split; [|split; [|split]].
  - intros [a b] [a' b'] H. unlist. apply sqrt_rises. repeat first [apply sq_mono; assumption | apply sum_mono].
  - intros [a b c] [a' b' c'] H. unlist. apply sqrt_rises. repeat first [apply sq_mono; assumption | apply sum_mono].
  - intros [a b c d] [a' b' c' d'] H. unlist. apply sqrt_rises. repeat first [apply sq_mono; assumption | apply sum_mono].
  - intros [a b c d] [a' b' c' d'] H. unlist. apply sqrt_rises. repeat first [apply sq_mono; assumption | apply sum_mono].
Qed.
(** every square is at most the sum *)
Lemma sum_of_squares (x y : f32) : finite (Bplus mode_NE x y) -> 0 <= b2r x -> 0 <= b2r y -> b2r x <= b2r (Bplus mode_NE x y) /\ b2r y <= b2r (Bplus mode_NE x y).
Proof.
  intros F A B. apply plus_inv in F as (Fx & Fy & ->). split; (apply rnd_ge_fmt; [apply fmt_b2r|lra]).
Qed.
Definition includes (l : list f32) (s : f32) : Prop := finite s -> 0 <= b2r s /\ Forall (fun x => rnd (b2r x * b2r x) <= b2r s) l.
Lemma inc_sq (x : f32) : includes [x] (Bmult mode_NE x x).
Proof.
  intros F. apply mult_inv in F as (Fx & _ & E). rewrite E. split; [apply rnd_pos; nra|]. apply Forall_cons; [lra|apply Forall_nil].
Qed.
Lemma inc_add l k (x y : f32) : includes l x -> includes k y -> includes (l ++ k) (Bplus mode_NE x y).
Proof.
  intros A B F. pose proof F as F0. apply plus_inv in F as (Fx & Fy & E). destruct (A Fx) as [Px Qx]. destruct (B Fy) as [Py Qy]. destruct (sum_of_squares x y F0 Px Py) as [H K].
  split; [rewrite E; apply rnd_pos; lra|]. apply Forall_app. split; (eapply Forall_impl; [|eassumption]); cbn; intros; lra.
Qed.
Lemma normal_126 d : / IZR (2 ^ 126) <= d -> bpow radix2 (-126) <= d. Proof. intros H. exact H. Qed.
Lemma dominates {V} comps (sq len : V -> f32) : (forall v, len v = Bsqrt mode_NE (sq v)) -> (forall v, includes (comps v) (sq v)) -> length_dominates comps sq len.
Proof.
  intros E I v F N. rewrite E. destruct (I v F) as [P Q]. split; [exact (proj1 (finite_sqrt (sq v) F P))|]. unfold bounded_by. rewrite b2r_sqrt.
  eapply Forall_impl; [|exact Q]. cbn. intros x H. apply below_sqrt; [apply fmt_b2r|exact (normal_126 _ N)|exact H].
Qed.
Lemma inc2 (a b : f32) : includes [a; b] (Bplus mode_NE (Bmult mode_NE a a) (Bmult mode_NE b b)).
Proof. apply (inc_add [a] [b]); apply inc_sq. Qed.
Lemma inc3 (a b c : f32) : includes [a; b; c] (Bplus mode_NE (Bplus mode_NE (Bmult mode_NE a a) (Bmult mode_NE b b)) (Bmult mode_NE c c)).
Proof. apply (inc_add [a; b] [c]); [apply inc2|apply inc_sq]. Qed.
Lemma inc4 (a b c d : f32) : includes [a; b; c; d] (Bplus mode_NE (Bplus mode_NE (Bplus mode_NE (Bmult mode_NE a a) (Bmult mode_NE b b)) (Bmult mode_NE c c)) (Bmult mode_NE d d)).
Proof. apply (inc_add [a; b; c] [d]); [apply inc3|apply inc_sq]. Qed.
(** No component exceeds the computed length in absolute value. *)
Lemma C82_dominates_pf : forall L : Libm,
  length_dominates l2 (length2_2 (F32 L)) (length2 (F32 L)) /\ length_dominates l3 (length2_3 (F32 L)) (length3 (F32 L)) /\
  length_dominates l4 (length2_4 (F32 L)) (length4 (F32 L)) /\ length_dominates lq (length2_q (F32 L)) (length_q (F32 L)).
Proof.
  intros L. split; [|split; [|split]]; (apply dominates; [reflexivity|]).
  - intros [a b]. apply inc2.
  - intros [a b c]. apply inc3.
  - intros [a b c d]. apply inc4.
  - intros [x y z w]. apply inc4.
Qed.
(** ** One nonzero component *)
Lemma sq_val (x : f32) : finite x -> Rabs (b2r x) < IZR (2 ^ 63) -> finite (Bmult mode_NE x x) /\ b2r (Bmult mode_NE x x) = rnd (b2r x * b2r x).
Proof.
  intros F H. apply mult_ok; trivial. apply Rle_lt_trans with (bpow radix2 126); [|apply bpow_lt; lia]. apply rnd_abs_le; [apply fmt_bpow; lia|].
  rewrite Rabs_mult. replace (bpow radix2 126) with (IZR (2 ^ 63) * IZR (2 ^ 63)) by (rewrite <- mult_IZR; reflexivity). apply Rmult_le_compat; try apply Rabs_pos; lra.
Qed.
Lemma sq_zero (x : f32) : finite x -> b2r x = 0 -> finite (Bmult mode_NE x x) /\ b2r (Bmult mode_NE x x) = 0.
Proof. intros F H. destruct (sq_val x F) as [A B]; [rewrite H, Rabs_R0; now apply IZR_lt|]. split; [exact A|]. rewrite B, H, Rmult_0_l. apply rnd_0. Qed.
Lemma sum_zero_r (x y : f32) r : finite x /\ b2r x = r -> finite y /\ b2r y = 0 -> finite (Bplus mode_NE x y) /\ b2r (Bplus mode_NE x y) = r.
Proof.
  intros [Fx Ex] [Fy Ey]. destruct (plus_ok x y Fx Fy) as [A B]; rewrite ?Ey, ?Rplus_0_r, ?rnd_b2r in *; [apply Rabs_def1; apply b2r_lt_big|]. split; [exact A|]. now rewrite B.
Qed.
Lemma sum_zero_l (x y : f32) r : finite x /\ b2r x = 0 -> finite y /\ b2r y = r -> finite (Bplus mode_NE x y) /\ b2r (Bplus mode_NE x y) = r.
Proof.
  intros [Fx Ex] [Fy Ey]. destruct (plus_ok x y Fx Fy) as [A B]; rewrite ?Ex, ?Rplus_0_l, ?rnd_b2r in *; [apply Rabs_def1; apply b2r_lt_big|]. split; [exact A|]. now rewrite B.
Qed.
Definition single (l : list f32) (s : f32) : Prop := forall k, all_finite l -> (forall i, i <> k -> nth i (vals l) 0 = 0) -> let x := nth k (vals l) 0 in
  Rabs x < IZR (2 ^ 63) -> finite s /\ b2r s = rnd (x * x).
Lemma nth_all_zero (l : list R) k : (forall i, i <> k -> nth i l 0 = 0) -> nth k l 0 = 0 -> forall i, nth i l 0 = 0.
Proof. intros H K i. destruct (Nat.eq_dec i k) as [->|N]; auto. Qed.
Lemma single_sq (x : f32) : single [x] (Bmult mode_NE x x).
Proof.
  intros k F Z y H. apply Forall_cons_iff in F as [F _]. destruct k as [|k].
  - now apply sq_val.
  - specialize (Z 0%nat ltac:(lia)). cbn in Z. destruct (sq_zero x F Z) as [A B]. split; [exact A|]. rewrite B. unfold y. destruct k; cbn; now rewrite Rmult_0_l, rnd_0.
Qed.
Lemma single_add l (x s : f32) : single l s -> single (l ++ [x]) (Bplus mode_NE s (Bmult mode_NE x x)).
Proof.
  intros I k F Z y H. apply Forall_app in F as [Fl Fx]. apply Forall_cons_iff in Fx as [Fx _]. assert (Ey : y = nth k (map (fun x => b2r x) l ++ [b2r x]) 0) by (unfold y, vals; now rewrite map_app). clearbody y. unfold vals in Z. rewrite map_app in Z. cbn [map] in Z. set (n := length (map (fun x => b2r x) l)) in *.
  destruct (Nat.lt_trichotomy k n) as [K|[K|K]].
  - assert (Y : y = nth k (map (fun x => b2r x) l) 0) by (rewrite Ey; apply app_nth1; exact K).
    assert (X0 : b2r x = 0). { specialize (Z n ltac:(lia)). rewrite app_nth2, Nat.sub_diag in Z by apply le_n. exact Z. }
    apply sum_zero_r; [|now apply sq_zero]. rewrite Y in *. apply (I k Fl); [|exact H]. intros i Hi.
    destruct (Nat.lt_ge_cases i n) as [G|G]; [pose proof (Z i Hi) as Zi; rewrite app_nth1 in Zi by exact G; exact Zi|apply nth_overflow; exact G].
  - assert (Y : y = b2r x) by (rewrite Ey, app_nth2 by (unfold n in *; lia); subst k; now rewrite Nat.sub_diag).
    rewrite Y in *. apply sum_zero_l; [|now apply sq_val]. destruct (I n Fl) as [A B].
    + intros i Hi. destruct (Nat.lt_ge_cases i n) as [G|G]; [pose proof (Z i ltac:(lia)) as Zi; rewrite app_nth1 in Zi by exact G; exact Zi|apply nth_overflow; exact G].
    + unfold vals. rewrite nth_overflow by (unfold n; lia). rewrite Rabs_R0. now apply IZR_lt.
    + split; [exact A|]. rewrite B. unfold vals. rewrite nth_overflow by (unfold n; lia). rewrite Rmult_0_l. apply rnd_0.
  - assert (Y : y = 0) by (rewrite Ey; apply nth_overflow; rewrite app_length; fold n; cbn; lia).
    assert (X0 : b2r x = 0). { specialize (Z n ltac:(lia)). rewrite app_nth2, Nat.sub_diag in Z by apply le_n. exact Z. }
    rewrite Y, Rmult_0_l, rnd_0 in *. apply sum_zero_r; [|now apply sq_zero]. destruct (I k Fl) as [A B].
    + intros i Hi. destruct (Nat.lt_ge_cases i n) as [G|G]; [pose proof (Z i Hi) as Zi; rewrite app_nth1 in Zi by exact G; exact Zi|apply nth_overflow; exact G].
    + unfold vals. rewrite nth_overflow by (fold n; lia). rewrite Rabs_R0. now apply IZR_lt.
    + split; [exact A|]. rewrite B. unfold vals. rewrite nth_overflow by (fold n; lia). rewrite Rmult_0_l. apply rnd_0.
Qed.
Lemma axis_by {V} comps (sq len : V -> f32) : (forall v, len v = Bsqrt mode_NE (sq v)) -> (forall v, single (comps v) (sq v)) -> axis_length comps len.
Proof.
  intros E I v k F Z x [H1 H2]. rewrite E. destruct (I v k F Z H2) as [A B]. fold x in B. split.
  - apply (proj1 (finite_sqrt (sq v) A ltac:(rewrite B; apply rnd_pos; nra))).
  - rewrite b2r_sqrt, B. replace (x * x) with (Rabs x * Rabs x) by (rewrite <- Rabs_mult; apply Rabs_pos_eq; nra).
    apply sqrt_sq; [apply Rabs_pos| |right; exact H1]. unfold fmt. apply generic_format_abs. unfold x, vals.
    destruct (Nat.lt_ge_cases k (length (comps v))) as [G|G].
    + rewrite (nth_indep _ 0 (b2r (B754_zero false))) by (now rewrite map_length). rewrite (map_nth (fun x => b2r x)). apply fmt_b2r.
    + rewrite nth_overflow by (now rewrite map_length). apply fmt_0.
Qed.
(** The length of a vector along an axis is exactly the absolute value of its component. *)
Lemma C82_axis_pf : forall L : Libm, axis_length l2 (length2 (F32 L)) /\ axis_length l3 (length3 (F32 L)) /\ axis_length l4 (length4 (F32 L)) /\ axis_length lq (length_q (F32 L)).
Proof.
  intros L. split; [|split; [|split]].
  - apply (axis_by l2 (length2_2 (F32 L))); [reflexivity|]. intros [a b]. apply (single_add [a]), single_sq.
  - apply (axis_by l3 (length2_3 (F32 L))); [reflexivity|]. intros [a b c]. apply (single_add [a; b]), (single_add [a]), single_sq.
  - apply (axis_by l4 (length2_4 (F32 L))); [reflexivity|]. intros [a b c d]. apply (single_add [a; b; c]), (single_add [a; b]), (single_add [a]), single_sq.
  - apply (axis_by lq (length2_q (F32 L))); [reflexivity|]. intros [a b c d]. cbv -[Bplus Bmult single]. apply (single_add [_; _; _]), (single_add [_; _]), (single_add [_]), single_sq.
Qed.
(** ** Components of normalized vectors *)
Lemma normalized_comp (x s : f32) : finite s -> bpow radix2 (-126) <= b2r s -> finite x -> Rabs (b2r x) <= b2r (Bsqrt mode_NE s) ->
  finite (Bmult mode_NE x (Bdiv mode_NE (f32_lit 1 0) (Bsqrt mode_NE s))) /\ Rabs (b2r (Bmult mode_NE x (Bdiv mode_NE (f32_lit 1 0) (Bsqrt mode_NE s)))) <= 1.
Proof.
  intros F N Fx H. pose proof (bpow_gt_0 radix2 (-126)) as P. pose proof (sqrt_range s ltac:(lra)) as [A B]. pose proof (bpow_gt_0 radix2 (-75)) as P'.
  destruct (finite_sqrt s F ltac:(lra)) as [Fs _]. set (l := Bsqrt mode_NE s) in *.
  assert (I : 0 < / b2r l) by (apply Rinv_0_lt_compat; lra).
  assert (U : / b2r l <= bpow radix2 75) by (replace (bpow radix2 75) with (/ bpow radix2 (-75)) by (rewrite <- bpow_opp; reflexivity); apply Rinv_le_contravar; lra).
  destruct (div_ok (f32_lit 1 0) l fin_lit1 Fs ltac:(lra)) as [Fr Er].
  { rewrite b2r_lit1. replace (1 / b2r l) with (/ b2r l) by (field; lra). apply Rle_lt_trans with (bpow radix2 75); [|now apply bpow_lt]. apply rnd_abs_le; [apply fmt_bpow; lia|]. rewrite Rabs_pos_eq; lra. }
  rewrite b2r_lit1 in Er. replace (1 / b2r l) with (/ b2r l) in Er by (field; lra).
  pose proof (times_rcp (b2r x) (b2r l) H (conj A B)) as T. rewrite <- Er in T.
  destruct (mult_ok x (Bdiv mode_NE (f32_lit 1 0) l) Fx Fr) as [G1 G2]; [eapply Rle_lt_trans; [exact T|apply one_lt_big]|]. split; [exact G1|]. now rewrite G2.
Qed.
Lemma divided_comp (x l : f32) : finite x -> finite l -> 0 < b2r l -> Rabs (b2r x) <= b2r l -> finite (Bdiv mode_NE x l) /\ Rabs (b2r (Bdiv mode_NE x l)) <= 1.
Proof.
  intros Fx Fl P H. assert (T : Rabs (rnd (b2r x / b2r l)) <= 1).
  { apply rnd_abs_le; [apply fmt_1|]. unfold Rdiv. rewrite Rabs_mult, (Rabs_pos_eq (/ _)) by (left; now apply Rinv_0_lt_compat). apply Rmult_le_reg_r with (b2r l); [exact P|]. rewrite Rmult_assoc, Rinv_l by lra. lra. }
  destruct (div_ok x l Fx Fl ltac:(lra)) as [A B]; [eapply Rle_lt_trans; [exact T|apply one_lt_big]|]. split; [exact A|]. now rewrite B.
Qed.
Lemma unit_by {V} comps (sq : V -> f32) (nrm : V -> V) (f : V -> f32 -> f32) : (forall v, includes (comps v) (sq v)) -> (forall v, finite (sq v) -> all_finite (comps v)) ->
  (forall v, comps (nrm v) = map (f v) (comps v)) ->
  (forall v x, finite (sq v) -> bpow radix2 (-126) <= b2r (sq v) -> finite x -> Rabs (b2r x) <= b2r (Bsqrt mode_NE (sq v)) -> finite (f v x) /\ Rabs (b2r (f v x)) <= 1) ->
  unit_range comps sq nrm.
Proof.
  intros I A E H v F N. apply normal_126 in N. rewrite E. destruct (I v F) as [_ Q]. specialize (A v F).
  assert (D : Forall (fun x => finite (f v x) /\ Rabs (b2r (f v x)) <= 1) (comps v)).
  { apply Forall_forall. intros x Hx. apply H; trivial; [exact (proj1 (Forall_forall _ _) A x Hx)|]. rewrite b2r_sqrt. apply below_sqrt; [apply fmt_b2r|exact N|]. exact (proj1 (Forall_forall _ _) Q x Hx). }
  split; apply Forall_map; (eapply Forall_impl; [|exact D]); cbn; tauto.
Qed.
Ltac parts := repeat match goal with
  | F : finite (Bplus mode_NE ?x ?y) |- _ => apply plus_inv in F as (? & ? & _)
  | F : finite (Bmult mode_NE ?x ?y) |- _ => apply mult_inv in F as (? & _ & _) end; repeat apply Forall_cons; try apply Forall_nil; assumption.
(** Every component of a normalized vector or quaternion lies between -1 and 1, so it is in the domain of acos and asin. *)
Lemma C82_normalize_pf : forall L : Libm,
  unit_range l2 (length2_2 (F32 L)) (normalize2 (F32 L)) /\ unit_range l3 (length2_3 (F32 L)) (normalize3 (F32 L)) /\
  unit_range l4 (length2_4 (F32 L)) (normalize4 (F32 L)) /\ unit_range lq (length2_q (F32 L)) (normalize_q (F32 L)).
Proof.
  intros L. split; [|split; [|split]].
  - apply (unit_by l2 _ _ (fun v x => Bmult mode_NE x (Bdiv mode_NE (f32_lit 1 0) (Bsqrt mode_NE (length2_2 (F32 L) v))))).
    + intros [a b]. apply inc2.
    + intros [a b] F. cbv -[Bplus Bmult finite] in F. parts.
    + intros [a b]. reflexivity.
    + intros v x F N Fx H. now apply normalized_comp.
  - apply (unit_by l3 _ _ (fun v x => Bmult mode_NE x (Bdiv mode_NE (f32_lit 1 0) (Bsqrt mode_NE (length2_3 (F32 L) v))))).
    + intros [a b c]. apply inc3.
    + intros [a b c] F. cbv -[Bplus Bmult finite] in F. parts.
    + intros [a b c]. reflexivity.
    + intros v x F N Fx H. now apply normalized_comp.
  - apply (unit_by l4 _ _ (fun v x => Bmult mode_NE x (Bdiv mode_NE (f32_lit 1 0) (Bsqrt mode_NE (length2_4 (F32 L) v))))).
    + intros [a b c d]. apply inc4.
    + intros [a b c d] F. cbv -[Bplus Bmult finite] in F. parts.
    + intros [a b c d]. reflexivity.
    + intros v x F N Fx H. now apply normalized_comp.
  - apply (unit_by lq _ _ (fun v x => Bdiv mode_NE x (Bsqrt mode_NE (length2_q (F32 L) v)))).
    + intros [a b c d]. apply inc4.
    + intros [a b c d] F. cbv -[Bplus Bmult finite] in F. parts.
    + intros [a b c d]. reflexivity.
    + intros v x F N Fx H. pose proof (bpow_gt_0 radix2 (-126)) as P. pose proof (bpow_gt_0 radix2 (-75)) as P'. pose proof (sqrt_range (length2_q (F32 L) v) ltac:(lra)) as [A B].
      apply divided_comp; trivial; [|lra]. exact (proj1 (finite_sqrt _ F ltac:(lra))).
Qed.
Ltac pieces := repeat match goal with
  | F : finite (Bplus mode_NE ?x ?y) |- _ => apply plus_inv in F as (? & ? & _)
  | F : finite (Bmult mode_NE ?x ?y) |- _ => apply mult_inv in F as (? & _ & _)
  | F : finite (Bminus mode_NE ?x ?y) |- _ => apply minus_inv in F as (_ & _ & F) end.
Lemma dist_rows (d : R) (l l' : list f32) : Forall (fun x => Rabs (b2r x) <= d) (map (fun p => Bminus mode_NE (fst p) (snd p)) (combine l l')) ->
  all_finite (map (fun p => Bminus mode_NE (fst p) (snd p)) (combine l l')) -> length l = length l' -> Forall2 (fun x y => Rabs (rnd (b2r x - b2r y)) <= d) l l'.
Proof.
  revert l'. induction l as [|x l IH]; intros [|y l'] Q F E; try discriminate E; [apply Forall2_nil|]. cbn [combine map] in Q, F. apply Forall_cons_iff in Q as [Q1 Q2]. apply Forall_cons_iff in F as [F1 F2].
  cbn [fst snd] in *. apply Forall2_cons; [|apply IH; trivial; now injection E]. apply minus_inv in F1 as (_ & _ & F1). now rewrite <- F1.
Qed.
Ltac dparts Fs := cbn [combine map fst snd]; repeat match type of Fs with finite (Bplus mode_NE _ _) => let G := fresh in apply plus_inv in Fs as (Fs & G & _); apply mult_inv in G as (G & _ & _) end; apply mult_inv in Fs as (Fs & _ & _);
  repeat apply Forall_cons; try apply Forall_nil; assumption.
(** The distance is at least the absolute value of every rounded coordinate difference. *)
Lemma C82_distance_pf : forall L : Libm,
  (forall u v, let d := distance2 (F32 L) u v in finite d -> / IZR (2 ^ 62) <= b2r d -> Forall2 (fun x y => Rabs (rnd (b2r x - b2r y)) <= b2r d) (l2 u) (l2 v)) /\
  (forall u v, let d := distance3 (F32 L) u v in finite d -> / IZR (2 ^ 62) <= b2r d -> Forall2 (fun x y => Rabs (rnd (b2r x - b2r y)) <= b2r d) (l3 u) (l3 v)) /\
  (forall u v, let d := distance4 (F32 L) u v in finite d -> / IZR (2 ^ 62) <= b2r d -> Forall2 (fun x y => Rabs (rnd (b2r x - b2r y)) <= b2r d) (l4 u) (l4 v)).
Proof.
  intros L.
  assert (K : forall l s, includes l s -> finite (Bsqrt mode_NE s) -> / IZR (2 ^ 62) <= b2r (Bsqrt mode_NE s) -> Forall (fun x => Rabs (b2r x) <= b2r (Bsqrt mode_NE s)) l).
  { intros l s I F N. pose proof (sqrt_arg_finite s F) as Fs. destruct (I Fs) as [P Q]. rewrite b2r_sqrt in *.
    assert (N' : bpow radix2 (-126) <= b2r s).
    { destruct (Rle_or_lt (bpow radix2 (-126)) (b2r s)) as [G|G]; [exact G|exfalso].
      assert (rnd (sqrt (b2r s)) <= bpow radix2 (-63)).
      { apply rnd_le_fmt; [apply fmt_bpow; lia|]. rewrite <- (sqrt_Rsqr (bpow radix2 (-63))) by apply bpow_ge_0. apply sqrt_le_1_alt. unfold Rsqr. rewrite <- bpow_plus. left. exact G. }
      assert (bpow radix2 (-63) < bpow radix2 (-62)) by (apply bpow_lt; lia). change (/ IZR (2 ^ 62)) with (bpow radix2 (-62)) in N. lra. }
    eapply Forall_impl; [|exact Q]. cbn. intros x H. apply below_sqrt; [apply fmt_b2r|exact N'|exact H]. }
  split; [|split].
  - intros [a b] [a' b'] d F N. change (finite (Bsqrt mode_NE (Bplus mode_NE (Bmult mode_NE (Bminus mode_NE a a') (Bminus mode_NE a a')) (Bmult mode_NE (Bminus mode_NE b b') (Bminus mode_NE b b'))))) in F. pose proof (K _ _ (inc2 (Bminus mode_NE a a') (Bminus mode_NE b b')) F N) as Q. pose proof (sqrt_arg_finite _ F) as Fs. clear F N. apply dist_rows; [exact Q| |reflexivity]. clear Q K. dparts Fs.
  - intros [a b c] [a' b' c'] d F N. change (finite (Bsqrt mode_NE (Bplus mode_NE (Bplus mode_NE (Bmult mode_NE (Bminus mode_NE a a') (Bminus mode_NE a a')) (Bmult mode_NE (Bminus mode_NE b b') (Bminus mode_NE b b'))) (Bmult mode_NE (Bminus mode_NE c c') (Bminus mode_NE c c'))))) in F. pose proof (K _ _ (inc3 (Bminus mode_NE a a') (Bminus mode_NE b b') (Bminus mode_NE c c')) F N) as Q. pose proof (sqrt_arg_finite _ F) as Fs. clear F N. apply dist_rows; [exact Q| |reflexivity]. clear Q K. dparts Fs.
  - intros [a b c e] [a' b' c' e'] d F N. change (finite (Bsqrt mode_NE (Bplus mode_NE (Bplus mode_NE (Bplus mode_NE (Bmult mode_NE (Bminus mode_NE a a') (Bminus mode_NE a a')) (Bmult mode_NE (Bminus mode_NE b b') (Bminus mode_NE b b'))) (Bmult mode_NE (Bminus mode_NE c c') (Bminus mode_NE c c'))) (Bmult mode_NE (Bminus mode_NE e e') (Bminus mode_NE e e'))))) in F. pose proof (K _ _ (inc4 (Bminus mode_NE a a') (Bminus mode_NE b b') (Bminus mode_NE c c') (Bminus mode_NE e e')) F N) as Q. pose proof (sqrt_arg_finite _ F) as Fs. clear F N. apply dist_rows; [exact Q| |reflexivity]. clear Q K. dparts Fs.
Qed.
(** Normalizing a vector along an axis need not give the unit vector of that axis: normalize(41, 0) = (0.99999994, 0);
    and below 2^-63 a component may exceed the length: length(2^-80, 0) = 0. *)
Lemma C82_axis_refuted_pf : forall L : Libm, let h := Bldexp mode_NE (f32_lit 1 0) (-80) in
  normalize2 (F32 L) (V2 (f32_ofZ 41) (f32_ofZ 0)) = V2 (f32_lit 999999940395355 (-15)) (f32_ofZ 0) /\
  b2r (f32_lit 999999940395355 (-15)) = 1 - / IZR (2 ^ 24) /\ 
  length2 (F32 L) (V2 h (f32_ofZ 0)) = f32_ofZ 0 /\ 0 < b2r h.
Proof.
  intros L h. split; [|split; [|split]].
  - change (V2 (Bmult mode_NE (f32_ofZ 41) (Bdiv mode_NE (f32_lit 1 0) (Bsqrt mode_NE (Bplus mode_NE (Bmult mode_NE (f32_ofZ 41) (f32_ofZ 41)) (Bmult mode_NE (f32_ofZ 0) (f32_ofZ 0))))))
      (Bmult mode_NE (f32_ofZ 0) (Bdiv mode_NE (f32_lit 1 0) (Bsqrt mode_NE (Bplus mode_NE (Bmult mode_NE (f32_ofZ 41) (f32_ofZ 41)) (Bmult mode_NE (f32_ofZ 0) (f32_ofZ 0)))))) = V2 (f32_lit 999999940395355 (-15)) (f32_ofZ 0)).
    apply (f_equal2 (@V2 f32)); apply f32_by_sf; vm_compute; reflexivity.
  - unfold f32_lit; vm_compute; lra.
  - change (Bsqrt mode_NE (Bplus mode_NE (Bmult mode_NE h h) (Bmult mode_NE (f32_ofZ 0) (f32_ofZ 0))) = f32_ofZ 0). apply f32_by_sf; vm_compute; reflexivity.
  - unfold h, f32_lit; vm_compute; lra.
Qed.
(*PROPS
(** (1, -2, 2) and (3, -4, 12) meet the hypotheses of the length laws; the axis vector (0, -41, 0) those of C82_axis *)
Definition od_u : vec3 f32 := V3 (f32_ofZ 1) (f32_ofZ (-2)) (f32_ofZ 2).
Definition od_v : vec3 f32 := V3 (f32_ofZ 3) (f32_ofZ (-4)) (f32_ofZ 12).
Lemma od_Z (n : Z) : (Z.abs n <=? 2 ^ 24)%Z = true -> is_nan (f32_ofZ n) = false -> is_finite (f32_ofZ n) = true -> Rabs (xr (f32_ofZ n)) = IZR (Z.abs n).
Proof. intros H _ F. rewrite xr_finite by exact F. change (Rabs (b2r (f32_ofZ n)) = IZR (Z.abs n)). rewrite ofZ_exact by exact H. symmetry. apply abs_IZR. Qed.
Example C81_case : Forall2 (fun x y => is_nan x = false /\ is_nan y = false /\ Rabs (xr x) <= Rabs (xr y)) (l3 od_u) (l3 od_v) /\
  grown [f32_ofZ 1; f32_ofZ 0] [f32_ofZ 2; f32_ofZ 0] /\ ieee_lt (length3 (F32 L0) od_u) (length3 (F32 L0) od_v).
Proof.
  split; [|split].
  - change (Forall2 (fun x y : f32 => is_nan x = false /\ is_nan y = false /\ Rabs (xr x) <= Rabs (xr y)) [f32_ofZ 1; f32_ofZ (-2); f32_ofZ 2] [f32_ofZ 3; f32_ofZ (-4); f32_ofZ 12]).
    repeat apply Forall2_cons; try apply Forall2_nil; (split; [reflexivity|]; split; [reflexivity|]; rewrite !od_Z by reflexivity; apply IZR_le; lia).
  - repeat apply Forall2_cons; try apply Forall2_nil; rewrite !ofZ_exact by reflexivity; lra.
  - apply Bltb_ieee. vm_compute. reflexivity.
Qed.
Example C82_case : finite (length2_3 (F32 L0) od_v) /\ b2r (length2_3 (F32 L0) od_v) = 169 /\ / IZR (2 ^ 126) <= 169 /\
  length3 (F32 L0) (V3 (f32_ofZ 0) (f32_ofZ (-41)) (f32_ofZ 0)) = f32_ofZ 41.
Proof.
  assert (E : length2_3 (F32 L0) od_v = f32_ofZ 169) by (apply f32_by_sf; vm_compute; reflexivity).
  split; [vm_compute; reflexivity|]. split; [rewrite E; now rewrite ofZ_exact|]. split.
  - apply Rle_trans with 1; [|lra]. rewrite <- Rinv_1. apply Rinv_le_contravar; [lra|]. apply IZR_le. discriminate.
  - apply f32_by_sf; vm_compute; reflexivity.
Qed.
PROPS*)
