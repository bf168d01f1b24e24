(** * Proofs: integers and fixed-point numbers are computed exactly *)
From Coq Require Import ZArith Bool Reals List Lra Lia.
From Flocq Require Import Core IEEE754.BinarySingleNaN.
From Verif Require Import Scalar IEEE32 RealInst Types Outcome Spec SpecR SpecMat SpecGeo SpecF32 SpecErr SpecGrid FloatBasics FloatOps
  ModelVec ModelCommon ModelGeom ModelMat ModelMatrix ModelQuat ModelQuaternion ModelComp ModelTransform ErrExpr ErrLib F32Tac.
Import ListNotations.
Local Open Scope R_scope.
(*HEADER END*)
From Verif Require Import ErrLib OvfLib PfErr PfInv GridLib.

Lemma exact_eq c d i o x x' : exact_on_grid c d i o x -> x = x' -> exact_on_grid c d i o x'.
Proof. now intros H <-. Qed.
Ltac exactly L l e c d :=
  match goal with |- exact_on_grid _ _ _ ?o _ =>
    let E := fresh "E" in assert (E : o = map (eval (F32 L) (env (B754_zero false) l)) e) by (redF; reflexivity);
    rewrite E; clear E; eapply exact_eq; [exact (exprs_exact L l e c d eq_refl)|ringR] end.

(** Every expression built from inputs, literals, one half, +, -, * and negation: inputs with s fractional bits, at most M
    in absolute value, give the exact result if it can have no more than 24 bits. *)
Lemma C79_expressions_pf : forall (L : Libm) (rho : nat -> f32) (e : expr) (s : nat) (M : R),
  lits_ok e = true -> 1 <= M -> (forall n, finite (rho n)) -> (forall n, Rabs (b2r (rho n)) <= M) -> (forall n, on_grid (Z.of_nat s) (b2r (rho n))) ->
  IZR (esize e) * M ^ degree e * IZR (2 ^ Z.of_nat (s * degree e + halves e)) <= IZR (2 ^ 24) ->
  finite (eval (F32 L) rho e) /\ b2r (eval (F32 L) rho e) = eval RS (fun n => b2r (rho n)) e.
Proof. intros L rho e s M Hl M1 HF HM HG B. apply (expression_exact L rho e s M); trivial. exact (exact_size s e M M1 B). Qed.

(** inner, cross and matrix products: n (2^s M)^2 <= 2^24 *)
Lemma C79_products_pf : forall L : Libm,
  (forall a b, exact_on_grid 2 2 (l2 a ++ l2 b) ([dot2 (F32 L) a b]) ([total (zip Rmult (vals (l2 a)) (vals (l2 b)))])) /\
  (forall a b, exact_on_grid 3 2 (l3 a ++ l3 b) ([dot3 (F32 L) a b]) ([total (zip Rmult (vals (l3 a)) (vals (l3 b)))])) /\
  (forall a b, exact_on_grid 4 2 (l4 a ++ l4 b) ([dot4 (F32 L) a b]) ([total (zip Rmult (vals (l4 a)) (vals (l4 b)))])) /\
  (forall a b, exact_on_grid 4 2 (lq a ++ lq b) ([dot_q (F32 L) a b]) ([total (zip Rmult (vals (lq a)) (vals (lq b)))])) /\
  (forall a b, exact_on_grid 2 2 (l3 a ++ l3 b) (l3 (cross (F32 L) a b)) (cross_l (vals (l3 a)) (vals (l3 b)))) /\
  (forall a b, exact_on_grid 2 2 (lm2 a ++ lm2 b) (lm2 (mat2_mul (F32 L) a b)) (mprod 2 (vals (lm2 a)) (vals (lm2 b)))) /\
  (forall a b, exact_on_grid 3 2 (lm3 a ++ lm3 b) (lm3 (mat3_mul (F32 L) a b)) (mprod 3 (vals (lm3 a)) (vals (lm3 b)))) /\
  (forall a b, exact_on_grid 4 2 (lm4 a ++ lm4 b) (lm4 (mat4_mul (F32 L) a b)) (mprod 4 (vals (lm4 a)) (vals (lm4 b)))) /\
  (forall a v, exact_on_grid 2 2 (lm2 a ++ l2 v) (l2 (mat2_mul_vec (F32 L) a v)) (mapply 2 (vals (lm2 a)) (vals (l2 v)))) /\
  (forall a v, exact_on_grid 3 2 (lm3 a ++ l3 v) (l3 (mat3_mul_vec (F32 L) a v)) (mapply 3 (vals (lm3 a)) (vals (l3 v)))) /\
  (forall a v, exact_on_grid 4 2 (lm4 a ++ l4 v) (l4 (mat4_mul_vec (F32 L) a v)) (mapply 4 (vals (lm4 a)) (vals (l4 v)))) /\
  (forall a v, exact_on_grid 2 2 (lm2 a ++ l2 v) (l2 (vec_mul_mat2 (F32 L) v a)) (mapply_l 2 (vals (l2 v)) (vals (lm2 a)))) /\
  (forall a v, exact_on_grid 3 2 (lm3 a ++ l3 v) (l3 (vec_mul_mat3 (F32 L) v a)) (mapply_l 3 (vals (l3 v)) (vals (lm3 a)))) /\
  (forall a v, exact_on_grid 4 2 (lm4 a ++ l4 v) (l4 (vec_mul_mat4 (F32 L) v a)) (mapply_l 4 (vals (l4 v)) (vals (lm4 a)))).
Proof.
  intros L.
  split; [intros [a0 a1] [b0 b1]; exactly L [a0; a1; b0; b1] ([dot2 ES (v2 0) (v2 2)]) 2%Z 2%nat|].
  split; [intros [a0 a1 a2] [b0 b1 b2]; exactly L [a0; a1; a2; b0; b1; b2] ([dot3 ES (v3 0) (v3 3)]) 3%Z 2%nat|].
  split; [intros [a0 a1 a2 a3] [b0 b1 b2 b3]; exactly L [a0; a1; a2; a3; b0; b1; b2; b3] ([dot4 ES (v4 0) (v4 4)]) 4%Z 2%nat|].
  split; [intros [a0 a1 a2 a3] [b0 b1 b2 b3]; exactly L [a0; a1; a2; a3; b0; b1; b2; b3] ([dot_q ES (vq 0) (vq 4)]) 4%Z 2%nat|].
  split; [intros [a0 a1 a2] [b0 b1 b2]; exactly L [a0; a1; a2; b0; b1; b2] (l3 (cross ES (v3 0) (v3 3))) 2%Z 2%nat|].
  split; [intros [[a0 a1] [a2 a3]] [[b0 b1] [b2 b3]]; exactly L [a0; a1; a2; a3; b0; b1; b2; b3] (lm2 (mat2_mul ES (vm2 0) (vm2 4))) 2%Z 2%nat|].
  split; [intros [[a0 a1 a2] [a3 a4 a5] [a6 a7 a8]] [[b0 b1 b2] [b3 b4 b5] [b6 b7 b8]]; exactly L [a0; a1; a2; a3; a4; a5; a6; a7; a8; b0; b1; b2; b3; b4; b5; b6; b7; b8] (lm3 (mat3_mul ES (vm3 0) (vm3 9))) 3%Z 2%nat|].
  split; [intros [[a0 a1 a2 a3] [a4 a5 a6 a7] [a8 a9 a10 a11] [a12 a13 a14 a15]] [[b0 b1 b2 b3] [b4 b5 b6 b7] [b8 b9 b10 b11] [b12 b13 b14 b15]]; exactly L [a0; a1; a2; a3; a4; a5; a6; a7; a8; a9; a10; a11; a12; a13; a14; a15; b0; b1; b2; b3; b4; b5; b6; b7; b8; b9; b10; b11; b12; b13; b14; b15] (lm4 (mat4_mul ES (vm4 0) (vm4 16))) 4%Z 2%nat|].
  split; [intros [[a0 a1] [a2 a3]] [b0 b1]; exactly L [a0; a1; a2; a3; b0; b1] (l2 (mat2_mul_vec ES (vm2 0) (v2 4))) 2%Z 2%nat|].
  split; [intros [[a0 a1 a2] [a3 a4 a5] [a6 a7 a8]] [b0 b1 b2]; exactly L [a0; a1; a2; a3; a4; a5; a6; a7; a8; b0; b1; b2] (l3 (mat3_mul_vec ES (vm3 0) (v3 9))) 3%Z 2%nat|].
  split; [intros [[a0 a1 a2 a3] [a4 a5 a6 a7] [a8 a9 a10 a11] [a12 a13 a14 a15]] [b0 b1 b2 b3]; exactly L [a0; a1; a2; a3; a4; a5; a6; a7; a8; a9; a10; a11; a12; a13; a14; a15; b0; b1; b2; b3] (l4 (mat4_mul_vec ES (vm4 0) (v4 16))) 4%Z 2%nat|].
  split; [intros [[a0 a1] [a2 a3]] [b0 b1]; exactly L [a0; a1; a2; a3; b0; b1] (l2 (vec_mul_mat2 ES (v2 4) (vm2 0))) 2%Z 2%nat|].
  split; [intros [[a0 a1 a2] [a3 a4 a5] [a6 a7 a8]] [b0 b1 b2]; exactly L [a0; a1; a2; a3; a4; a5; a6; a7; a8; b0; b1; b2] (l3 (vec_mul_mat3 ES (v3 9) (vm3 0))) 3%Z 2%nat|].
  intros [[a0 a1 a2 a3] [a4 a5 a6 a7] [a8 a9 a10 a11] [a12 a13 a14 a15]] [b0 b1 b2 b3]; exactly L [a0; a1; a2; a3; a4; a5; a6; a7; a8; a9; a10; a11; a12; a13; a14; a15; b0; b1; b2; b3] (l4 (vec_mul_mat4 ES (v4 16) (vm4 0))) 4%Z 2%nat.
Qed.
(** determinants and adjugates: n! (2^s M)^n and (n-1)! (2^s M)^(n-1) *)
Lemma C79_determinants_pf : forall L : Libm,
  (forall m, exact_on_grid 2 2 (lm2 m) ([determinant2 (F32 L) m]) ([leibniz 2 (vals (lm2 m))])) /\
  (forall m, exact_on_grid 6 3 (lm3 m) ([determinant3 (F32 L) m]) ([leibniz 3 (vals (lm3 m))])) /\
  (forall m, exact_on_grid 24 4 (lm4 m) ([determinant4 (F32 L) m]) ([leibniz 4 (vals (lm4 m))])) /\
  (forall m, exact_on_grid 1 1 (lm2 m) (lm2 (adjugate2 (F32 L) m)) (cofactors_t 2 (vals (lm2 m)))) /\
  (forall m, exact_on_grid 2 2 (lm3 m) (lm3 (adjugate3 (F32 L) m)) (cofactors_t 3 (vals (lm3 m)))) /\
  (forall m, exact_on_grid 6 3 (lm4 m) (lm4 (adjugate4 (F32 L) m)) (cofactors_t 4 (vals (lm4 m)))).
Proof.
  intros L.
  split; [intros [[a0 a1] [a2 a3]]; exactly L [a0; a1; a2; a3] ([determinant2 ES (vm2 0)]) 2%Z 2%nat|].
  split; [intros [[a0 a1 a2] [a3 a4 a5] [a6 a7 a8]]; exactly L [a0; a1; a2; a3; a4; a5; a6; a7; a8] ([determinant3 ES (vm3 0)]) 6%Z 3%nat|].
  split; [intros [[a0 a1 a2 a3] [a4 a5 a6 a7] [a8 a9 a10 a11] [a12 a13 a14 a15]]; exactly L [a0; a1; a2; a3; a4; a5; a6; a7; a8; a9; a10; a11; a12; a13; a14; a15] ([determinant4 ES (vm4 0)]) 24%Z 4%nat|].
  split; [intros [[a0 a1] [a2 a3]]; exactly L [a0; a1; a2; a3] (lm2 (adjugate2 ES (vm2 0))) 1%Z 1%nat|].
  split; [intros [[a0 a1 a2] [a3 a4 a5] [a6 a7 a8]]; exactly L [a0; a1; a2; a3; a4; a5; a6; a7; a8] (lm3 (adjugate3 ES (vm3 0))) 2%Z 2%nat|].
  intros [[a0 a1 a2 a3] [a4 a5 a6 a7] [a8 a9 a10 a11] [a12 a13 a14 a15]]; exactly L [a0; a1; a2; a3; a4; a5; a6; a7; a8; a9; a10; a11; a12; a13; a14; a15] (lm4 (adjugate4 ES (vm4 0))) 6%Z 3%nat.
Qed.
(** quaternion product, rotation of a vector and conversion to a matrix *)
Lemma C79_quaternions_pf : forall L : Libm,
  (forall p q, exact_on_grid 64 2 (lq p ++ lq q) (lq (quat_mul (F32 L) p q)) (lq (ham (Quat (b2r (qx p)) (b2r (qy p)) (b2r (qz p)) (b2r (qw p))) (Quat (b2r (qx q)) (b2r (qy q)) (b2r (qz q)) (b2r (qw q)))))) /\
  (forall q v, exact_on_grid 13 3 (lq q ++ l3 v) (l3 (quat_mul_vec (F32 L) q v)) (turned (b2r (qx q)) (b2r (qy q)) (b2r (qz q)) (b2r (qw q)) (vals (l3 v)))) /\
  (forall q, exact_on_grid 5 2 (lq q) (lm3 (mat3_cast (F32 L) q)) (rotation_entries (-1) (b2r (qx q)) (b2r (qy q)) (b2r (qz q)) (b2r (qw q)))).
Proof.
  intros L.
  split; [intros [a0 a1 a2 a3] [b0 b1 b2 b3]; exactly L [a0; a1; a2; a3; b0; b1; b2; b3] (lq (quat_mul ES (vq 0) (vq 4))) 64%Z 2%nat|].
  split; [intros [a0 a1 a2 a3] [b0 b1 b2]; exactly L [a0; a1; a2; a3; b0; b1; b2] (l3 (quat_mul_vec ES (vq 0) (v3 4))) 13%Z 3%nat|].
  intros [a0 a1 a2 a3]; exactly L [a0; a1; a2; a3] (lm3 (mat3_cast ES (vq 0))) 5%Z 2%nat.
Qed.
(** translate, scale, reflect and the component reductions *)
Lemma C79_transforms_pf : forall L : Libm,
  (forall m v, exact_on_grid 4 2 (lm4 m ++ l3 v) (lm4 (translate (F32 L) m v)) (mprod 4 (vals (lm4 m)) (translation (vals (l3 v))))) /\
  (forall m v, exact_on_grid 1 2 (lm4 m ++ l3 v) (lm4 (scale (F32 L) m v)) (mprod 4 (vals (lm4 m)) (scaling (vals (l3 v))))) /\
  (forall i n, exact_on_grid 5 3 (l2 i ++ l2 n) (l2 (reflect2 (F32 L) i n)) (zip (fun x y => x - 2 * total (zip Rmult (vals (l2 n)) (vals (l2 i))) * y) (vals (l2 i)) (vals (l2 n)))) /\
  (forall i n, exact_on_grid 7 3 (l3 i ++ l3 n) (l3 (reflect3 (F32 L) i n)) (zip (fun x y => x - 2 * total (zip Rmult (vals (l3 n)) (vals (l3 i))) * y) (vals (l3 i)) (vals (l3 n)))) /\
  (forall i n, exact_on_grid 9 3 (l4 i ++ l4 n) (l4 (reflect4 (F32 L) i n)) (zip (fun x y => x - 2 * total (zip Rmult (vals (l4 n)) (vals (l4 i))) * y) (vals (l4 i)) (vals (l4 n)))) /\
  (forall v, exact_on_grid 2 1 (l2 v) ([compAdd2 (F32 L) v]) ([total (vals (l2 v))])) /\
  (forall v, exact_on_grid 1 2 (l2 v) ([compMul2 (F32 L) v]) ([product (vals (l2 v))])) /\
  (forall v, exact_on_grid 3 1 (l3 v) ([compAdd3 (F32 L) v]) ([total (vals (l3 v))])) /\
  (forall v, exact_on_grid 1 3 (l3 v) ([compMul3 (F32 L) v]) ([product (vals (l3 v))])) /\
  (forall v, exact_on_grid 4 1 (l4 v) ([compAdd4 (F32 L) v]) ([total (vals (l4 v))])) /\
  (forall v, exact_on_grid 1 4 (l4 v) ([compMul4 (F32 L) v]) ([product (vals (l4 v))])).
Proof.
  intros L.
  split; [intros [[a0 a1 a2 a3] [a4 a5 a6 a7] [a8 a9 a10 a11] [a12 a13 a14 a15]] [b0 b1 b2]; exactly L [a0; a1; a2; a3; a4; a5; a6; a7; a8; a9; a10; a11; a12; a13; a14; a15; b0; b1; b2] (lm4 (translate ES (vm4 0) (v3 16))) 4%Z 2%nat|].
  split; [intros [[a0 a1 a2 a3] [a4 a5 a6 a7] [a8 a9 a10 a11] [a12 a13 a14 a15]] [b0 b1 b2]; exactly L [a0; a1; a2; a3; a4; a5; a6; a7; a8; a9; a10; a11; a12; a13; a14; a15; b0; b1; b2] (lm4 (scale ES (vm4 0) (v3 16))) 1%Z 2%nat|].
  split; [intros [a0 a1] [b0 b1]; exactly L [a0; a1; b0; b1] (l2 (reflect2 ES (v2 0) (v2 2))) 5%Z 3%nat|].
  split; [intros [a0 a1 a2] [b0 b1 b2]; exactly L [a0; a1; a2; b0; b1; b2] (l3 (reflect3 ES (v3 0) (v3 3))) 7%Z 3%nat|].
  split; [intros [a0 a1 a2 a3] [b0 b1 b2 b3]; exactly L [a0; a1; a2; a3; b0; b1; b2; b3] (l4 (reflect4 ES (v4 0) (v4 4))) 9%Z 3%nat|].
  split; [intros [a0 a1]; exactly L [a0; a1] ([compAdd2 ES (v2 0)]) 2%Z 1%nat|].
  split; [intros [a0 a1]; exactly L [a0; a1] ([compMul2 ES (v2 0)]) 1%Z 2%nat|].
  split; [intros [a0 a1 a2]; exactly L [a0; a1; a2] ([compAdd3 ES (v3 0)]) 3%Z 1%nat|].
  split; [intros [a0 a1 a2]; exactly L [a0; a1; a2] ([compMul3 ES (v3 0)]) 1%Z 3%nat|].
  split; [intros [a0 a1 a2 a3]; exactly L [a0; a1; a2; a3] ([compAdd4 ES (v4 0)]) 4%Z 1%nat|].
  intros [a0 a1 a2 a3]; exactly L [a0; a1; a2; a3] ([compMul4 ES (v4 0)]) 1%Z 4%nat.
Qed.
(** (a b) c and a (b c), (a b) v and a (b v) are the same exact values when n^2 (2^s M)^3 <= 2^24: on such inputs the products are associative *)
Lemma C79_associative_pf : forall L : Libm,
  (forall a b c, exact_on_grid 4 3 (lm2 a ++ lm2 b ++ lm2 c) (lm2 (mat2_mul (F32 L) (mat2_mul (F32 L) a b) c)) (mprod 2 (mprod 2 (vals (lm2 a)) (vals (lm2 b))) (vals (lm2 c)))) /\
  (forall a b c, exact_on_grid 4 3 (lm2 a ++ lm2 b ++ lm2 c) (lm2 (mat2_mul (F32 L) a (mat2_mul (F32 L) b c))) (mprod 2 (mprod 2 (vals (lm2 a)) (vals (lm2 b))) (vals (lm2 c)))) /\
  (forall a b v, exact_on_grid 4 3 (lm2 a ++ lm2 b ++ l2 v) (l2 (mat2_mul_vec (F32 L) (mat2_mul (F32 L) a b) v)) (mapply 2 (mprod 2 (vals (lm2 a)) (vals (lm2 b))) (vals (l2 v)))) /\
  (forall a b v, exact_on_grid 4 3 (lm2 a ++ lm2 b ++ l2 v) (l2 (mat2_mul_vec (F32 L) a (mat2_mul_vec (F32 L) b v))) (mapply 2 (mprod 2 (vals (lm2 a)) (vals (lm2 b))) (vals (l2 v)))) /\
  (forall a b c, exact_on_grid 9 3 (lm3 a ++ lm3 b ++ lm3 c) (lm3 (mat3_mul (F32 L) (mat3_mul (F32 L) a b) c)) (mprod 3 (mprod 3 (vals (lm3 a)) (vals (lm3 b))) (vals (lm3 c)))) /\
  (forall a b c, exact_on_grid 9 3 (lm3 a ++ lm3 b ++ lm3 c) (lm3 (mat3_mul (F32 L) a (mat3_mul (F32 L) b c))) (mprod 3 (mprod 3 (vals (lm3 a)) (vals (lm3 b))) (vals (lm3 c)))) /\
  (forall a b v, exact_on_grid 9 3 (lm3 a ++ lm3 b ++ l3 v) (l3 (mat3_mul_vec (F32 L) (mat3_mul (F32 L) a b) v)) (mapply 3 (mprod 3 (vals (lm3 a)) (vals (lm3 b))) (vals (l3 v)))) /\
  (forall a b v, exact_on_grid 9 3 (lm3 a ++ lm3 b ++ l3 v) (l3 (mat3_mul_vec (F32 L) a (mat3_mul_vec (F32 L) b v))) (mapply 3 (mprod 3 (vals (lm3 a)) (vals (lm3 b))) (vals (l3 v)))) /\
  (forall a b c, exact_on_grid 16 3 (lm4 a ++ lm4 b ++ lm4 c) (lm4 (mat4_mul (F32 L) (mat4_mul (F32 L) a b) c)) (mprod 4 (mprod 4 (vals (lm4 a)) (vals (lm4 b))) (vals (lm4 c)))) /\
  (forall a b c, exact_on_grid 16 3 (lm4 a ++ lm4 b ++ lm4 c) (lm4 (mat4_mul (F32 L) a (mat4_mul (F32 L) b c))) (mprod 4 (mprod 4 (vals (lm4 a)) (vals (lm4 b))) (vals (lm4 c)))) /\
  (forall a b v, exact_on_grid 16 3 (lm4 a ++ lm4 b ++ l4 v) (l4 (mat4_mul_vec (F32 L) (mat4_mul (F32 L) a b) v)) (mapply 4 (mprod 4 (vals (lm4 a)) (vals (lm4 b))) (vals (l4 v)))) /\
  (forall a b v, exact_on_grid 16 3 (lm4 a ++ lm4 b ++ l4 v) (l4 (mat4_mul_vec (F32 L) a (mat4_mul_vec (F32 L) b v))) (mapply 4 (mprod 4 (vals (lm4 a)) (vals (lm4 b))) (vals (l4 v)))).
Proof.
  intros L.
  split; [intros [[a0 a1] [a2 a3]] [[b0 b1] [b2 b3]] [[c0 c1] [c2 c3]]; exactly L [a0; a1; a2; a3; b0; b1; b2; b3; c0; c1; c2; c3] (lm2 (mat2_mul ES (mat2_mul ES (vm2 0) (vm2 4)) (vm2 8))) 4%Z 3%nat|].
  split; [intros [[a0 a1] [a2 a3]] [[b0 b1] [b2 b3]] [[c0 c1] [c2 c3]]; exactly L [a0; a1; a2; a3; b0; b1; b2; b3; c0; c1; c2; c3] (lm2 (mat2_mul ES (vm2 0) (mat2_mul ES (vm2 4) (vm2 8)))) 4%Z 3%nat|].
  split; [intros [[a0 a1] [a2 a3]] [[b0 b1] [b2 b3]] [c0 c1]; exactly L [a0; a1; a2; a3; b0; b1; b2; b3; c0; c1] (l2 (mat2_mul_vec ES (mat2_mul ES (vm2 0) (vm2 4)) (v2 8))) 4%Z 3%nat|].
  split; [intros [[a0 a1] [a2 a3]] [[b0 b1] [b2 b3]] [c0 c1]; exactly L [a0; a1; a2; a3; b0; b1; b2; b3; c0; c1] (l2 (mat2_mul_vec ES (vm2 0) (mat2_mul_vec ES (vm2 4) (v2 8)))) 4%Z 3%nat|].
  split; [intros [[a0 a1 a2] [a3 a4 a5] [a6 a7 a8]] [[b0 b1 b2] [b3 b4 b5] [b6 b7 b8]] [[c0 c1 c2] [c3 c4 c5] [c6 c7 c8]]; exactly L [a0; a1; a2; a3; a4; a5; a6; a7; a8; b0; b1; b2; b3; b4; b5; b6; b7; b8; c0; c1; c2; c3; c4; c5; c6; c7; c8] (lm3 (mat3_mul ES (mat3_mul ES (vm3 0) (vm3 9)) (vm3 18))) 9%Z 3%nat|].
  split; [intros [[a0 a1 a2] [a3 a4 a5] [a6 a7 a8]] [[b0 b1 b2] [b3 b4 b5] [b6 b7 b8]] [[c0 c1 c2] [c3 c4 c5] [c6 c7 c8]]; exactly L [a0; a1; a2; a3; a4; a5; a6; a7; a8; b0; b1; b2; b3; b4; b5; b6; b7; b8; c0; c1; c2; c3; c4; c5; c6; c7; c8] (lm3 (mat3_mul ES (vm3 0) (mat3_mul ES (vm3 9) (vm3 18)))) 9%Z 3%nat|].
  split; [intros [[a0 a1 a2] [a3 a4 a5] [a6 a7 a8]] [[b0 b1 b2] [b3 b4 b5] [b6 b7 b8]] [c0 c1 c2]; exactly L [a0; a1; a2; a3; a4; a5; a6; a7; a8; b0; b1; b2; b3; b4; b5; b6; b7; b8; c0; c1; c2] (l3 (mat3_mul_vec ES (mat3_mul ES (vm3 0) (vm3 9)) (v3 18))) 9%Z 3%nat|].
  split; [intros [[a0 a1 a2] [a3 a4 a5] [a6 a7 a8]] [[b0 b1 b2] [b3 b4 b5] [b6 b7 b8]] [c0 c1 c2]; exactly L [a0; a1; a2; a3; a4; a5; a6; a7; a8; b0; b1; b2; b3; b4; b5; b6; b7; b8; c0; c1; c2] (l3 (mat3_mul_vec ES (vm3 0) (mat3_mul_vec ES (vm3 9) (v3 18)))) 9%Z 3%nat|].
  split; [intros [[a0 a1 a2 a3] [a4 a5 a6 a7] [a8 a9 a10 a11] [a12 a13 a14 a15]] [[b0 b1 b2 b3] [b4 b5 b6 b7] [b8 b9 b10 b11] [b12 b13 b14 b15]] [[c0 c1 c2 c3] [c4 c5 c6 c7] [c8 c9 c10 c11] [c12 c13 c14 c15]]; exactly L [a0; a1; a2; a3; a4; a5; a6; a7; a8; a9; a10; a11; a12; a13; a14; a15; b0; b1; b2; b3; b4; b5; b6; b7; b8; b9; b10; b11; b12; b13; b14; b15; c0; c1; c2; c3; c4; c5; c6; c7; c8; c9; c10; c11; c12; c13; c14; c15] (lm4 (mat4_mul ES (mat4_mul ES (vm4 0) (vm4 16)) (vm4 32))) 16%Z 3%nat|].
  split; [intros [[a0 a1 a2 a3] [a4 a5 a6 a7] [a8 a9 a10 a11] [a12 a13 a14 a15]] [[b0 b1 b2 b3] [b4 b5 b6 b7] [b8 b9 b10 b11] [b12 b13 b14 b15]] [[c0 c1 c2 c3] [c4 c5 c6 c7] [c8 c9 c10 c11] [c12 c13 c14 c15]]; exactly L [a0; a1; a2; a3; a4; a5; a6; a7; a8; a9; a10; a11; a12; a13; a14; a15; b0; b1; b2; b3; b4; b5; b6; b7; b8; b9; b10; b11; b12; b13; b14; b15; c0; c1; c2; c3; c4; c5; c6; c7; c8; c9; c10; c11; c12; c13; c14; c15] (lm4 (mat4_mul ES (vm4 0) (mat4_mul ES (vm4 16) (vm4 32)))) 16%Z 3%nat|].
  split; [intros [[a0 a1 a2 a3] [a4 a5 a6 a7] [a8 a9 a10 a11] [a12 a13 a14 a15]] [[b0 b1 b2 b3] [b4 b5 b6 b7] [b8 b9 b10 b11] [b12 b13 b14 b15]] [c0 c1 c2 c3]; exactly L [a0; a1; a2; a3; a4; a5; a6; a7; a8; a9; a10; a11; a12; a13; a14; a15; b0; b1; b2; b3; b4; b5; b6; b7; b8; b9; b10; b11; b12; b13; b14; b15; c0; c1; c2; c3] (l4 (mat4_mul_vec ES (mat4_mul ES (vm4 0) (vm4 16)) (v4 32))) 16%Z 3%nat|].
  intros [[a0 a1 a2 a3] [a4 a5 a6 a7] [a8 a9 a10 a11] [a12 a13 a14 a15]] [[b0 b1 b2 b3] [b4 b5 b6 b7] [b8 b9 b10 b11] [b12 b13 b14 b15]] [c0 c1 c2 c3]; exactly L [a0; a1; a2; a3; a4; a5; a6; a7; a8; a9; a10; a11; a12; a13; a14; a15; b0; b1; b2; b3; b4; b5; b6; b7; b8; b9; b10; b11; b12; b13; b14; b15; c0; c1; c2; c3] (l4 (mat4_mul_vec ES (vm4 0) (mat4_mul_vec ES (vm4 16) (v4 32)))) 16%Z 3%nat.
Qed.

(** ** Inverses *)
Definition exact_small {M} (n : nat) (c : R) (comps : M -> list f32) (out : M -> list f32) (ex : list R -> list R) : Prop :=
  forall s B m, 1 <= B -> fixed_point s (comps m) -> bounded_by B (comps m) -> c * (IZR (2 ^ Z.of_nat s) * B) ^ n <= IZR (2 ^ 24) ->
  Forall small (out m) /\ vals (out m) = ex (vals (comps m)).
Lemma exact_quot {M} n c (comps : M -> list f32) cof (det : M -> f32) (adj f : M -> M) (op : f32 -> f32 -> f32) :
  (forall x d k, small x -> small d -> Rabs (b2r d) = bpow radix2 k -> finite (op x d) /\ b2r (op x d) = b2r x / b2r d) ->
  exact_small n c comps (fun m => [det m]) (fun l => [leibniz n l]) -> exact_small n c comps (fun m => comps (adj m)) cof ->
  (forall m, comps (f m) = map (fun x => op x (det m)) (comps (adj m))) -> exact_inverse n c comps cof f.
Proof.
  intros Hop Hd Ha Hf s B k m D B1 F HB H K. destruct (Hd s B m B1 F HB H) as [Sd Ed]. destruct (Ha s B m B1 F HB H) as [Sa Ea].
  apply Forall_cons_iff in Sd as [Sd _]. assert (Ed' : b2r (det m) = D) by (unfold vals at 1 in Ed; cbn [map] in Ed; injection Ed as Ed; exact Ed). rewrite <- Ed' in K.
  rewrite Hf. unfold all_finite. split.
  - rewrite Forall_map. eapply Forall_impl; [|exact Sa]. intros x Sx. now destruct (Hop x _ k Sx Sd K).
  - rewrite <- Ea, <- Ed'. unfold vals at 1 2. rewrite !map_map. apply map_ext_in. intros x Hx. rewrite Forall_forall in Sa. now destruct (Hop x _ k (Sa x Hx) Sd K).
Qed.
Ltac smalls L l e c d :=
  let s := fresh "s" in let B := fresh "B" in let B1 := fresh "B1" in let F := fresh "F" in let HB := fresh "HB" in let H := fresh "H" in
  intros B1 F HB H; cbv beta in *;
  match goal with |- Forall small ?o /\ _ =>
    let E := fresh "E" in assert (E : o = map (eval (F32 L) (env (B754_zero false) l)) e) by (redF; reflexivity);
    rewrite E; clear E; split; [exact (exprs_small L l e c d _ _ eq_refl B1 F HB H)|];
    etransitivity; [exact (proj2 (exprs_exact L l e c d eq_refl _ _ B1 F HB H))|ringR] end.
(** inverse of mat2, mat3, mat4 and inverseTranspose of mat3, mat4: exact for fixed-point matrices whose determinant is plus or
    minus a power of two, for example integer matrices of determinant 1 *)
Lemma C79_inverse_pf : forall L : Libm,
  exact_inverse 2 2 lm2 (cofactors_t 2) (inverse2 (F32 L)) /\ exact_inverse 3 6 lm3 (cofactors_t 3) (inverse3 (F32 L)) /\
  exact_inverse 4 24 lm4 (cofactors_t 4) (inverse4 (F32 L)) /\
  exact_inverse 3 6 lm3 (fun m => mtransp 3 (cofactors_t 3 m)) (inverseTranspose3 (F32 L)) /\
  exact_inverse 4 24 lm4 (fun m => mtransp 4 (cofactors_t 4 m)) (inverseTranspose4 (F32 L)).
Proof.
  intros L. split; [|split; [|split; [|split]]].
  - apply (exact_quot 2 2 lm2 _ (determinant2 (F32 L)) (adjugate2 (F32 L)) (inverse2 (F32 L)) bmul_rcp); [exact small_rcp| | |].
    + intros s B [[a0 a1] [a2 a3]]. smalls L [a0; a1; a2; a3] [determinant2 ES (vm2 0)] 2%Z 2%nat.
    + intros s B [[a0 a1] [a2 a3]]. smalls L [a0; a1; a2; a3] (lm2 (adjugate2 ES (vm2 0))) 2%Z 2%nat.
    + intros [[a0 a1] [a2 a3]]. reflexivity.
  - apply (exact_quot 3 6 lm3 _ (determinant3 (F32 L)) (adjugate3 (F32 L)) (inverse3 (F32 L)) bmul_rcp); [exact small_rcp| | |].
    + intros s B [[a0 a1 a2] [a3 a4 a5] [a6 a7 a8]]. smalls L [a0; a1; a2; a3; a4; a5; a6; a7; a8] [determinant3 ES (vm3 0)] 6%Z 3%nat.
    + intros s B [[a0 a1 a2] [a3 a4 a5] [a6 a7 a8]]. smalls L [a0; a1; a2; a3; a4; a5; a6; a7; a8] (lm3 (adjugate3 ES (vm3 0))) 6%Z 3%nat.
    + intros [[a0 a1 a2] [a3 a4 a5] [a6 a7 a8]]. cbv -[Bplus Bmult Bminus Bopp Bdiv f32_lit f32_ofZ]. reflexivity.
  - apply (exact_quot 4 24 lm4 _ (det4_cols (F32 L)) (adjugate4 (F32 L)) (inverse4 (F32 L)) bmul_rcp); [exact small_rcp| | |].
    + intros s B [[a0 a1 a2 a3] [a4 a5 a6 a7] [a8 a9 a10 a11] [a12 a13 a14 a15]]. smalls L [a0; a1; a2; a3; a4; a5; a6; a7; a8; a9; a10; a11; a12; a13; a14; a15] [det4_cols ES (vm4 0)] 24%Z 4%nat.
    + intros s B [[a0 a1 a2 a3] [a4 a5 a6 a7] [a8 a9 a10 a11] [a12 a13 a14 a15]]. smalls L [a0; a1; a2; a3; a4; a5; a6; a7; a8; a9; a10; a11; a12; a13; a14; a15] (lm4 (adjugate4 ES (vm4 0))) 24%Z 4%nat.
    + intros a. rewrite inverse4_eq. generalize (det4_cols (F32 L) a). destruct (adjugate4 (F32 L) a) as [[? ? ? ?] [? ? ? ?] [? ? ? ?] [? ? ? ?]]. reflexivity.
  - apply (exact_quot 3 6 lm3 _ (det3_rows (F32 L)) (adjugateTranspose3 (F32 L)) (inverseTranspose3 (F32 L)) (Bdiv mode_NE)); [exact small_div| | |].
    + intros s B [[a0 a1 a2] [a3 a4 a5] [a6 a7 a8]]. smalls L [a0; a1; a2; a3; a4; a5; a6; a7; a8] [det3_rows ES (vm3 0)] 6%Z 3%nat.
    + intros s B [[a0 a1 a2] [a3 a4 a5] [a6 a7 a8]]. smalls L [a0; a1; a2; a3; a4; a5; a6; a7; a8] (lm3 (adjugateTranspose3 ES (vm3 0))) 6%Z 3%nat.
    + intros [[a0 a1 a2] [a3 a4 a5] [a6 a7 a8]]. cbv -[Bplus Bmult Bminus Bopp Bdiv f32_lit f32_ofZ]. reflexivity.
  - apply (exact_quot 4 24 lm4 _ (det4_rows (F32 L)) (adjugateTranspose4 (F32 L)) (inverseTranspose4 (F32 L)) (Bdiv mode_NE)); [exact small_div| | |].
    + intros s B [[a0 a1 a2 a3] [a4 a5 a6 a7] [a8 a9 a10 a11] [a12 a13 a14 a15]]. smalls L [a0; a1; a2; a3; a4; a5; a6; a7; a8; a9; a10; a11; a12; a13; a14; a15] [det4_rows ES (vm4 0)] 24%Z 4%nat.
    + intros s B [[a0 a1 a2 a3] [a4 a5 a6 a7] [a8 a9 a10 a11] [a12 a13 a14 a15]]. smalls L [a0; a1; a2; a3; a4; a5; a6; a7; a8; a9; a10; a11; a12; a13; a14; a15] (lm4 (adjugateTranspose4 ES (vm4 0))) 24%Z 4%nat.
    + intros a. rewrite inverseTranspose4_eq. generalize (det4_rows (F32 L) a). destruct (adjugateTranspose4 (F32 L) a) as [[? ? ? ?] [? ? ? ?] [? ? ? ?] [? ? ? ?]]. reflexivity.
Qed.
(*PROPS
(** a matrix with entries 0.5, 1, -1, 2: one fractional bit, determinant 2; all hypotheses hold and the inverse is exact *)
Definition ex_m : mat2 f32 := M2 (V2 (f32_lit 5 (-1)) (f32_ofZ 1)) (V2 (f32_ofZ (-1)) (f32_ofZ 2)).
Lemma ex_vals : vals (lm2 ex_m) = [/ 2; 1; -1; 2].
Proof. change (vals (lm2 ex_m)) with [b2r (f32_lit 5 (-1)); b2r (f32_ofZ 1); b2r (f32_ofZ (-1)); b2r (f32_ofZ 2)]. now rewrite b2r_lit_half, !ofZ_exact by reflexivity. Qed.
Example C79_case : fixed_point 1 (lm2 ex_m) /\ bounded_by 2 (lm2 ex_m) /\ 2 * (IZR (2 ^ Z.of_nat 1) * 2) ^ 2 <= IZR (2 ^ 24) /\
  Rabs (leibniz 2 (vals (lm2 ex_m))) = bpow radix2 1.
Proof.
  split; [|split; [|split]].
  - repeat apply Forall_cons; try apply Forall_nil; (split; [reflexivity|]).
    + exists 1%Z. change (b2r (x2 (m2c0 ex_m))) with (b2r (f32_lit 5 (-1))). rewrite b2r_lit_half. change (bpow radix2 (- Z.of_nat 1)) with (/ 2). lra.
    + exists 2%Z. change (b2r (y2 (m2c0 ex_m))) with (b2r (f32_ofZ 1)). rewrite ofZ_exact by reflexivity. change (bpow radix2 (- Z.of_nat 1)) with (/ 2). lra.
    + exists (-2)%Z. change (b2r (x2 (m2c1 ex_m))) with (b2r (f32_ofZ (-1))). rewrite ofZ_exact by reflexivity. change (bpow radix2 (- Z.of_nat 1)) with (/ 2). lra.
    + exists 4%Z. change (b2r (y2 (m2c1 ex_m))) with (b2r (f32_ofZ 2)). rewrite ofZ_exact by reflexivity. change (bpow radix2 (- Z.of_nat 1)) with (/ 2). lra.
  - assert (H : Forall (fun x => Rabs x <= 2) (vals (lm2 ex_m))) by (rewrite ex_vals; repeat apply Forall_cons; try apply Forall_nil; unfold Rabs; destruct Rcase_abs; lra).
    unfold vals in H. now rewrite Forall_map in H.
  - change (2 ^ Z.of_nat 1)%Z with 2%Z. cbn [pow]. apply Rle_trans with (IZR 32); [lra|now apply IZR_le].
  - rewrite ex_vals. change (bpow radix2 1) with 2. cbv -[Rplus Rmult Ropp IZR Rabs Rinv]. rewrite Rabs_pos_eq; lra.
Qed.
(** the size bound matters: 4097^2 needs 25 bits and is rounded *)
Example C79_sharp_case : dot2 (F32 L0) (V2 (f32_ofZ 4097) (f32_ofZ 0)) (V2 (f32_ofZ 4097) (f32_ofZ 0)) = f32_ofZ (4097 * 4097 - 1).
Proof. apply f32_by_sf; vm_compute; reflexivity. Qed.
(** integers up to 100 are within the bound for 3x3 determinants, up to 2047 for 4x4 products *)
Example C79_size_case : 6 * (IZR (2 ^ Z.of_nat 0) * 100) ^ 3 <= IZR (2 ^ 24) /\ 4 * (IZR (2 ^ Z.of_nat 0) * 2047) ^ 2 <= IZR (2 ^ 24).
Proof. change (2 ^ Z.of_nat 0)%Z with 1%Z. change (IZR (2 ^ 24)) with 16777216. cbn [pow]. split; lra. Qed.
PROPS*)
