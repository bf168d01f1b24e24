(** * Proofs: exactness, symmetry and NaN propagation in binary32 *)
From Coq Require Import ZArith Bool Reals List Lra.
From Flocq Require Import Core IEEE754.BinarySingleNaN.
From Verif Require Import Scalar IEEE32 F32Tac FloatBasics Outcome Types Spec SpecF32 ModelVec ModelCommon ModelComp ModelQuat
  ModelExp ModelGeom ModelMat ModelMatrix.
Import ListNotations.
Local Open Scope R_scope.
(*HEADER END*)
From Coq Require Import Lia.
From Flocq Require Import Sterbenz Mult_error.
From Verif Require Import FloatOps FloatAlg RealTac.

(** ** C31 *)
(** C31: dot is symmetric bit for bit, for all floats including infinities and NaN. *)
Lemma C31_dot_symmetric_pf : forall L : Libm,
  (forall x y : f32, dot_f (F32 L) x y = dot_f (F32 L) y x) /\
  (forall u v, dot2 (F32 L) u v = dot2 (F32 L) v u) /\
  (forall u v, dot3 (F32 L) u v = dot3 (F32 L) v u) /\
  (forall u v, dot4 (F32 L) u v = dot4 (F32 L) v u) /\
  (forall u v, dot_q (F32 L) u v = dot_q (F32 L) v u).
Proof.
  intros L. ands; intros; vdestruct; fs;
    repeat match goal with |- badd _ _ = badd _ _ => apply f_equal2 end; apply bmul_comm.
Qed.

(** ** C34 *)
(** C34: swapping the operands negates every component; NaN together (zeros compare equal). *)
Lemma C34_anticommutes_f32_pf : forall (L : Libm) (u v : vec3 f32),
  Forall2 (fun a b => is_nan a = is_nan b /\ (is_nan a = false -> ieee_eq a (Bopp b)))
    (l3 (cross (F32 L) u v)) (l3 (cross (F32 L) v u)).
Proof.
  assert (Q : forall a b : f32, opposite b a -> is_nan a = is_nan b /\ (is_nan a = false -> ieee_eq a (Bopp b))).
  { intros a b [N E]. split; [congruence|]. intros Na. split; [exact Na|]. split; [rewrite is_nan_Bopp; congruence|].
    rewrite xr_opp. apply E. congruence. }
  intros L u v. destruct u as [a b c], v as [x y z]. fs.
  repeat (apply Forall2_cons; [apply Q|]); [| | |apply Forall2_nil].
  - rewrite (bmul_comm y c), (bmul_comm z b). apply opposite_swap.
  - rewrite (bmul_comm z a), (bmul_comm x c). apply opposite_swap.
  - rewrite (bmul_comm x b), (bmul_comm y a). apply opposite_swap.
Qed.

(** C34: the cross product of a vector with itself is exactly zero unless a product overflows. *)
Lemma C34_self_f32_pf : forall (L : Libm) (v : vec3 f32),
  let finite_product a b := finite (Bmult mode_NE a b) in
  finite_product (x3 v) (y3 v) -> finite_product (y3 v) (z3 v) -> finite_product (z3 v) (x3 v) ->
  cross (F32 L) v v = V3 (B754_zero false) (B754_zero false) (B754_zero false).
Proof.
  intros L [x y z] fp H1 H2 H3. unfold fp in *. cbn [x3 y3 z3] in *.
  change (cross (F32 L) (V3 x y z) (V3 x y z)) with
    (V3 (bsub (bmul y z) (bmul z y)) (bsub (bmul z x) (bmul x z)) (bsub (bmul x y) (bmul y x))).
  rewrite (bmul_comm z y), (bmul_comm x z), (bmul_comm y x). now rewrite !sub_self.
Qed.

(*PROPS
(** the products of 0.1, 0.2, 0.3 are inexact, yet the cross product is zero *)
Example C34_ex_f32 : let a := f32_lit 1 (-1) in let b := f32_lit 2 (-1) in let c := f32_lit 3 (-1) in
  finite (Bmult mode_NE a b) /\ finite (Bmult mode_NE b c) /\ finite (Bmult mode_NE c a).
Proof. repeat split; vm_compute; reflexivity. Qed.

PROPS*)
(** ** C35 *)
(** C35: the result is N or -N, chosen by the sign of dot(Nref, I). *)
Lemma C35_faceforward_pf : forall L : Libm,
  (forall n i r : f32, faceforward_f (F32 L) n i r = n \/ faceforward_f (F32 L) n i r = Bopp n) /\
  (forall n i r, faceforward2 (F32 L) n i r = n \/ l2 (faceforward2 (F32 L) n i r) = map Bopp (l2 n)) /\
  (forall n i r, faceforward3 (F32 L) n i r = n \/ l3 (faceforward3 (F32 L) n i r) = map Bopp (l3 n)) /\
  (forall n i r, faceforward4 (F32 L) n i r = n \/ l4 (faceforward4 (F32 L) n i r) = map Bopp (l4 n)).
Proof.
  intros L. ands; intros n i r.
  - unfold faceforward_f. destruct slt; [now left|now right].
  - unfold faceforward2. destruct slt; [now left|now right].
  - unfold faceforward3. destruct slt; [now left|now right].
  - unfold faceforward4. destruct slt; [now left|now right].
Qed.

(** C35: turned with respect to itself, the normal never has a positive inner product with I. *)
Lemma C35_against_pf : forall L : Libm,
  let ok d := is_nan d = true \/ ieee_le d (B754_zero false) in
  (forall n i : f32, ok (dot_f (F32 L) (faceforward_f (F32 L) n i n) i)) /\
  (forall n i, ok (dot2 (F32 L) (faceforward2 (F32 L) n i n) i)) /\
  (forall n i, ok (dot3 (F32 L) (faceforward3 (F32 L) n i n) i)) /\
  (forall n i, ok (dot4 (F32 L) (faceforward4 (F32 L) n i n) i)).
Proof.
  intros L ok.
  assert (A : forall d d' : f32, opposite d d' -> ok (if Bltb d (B754_zero false) then d else d')).
  { intros d d' [N E]. unfold ok. destruct (is_nan d) eqn:Nd.
    - left. rewrite Bltb_nan_l by exact Nd. now rewrite <- N.
    - right. rewrite Bltb_xr by (exact Nd || reflexivity).
      change (xr (B754_zero false)) with 0. unfold ieee_le. change (xr (B754_zero false)) with 0.
      destruct (Rlt_bool_spec (xr d) 0); ands; try reflexivity; try congruence; try lra; rewrite E by reflexivity; lra. }
  assert (M : forall a b : f32, opposite (bmul a b) (bmul (Bopp a) b)) by (intros; rewrite bmul_opp_l; apply opposite_opp).
  assert (P : forall (b : bool) (V : Type) (f : V -> f32) (x y : V), f (if b then x else y) = if b then f x else f y) by (intros [] *; reflexivity).
  ands; intros n i.
  - unfold faceforward_f. rewrite (P _ _ (fun n => dot_f (F32 L) n i)). apply A. apply M.
  - unfold faceforward2. rewrite (P _ _ (fun n => dot2 (F32 L) n i)). apply A. vdestruct. fs. repeat apply opposite_add; apply M.
  - unfold faceforward3. rewrite (P _ _ (fun n => dot3 (F32 L) n i)). apply A. vdestruct. fs. repeat apply opposite_add; apply M.
  - unfold faceforward4. rewrite (P _ _ (fun n => dot4 (F32 L) n i)). apply A. vdestruct. fs. repeat apply opposite_add; apply M.
Qed.

(*PROPS
Example C35_ex : faceforward2 (F32 L0) (V2 (f32_lit 1 0) (f32_lit 2 0)) (V2 (f32_lit 3 0) (f32_lit 1 0)) (V2 (f32_lit 1 0) (f32_lit 2 0))
  = V2 (f32_lit (-1) 0) (f32_lit (-2) 0).
Proof. f32_eq. Qed.

PROPS*)
(** ** C38 *)
(** C38: the computed inner product with orthogonal(v) is exactly zero. *)
Lemma C38_orthogonal_f32_pf : forall (L : Libm) (v : vec3 f32), all_finite (l3 v) ->
  finite (Bmult mode_NE (x3 v) (y3 v)) -> finite (Bmult mode_NE (y3 v) (z3 v)) ->
  ieee_eq (dot3 (F32 L) v (orthogonal (F32 L) v)) (B754_zero false).
Proof.
  intros L [x y z] F H1 H2. cbn [x3 y3 z3] in *. cbn in F. inversion F as [|? ? Fx F']; subst. inversion F' as [|? ? Fy F'']; subst. inversion F'' as [|? ? Fz _]; subst. clear F F' F''.
  assert (Z : forall a : f32, iszero a = true -> ieee_eq a (B754_zero false)).
  { intros a Ha. destruct a; try discriminate. repeat split. }
  unfold orthogonal. cbn [x3 y3 z3].
  destruct (sgt _ _); apply Z.
  - change (iszero (badd (badd (bmul x (Bopp y)) (bmul y x)) (bmul z (B754_zero false))) = true).
    rewrite bmul_opp_r, (bmul_comm y x), add_opp_self by exact H1. apply add_zero_zero; [reflexivity|now apply mul_zero_r].
  - change (iszero (badd (badd (bmul x (B754_zero false)) (bmul y (Bopp z))) (bmul z y)) = true).
    rewrite bmul_opp_r, (bmul_comm z y).
    assert (Fo : finite (Bopp (bmul y z))) by now apply finite_opp.
    assert (E : forall p q : f32, iszero p = true -> finite q -> ieee_eq (badd p (Bopp q)) (Bopp q) /\ (badd p (Bopp q) = Bopp q \/ iszero q = true /\ iszero (badd p (Bopp q)) = true)).
    { intros p q Hp Fq. destruct p as [s| | |]; try discriminate. destruct q as [t|t| |t m e He]; try discriminate Fq; cbn.
      - split; [destruct s, t; repeat split|right; split; [reflexivity|destruct s, t; reflexivity]].
      - split; [repeat split|now left]. }
    destruct (E (bmul x (B754_zero false)) (bmul y z)) as [_ [->|[Q1 Q2]]]; [now apply mul_zero_r|exact H2| |].
    + rewrite add_opp_self by exact H2. reflexivity.
    + apply add_zero_zero; assumption.
Qed.

(*PROPS
Example C38_ex_f32 : let v := V3 (f32_lit 1 (-1)) (f32_lit 7 (-1)) (f32_lit (-3) (-1)) in
  all_finite (l3 v) /\ finite (Bmult mode_NE (x3 v) (y3 v)) /\ finite (Bmult mode_NE (y3 v) (z3 v)).
Proof. repeat split; try (repeat constructor); vm_compute; reflexivity. Qed.

PROPS*)
(** ** C66 *)
Definition exact (x : f32) (r : R) : Prop := finite x /\ b2r x = r.
Lemma ex_self (x : f32) : finite x -> exact x (b2r x). Proof. now split. Qed.
Lemma b2r_abs_lt (x : f32) : Rabs (b2r x) < big.
Proof. pose proof (b2r_lt_big x). unfold Rabs. destruct Rcase_abs; lra. Qed.
Lemma ex_mul_one (x : f32) : finite x -> exact (bmul x (f32_lit 1 0)) (b2r x).
Proof.
  intros F. assert (E : b2r x * b2r (f32_lit 1 0) = b2r x) by (rewrite b2r_lit1; ring).
  destruct (mult_ok x (f32_lit 1 0) F fin_lit1) as [A B]; rewrite E, rnd_b2r in *; [apply b2r_abs_lt|]. now split.
Qed.
Lemma ex_one_mul (x : f32) : finite x -> exact (bmul (f32_lit 1 0) x) (b2r x).
Proof. intros F. rewrite bmul_comm. now apply ex_mul_one. Qed.
Lemma ex_mul_zero (x : f32) : finite x -> exact (bmul x (f32_lit 0 0)) 0.
Proof. intros F. rewrite f32_lit_0. destruct x; try discriminate; split; reflexivity. Qed.
Lemma ex_zero_mul (x : f32) : finite x -> exact (bmul (f32_lit 0 0) x) 0.
Proof. intros F. rewrite bmul_comm. now apply ex_mul_zero. Qed.
Lemma ex_add_zero (x y : f32) r : exact x r -> exact y 0 -> exact (badd x y) r.
Proof.
  intros [F Ex] [G Ey]. subst r. assert (E : b2r x + b2r y = b2r x) by (rewrite Ey; ring).
  destruct (plus_ok x y F G) as [A B]; rewrite E, rnd_b2r in *; [apply b2r_abs_lt|]. now split.
Qed.
Lemma ex_zero_add (x y : f32) r : exact x 0 -> exact y r -> exact (badd x y) r.
Proof. intros. rewrite badd_comm. now apply ex_add_zero. Qed.
Lemma ex_eq (x y : f32) : finite y -> exact x (b2r y) -> ieee_eq x y.
Proof. intros F [G E]. now apply finite_eq. Qed.

Ltac exactness :=
  first [ apply ex_mul_one; assumption | apply ex_one_mul; assumption | apply ex_mul_zero; assumption
        | apply ex_zero_mul; assumption
        | apply ex_add_zero; exactness | apply ex_zero_add; exactness ].
Ltac finites :=
  repeat match goal with H : all_finite _ |- _ => unfold all_finite in H | H : Forall _ (_ :: _) |- _ => inversion H; clear H; subst end.

(** C66: multiplying a finite matrix or vector by the identity matrix changes nothing (under ==). *)
Lemma C66_identity_matrix_pf : forall L : Libm,
  let same a b := Forall2 ieee_eq a b in
  (forall m, all_finite (lm2 m) -> same (lm2 (mat2_mul (F32 L) m (mat2_default (F32 L)))) (lm2 m) /\
                                   same (lm2 (mat2_mul (F32 L) (mat2_default (F32 L)) m)) (lm2 m)) /\
  (forall m, all_finite (lm3 m) -> same (lm3 (mat3_mul (F32 L) m (mat3_default (F32 L)))) (lm3 m) /\
                                   same (lm3 (mat3_mul (F32 L) (mat3_default (F32 L)) m)) (lm3 m)) /\
  (forall m, all_finite (lm4 m) -> same (lm4 (mat4_mul (F32 L) m (mat4_default (F32 L)))) (lm4 m) /\
                                   same (lm4 (mat4_mul (F32 L) (mat4_default (F32 L)) m)) (lm4 m)) /\
  (forall v, all_finite (l2 v) -> same (l2 (mat2_mul_vec (F32 L) (mat2_default (F32 L)) v)) (l2 v)) /\
  (forall v, all_finite (l3 v) -> same (l3 (mat3_mul_vec (F32 L) (mat3_default (F32 L)) v)) (l3 v)) /\
  (forall v, all_finite (l4 v) -> same (l4 (mat4_mul_vec (F32 L) (mat4_default (F32 L)) v)) (l4 v)).
Proof.
  intros L same. ands; intros m F; try split; vdestruct; revert F; unfold same; fs; intros F; finites;
    repeat (apply Forall2_cons; [apply ex_eq; [assumption|exactness]|]); apply Forall2_nil.
Qed.

(** C66: not so for the identity quaternion: the product scheme rounds. *)
Lemma C66_identity_quaternion_refuted_pf : forall L : Libm, exists q : quat f32, all_finite (lq q) /\
  quat_eq (F32 L) (quat_mul (F32 L) q (quat_default (F32 L))) q = false /\
  quat_eq (F32 L) (quat_mul (F32 L) (quat_default (F32 L)) q) q = false.
Proof.
  intros L. exists (Quat (f32_lit 1 (-1)) (f32_lit 2 (-1)) (f32_lit 3 (-1)) (f32_lit 4 (-1))).
  ands; [repeat constructor|vm_compute; reflexivity|vm_compute; reflexivity].
Qed.

(** C66: scaling by a power of two is exact when no component underflows or overflows. *)
Lemma C66_power_of_two_pf : forall (L : Libm) (p : f32) (k : Z), finite p -> b2r p = bpow radix2 k ->
  let fine x := finite x /\ (b2r x = 0 \/ bpow radix2 (-126) <= Rabs (b2r x * bpow radix2 k) < bpow radix2 128) in
  let scaled x y := finite y /\ b2r y = b2r x * bpow radix2 k in
  (forall v, Forall fine (l2 v) -> Forall2 scaled (l2 v) (l2 (vec2_mul_sc (F32 L) v p))) /\
  (forall v, Forall fine (l3 v) -> Forall2 scaled (l3 v) (l3 (vec3_mul_sc (F32 L) v p))) /\
  (forall v, Forall fine (l4 v) -> Forall2 scaled (l4 v) (l4 (vec4_mul_sc (F32 L) v p))) /\
  (forall q, Forall fine (lq q) -> Forall2 scaled (lq q) (lq (quat_mul_sc (F32 L) q p))).
Proof.
  intros L p k Fp Ep fine scaled.
  assert (A : forall x : f32, fine x -> scaled x (bmul x p)).
  { intros x [F [Z|[N O]]]; unfold scaled.
    - destruct (mult_ok x p F Fp) as [A B]; rewrite Z, Rmult_0_l, rnd_0 in *; [rewrite Rabs_R0; apply big_pos|].
      split; [assumption|]. rewrite B. ring.
    - assert (E : rnd (b2r x * b2r p) = b2r x * bpow radix2 k).
      { rewrite Ep. apply rnd_id.
        apply (mult_bpow_exact_FLT radix2 (-149) 24); [apply fmt_b2r|].
        assert (X0 : b2r x <> 0). { intros Z. rewrite Z, Rmult_0_l, Rabs_R0 in N. pose proof (bpow_gt_0 radix2 (-126)). lra. }
        pose proof (mag_ge_bpow radix2 (b2r x * bpow radix2 k) (-125) N) as M. rewrite mag_mult_bpow in M by exact X0. lia. }
      destruct (mult_ok x p F Fp) as [A B]; rewrite E in *; [exact O|]. now split. }
  ands; intros v H; vdestruct; revert H; fs; intros H;
    repeat match goal with H : Forall _ (_ :: _) |- _ => inversion H; clear H; subst end;
    repeat (apply Forall2_cons; [apply A; assumption|]); apply Forall2_nil.
Qed.

(** C66: subtracting values within a factor of two of each other is exact (Sterbenz). *)
Lemma C66_sterbenz_pf : forall L : Libm,
  let near x y := finite x /\ finite y /\ b2r y / 2 <= b2r x <= 2 * b2r y in
  let difference x y d := finite d /\ b2r d = b2r x - b2r y in
  (forall u v, Forall2 near (l2 u) (l2 v) -> Forall (fun p => p) (zip3 difference (l2 u) (l2 v) (l2 (vec2_sub (F32 L) u v)))) /\
  (forall u v, Forall2 near (l3 u) (l3 v) -> Forall (fun p => p) (zip3 difference (l3 u) (l3 v) (l3 (vec3_sub (F32 L) u v)))) /\
  (forall u v, Forall2 near (l4 u) (l4 v) -> Forall (fun p => p) (zip3 difference (l4 u) (l4 v) (l4 (vec4_sub (F32 L) u v)))) /\
  (forall u v, Forall2 near (lq u) (lq v) -> Forall (fun p => p) (zip3 difference (lq u) (lq v) (lq (quat_sub (F32 L) u v)))).
Proof.
  intros L near difference.
  assert (A : forall x y : f32, near x y -> difference x y (bsub x y)).
  { intros x y (F & G & H). unfold difference.
    assert (E : rnd (b2r x - b2r y) = b2r x - b2r y).
    { apply rnd_id. apply sterbenz; auto with typeclass_instances; apply fmt_b2r. }
    destruct (minus_ok x y F G) as [P Q]; rewrite E in *; [|now split].
    pose proof (b2r_lt_big x). pose proof (b2r_lt_big y). unfold Rabs. destruct Rcase_abs; lra. }
  ands; intros u v H; vdestruct;
    repeat match goal with H : Forall2 _ _ _ |- _ => inversion H; clear H; subst end;
    cbv [zip3 l2 l3 l4 lq]; repeat (apply Forall_cons; [apply A; assumption|]); apply Forall_nil.
Qed.

(** C66: negation is exact on every float. *)
Lemma C66_negation_pf : forall L : Libm,
  let negated x y := is_nan x = is_nan y /\ xr y = - xr x in
  (forall v, Forall2 negated (l2 v) (l2 (vec2_neg (F32 L) v))) /\
  (forall v, Forall2 negated (l3 v) (l3 (vec3_neg (F32 L) v))) /\
  (forall v, Forall2 negated (l4 v) (l4 (vec4_neg (F32 L) v))) /\
  (forall v, Forall2 negated (lq v) (lq (quat_neg (F32 L) v))) /\
  (forall v, Forall2 negated (lm2 v) (lm2 (mat2_neg (F32 L) v))) /\
  (forall v, Forall2 negated (lm3 v) (lm3 (mat3_neg (F32 L) v))) /\
  (forall v, Forall2 negated (lm4 v) (lm4 (mat4_neg (F32 L) v))).
Proof.
  intros L negated.
  assert (A : forall x : f32, negated x (Bopp x)) by (intros x; split; [now rewrite is_nan_Bopp|apply xr_opp]).
  ands; intros; vdestruct; fs; repeat (apply Forall2_cons; [apply A|]); apply Forall2_nil.
Qed.

(*PROPS
(** hypotheses met by values that do round elsewhere *)
Example C66_ex : let x := f32_lit 3 (-1) in let y := f32_lit 4 (-1) in
  finite x /\ B2R y / 2 <= B2R x <= 2 * B2R y.
Proof.
  intros x y. split; [reflexivity|]. assert (Ex : B2R x = 10066330 * / 33554432) by (vm_compute; lra).
  assert (Ey : B2R y = 13421773 * / 33554432) by (vm_compute; lra). rewrite Ex, Ey. lra.
Qed.

PROPS*)
(** ** C67 *)
Ltac rnan := (* nan, trying divisors and second operands first *)
  first [ apply nan_div_r; rnan | apply nan_mul_r; rnan | nan ].
Ltac some_nan H := repeat (apply Exists_cons in H; destruct H as [H|H]); try (now apply Exists_nil in H).
(** C67: a NaN in any component makes every reduction of the vectors NaN. *)
Lemma C67_reductions_pf : forall L : Libm,
  (forall x y : f32, some_nan [x; y] -> is_nan (dot_f (F32 L) x y) = true) /\
  (forall u v, some_nan (l2 u ++ l2 v) -> is_nan (dot2 (F32 L) u v) = true) /\
  (forall u v, some_nan (l3 u ++ l3 v) -> is_nan (dot3 (F32 L) u v) = true) /\
  (forall u v, some_nan (l4 u ++ l4 v) -> is_nan (dot4 (F32 L) u v) = true) /\
  (forall u v, some_nan (lq u ++ lq v) -> is_nan (dot_q (F32 L) u v) = true) /\
  (forall u v, some_nan (l2 u ++ l2 v) -> is_nan (distance2 (F32 L) u v) = true) /\
  (forall u v, some_nan (l2 u ++ l2 v) -> is_nan (distance2_2 (F32 L) u v) = true) /\
  (forall u v, some_nan (l3 u ++ l3 v) -> is_nan (distance3 (F32 L) u v) = true) /\
  (forall u v, some_nan (l3 u ++ l3 v) -> is_nan (distance2_3 (F32 L) u v) = true) /\
  (forall u v, some_nan (l4 u ++ l4 v) -> is_nan (distance4 (F32 L) u v) = true) /\
  (forall u v, some_nan (l4 u ++ l4 v) -> is_nan (distance2_4 (F32 L) u v) = true) /\
  (forall v, some_nan (l2 v) -> is_nan (length2 (F32 L) v) = true) /\
  (forall v, some_nan (l2 v) -> is_nan (length2_2 (F32 L) v) = true) /\
  (forall v, some_nan (l3 v) -> is_nan (length3 (F32 L) v) = true) /\
  (forall v, some_nan (l3 v) -> is_nan (length2_3 (F32 L) v) = true) /\
  (forall v, some_nan (l4 v) -> is_nan (length4 (F32 L) v) = true) /\
  (forall v, some_nan (l4 v) -> is_nan (length2_4 (F32 L) v) = true) /\
  (forall v, some_nan (lq v) -> is_nan (length_q (F32 L) v) = true) /\
  (forall v, some_nan (lq v) -> is_nan (length2_q (F32 L) v) = true) /\
  (forall v, some_nan (l2 v) -> is_nan (compAdd2 (F32 L) v) = true /\ is_nan (compMul2 (F32 L) v) = true) /\
  (forall v, some_nan (l3 v) -> is_nan (compAdd3 (F32 L) v) = true /\ is_nan (compMul3 (F32 L) v) = true) /\
  (forall v, some_nan (l4 v) -> is_nan (compAdd4 (F32 L) v) = true /\ is_nan (compMul4 (F32 L) v) = true).
Proof.
  intros L. ands; intros; vdestruct;
    match goal with H : some_nan _ |- _ => revert H; unfold some_nan; fs; intros H; some_nan H end; try split; nan.
Qed.

(** C67: every component of the cross product that depends on a NaN is NaN. *)
Lemma C67_cross_pf : forall L : Libm,
  (forall u v, some_nan [y3 u; z3 u; y3 v; z3 v] -> is_nan (x3 (cross (F32 L) u v)) = true) /\
  (forall u v, some_nan [z3 u; x3 u; z3 v; x3 v] -> is_nan (y3 (cross (F32 L) u v)) = true) /\
  (forall u v, some_nan [x3 u; y3 u; x3 v; y3 v] -> is_nan (z3 (cross (F32 L) u v)) = true).
Proof.
  intros L. ands; intros; vdestruct;
    match goal with H : some_nan _ |- _ => revert H; unfold some_nan; fs; intros H; some_nan H end; nan.
Qed.

(** C67: determinants, and the components of matrix-vector products that depend on a NaN. *)
Lemma C67_matrix_vector_pf : forall L : Libm,
  (forall m, some_nan (lm2 m) -> is_nan (determinant2 (F32 L) m) = true) /\
  (forall m, some_nan (lm3 m) -> is_nan (determinant3 (F32 L) m) = true) /\
  (forall m, some_nan (lm4 m) -> is_nan (determinant4 (F32 L) m) = true) /\
  (forall m v, some_nan ([x2 (m2c0 m); x2 (m2c1 m)] ++ l2 v) -> is_nan (x2 (mat2_mul_vec (F32 L) m v)) = true) /\
  (forall m v, some_nan (l2 (m2c0 m) ++ l2 v) -> is_nan (x2 (vec_mul_mat2 (F32 L) v m)) = true) /\
  (forall m v, some_nan ([y2 (m2c0 m); y2 (m2c1 m)] ++ l2 v) -> is_nan (y2 (mat2_mul_vec (F32 L) m v)) = true) /\
  (forall m v, some_nan (l2 (m2c1 m) ++ l2 v) -> is_nan (y2 (vec_mul_mat2 (F32 L) v m)) = true) /\
  (forall m v, some_nan ([x3 (m3c0 m); x3 (m3c1 m); x3 (m3c2 m)] ++ l3 v) -> is_nan (x3 (mat3_mul_vec (F32 L) m v)) = true) /\
  (forall m v, some_nan (l3 (m3c0 m) ++ l3 v) -> is_nan (x3 (vec_mul_mat3 (F32 L) v m)) = true) /\
  (forall m v, some_nan ([y3 (m3c0 m); y3 (m3c1 m); y3 (m3c2 m)] ++ l3 v) -> is_nan (y3 (mat3_mul_vec (F32 L) m v)) = true) /\
  (forall m v, some_nan (l3 (m3c1 m) ++ l3 v) -> is_nan (y3 (vec_mul_mat3 (F32 L) v m)) = true) /\
  (forall m v, some_nan ([z3 (m3c0 m); z3 (m3c1 m); z3 (m3c2 m)] ++ l3 v) -> is_nan (z3 (mat3_mul_vec (F32 L) m v)) = true) /\
  (forall m v, some_nan (l3 (m3c2 m) ++ l3 v) -> is_nan (z3 (vec_mul_mat3 (F32 L) v m)) = true) /\
  (forall m v, some_nan ([x4 (m4c0 m); x4 (m4c1 m); x4 (m4c2 m); x4 (m4c3 m)] ++ l4 v) -> is_nan (x4 (mat4_mul_vec (F32 L) m v)) = true) /\
  (forall m v, some_nan (l4 (m4c0 m) ++ l4 v) -> is_nan (x4 (vec_mul_mat4 (F32 L) v m)) = true) /\
  (forall m v, some_nan ([y4 (m4c0 m); y4 (m4c1 m); y4 (m4c2 m); y4 (m4c3 m)] ++ l4 v) -> is_nan (y4 (mat4_mul_vec (F32 L) m v)) = true) /\
  (forall m v, some_nan (l4 (m4c1 m) ++ l4 v) -> is_nan (y4 (vec_mul_mat4 (F32 L) v m)) = true) /\
  (forall m v, some_nan ([z4 (m4c0 m); z4 (m4c1 m); z4 (m4c2 m); z4 (m4c3 m)] ++ l4 v) -> is_nan (z4 (mat4_mul_vec (F32 L) m v)) = true) /\
  (forall m v, some_nan (l4 (m4c2 m) ++ l4 v) -> is_nan (z4 (vec_mul_mat4 (F32 L) v m)) = true) /\
  (forall m v, some_nan ([w4 (m4c0 m); w4 (m4c1 m); w4 (m4c2 m); w4 (m4c3 m)] ++ l4 v) -> is_nan (w4 (mat4_mul_vec (F32 L) m v)) = true) /\
  (forall m v, some_nan (l4 (m4c3 m) ++ l4 v) -> is_nan (w4 (vec_mul_mat4 (F32 L) v m)) = true).
Proof.
  intros L. ands; intros; vdestruct;
    match goal with H : some_nan _ |- _ => revert H; unfold some_nan; fs; intros H; some_nan H end; nan.
Qed.

(** C67: entry (i,j) of a product is NaN as soon as its row or column contains one. *)
Lemma C67_matrix_product_pf : forall L : Libm,
  (forall a b, some_nan ([x2 (m2c0 a); x2 (m2c1 a)] ++ l2 (m2c0 b)) -> is_nan (x2 (m2c0 (mat2_mul (F32 L) a b))) = true) /\
  (forall a b, some_nan ([y2 (m2c0 a); y2 (m2c1 a)] ++ l2 (m2c0 b)) -> is_nan (y2 (m2c0 (mat2_mul (F32 L) a b))) = true) /\
  (forall a b, some_nan ([x2 (m2c0 a); x2 (m2c1 a)] ++ l2 (m2c1 b)) -> is_nan (x2 (m2c1 (mat2_mul (F32 L) a b))) = true) /\
  (forall a b, some_nan ([y2 (m2c0 a); y2 (m2c1 a)] ++ l2 (m2c1 b)) -> is_nan (y2 (m2c1 (mat2_mul (F32 L) a b))) = true) /\
  (forall a b, some_nan ([x3 (m3c0 a); x3 (m3c1 a); x3 (m3c2 a)] ++ l3 (m3c0 b)) -> is_nan (x3 (m3c0 (mat3_mul (F32 L) a b))) = true) /\
  (forall a b, some_nan ([y3 (m3c0 a); y3 (m3c1 a); y3 (m3c2 a)] ++ l3 (m3c0 b)) -> is_nan (y3 (m3c0 (mat3_mul (F32 L) a b))) = true) /\
  (forall a b, some_nan ([z3 (m3c0 a); z3 (m3c1 a); z3 (m3c2 a)] ++ l3 (m3c0 b)) -> is_nan (z3 (m3c0 (mat3_mul (F32 L) a b))) = true) /\
  (forall a b, some_nan ([x3 (m3c0 a); x3 (m3c1 a); x3 (m3c2 a)] ++ l3 (m3c1 b)) -> is_nan (x3 (m3c1 (mat3_mul (F32 L) a b))) = true) /\
  (forall a b, some_nan ([y3 (m3c0 a); y3 (m3c1 a); y3 (m3c2 a)] ++ l3 (m3c1 b)) -> is_nan (y3 (m3c1 (mat3_mul (F32 L) a b))) = true) /\
  (forall a b, some_nan ([z3 (m3c0 a); z3 (m3c1 a); z3 (m3c2 a)] ++ l3 (m3c1 b)) -> is_nan (z3 (m3c1 (mat3_mul (F32 L) a b))) = true) /\
  (forall a b, some_nan ([x3 (m3c0 a); x3 (m3c1 a); x3 (m3c2 a)] ++ l3 (m3c2 b)) -> is_nan (x3 (m3c2 (mat3_mul (F32 L) a b))) = true) /\
  (forall a b, some_nan ([y3 (m3c0 a); y3 (m3c1 a); y3 (m3c2 a)] ++ l3 (m3c2 b)) -> is_nan (y3 (m3c2 (mat3_mul (F32 L) a b))) = true) /\
  (forall a b, some_nan ([z3 (m3c0 a); z3 (m3c1 a); z3 (m3c2 a)] ++ l3 (m3c2 b)) -> is_nan (z3 (m3c2 (mat3_mul (F32 L) a b))) = true) /\
  (forall a b, some_nan ([x4 (m4c0 a); x4 (m4c1 a); x4 (m4c2 a); x4 (m4c3 a)] ++ l4 (m4c0 b)) -> is_nan (x4 (m4c0 (mat4_mul (F32 L) a b))) = true) /\
  (forall a b, some_nan ([y4 (m4c0 a); y4 (m4c1 a); y4 (m4c2 a); y4 (m4c3 a)] ++ l4 (m4c0 b)) -> is_nan (y4 (m4c0 (mat4_mul (F32 L) a b))) = true) /\
  (forall a b, some_nan ([z4 (m4c0 a); z4 (m4c1 a); z4 (m4c2 a); z4 (m4c3 a)] ++ l4 (m4c0 b)) -> is_nan (z4 (m4c0 (mat4_mul (F32 L) a b))) = true) /\
  (forall a b, some_nan ([w4 (m4c0 a); w4 (m4c1 a); w4 (m4c2 a); w4 (m4c3 a)] ++ l4 (m4c0 b)) -> is_nan (w4 (m4c0 (mat4_mul (F32 L) a b))) = true) /\
  (forall a b, some_nan ([x4 (m4c0 a); x4 (m4c1 a); x4 (m4c2 a); x4 (m4c3 a)] ++ l4 (m4c1 b)) -> is_nan (x4 (m4c1 (mat4_mul (F32 L) a b))) = true) /\
  (forall a b, some_nan ([y4 (m4c0 a); y4 (m4c1 a); y4 (m4c2 a); y4 (m4c3 a)] ++ l4 (m4c1 b)) -> is_nan (y4 (m4c1 (mat4_mul (F32 L) a b))) = true) /\
  (forall a b, some_nan ([z4 (m4c0 a); z4 (m4c1 a); z4 (m4c2 a); z4 (m4c3 a)] ++ l4 (m4c1 b)) -> is_nan (z4 (m4c1 (mat4_mul (F32 L) a b))) = true) /\
  (forall a b, some_nan ([w4 (m4c0 a); w4 (m4c1 a); w4 (m4c2 a); w4 (m4c3 a)] ++ l4 (m4c1 b)) -> is_nan (w4 (m4c1 (mat4_mul (F32 L) a b))) = true) /\
  (forall a b, some_nan ([x4 (m4c0 a); x4 (m4c1 a); x4 (m4c2 a); x4 (m4c3 a)] ++ l4 (m4c2 b)) -> is_nan (x4 (m4c2 (mat4_mul (F32 L) a b))) = true) /\
  (forall a b, some_nan ([y4 (m4c0 a); y4 (m4c1 a); y4 (m4c2 a); y4 (m4c3 a)] ++ l4 (m4c2 b)) -> is_nan (y4 (m4c2 (mat4_mul (F32 L) a b))) = true) /\
  (forall a b, some_nan ([z4 (m4c0 a); z4 (m4c1 a); z4 (m4c2 a); z4 (m4c3 a)] ++ l4 (m4c2 b)) -> is_nan (z4 (m4c2 (mat4_mul (F32 L) a b))) = true) /\
  (forall a b, some_nan ([w4 (m4c0 a); w4 (m4c1 a); w4 (m4c2 a); w4 (m4c3 a)] ++ l4 (m4c2 b)) -> is_nan (w4 (m4c2 (mat4_mul (F32 L) a b))) = true) /\
  (forall a b, some_nan ([x4 (m4c0 a); x4 (m4c1 a); x4 (m4c2 a); x4 (m4c3 a)] ++ l4 (m4c3 b)) -> is_nan (x4 (m4c3 (mat4_mul (F32 L) a b))) = true) /\
  (forall a b, some_nan ([y4 (m4c0 a); y4 (m4c1 a); y4 (m4c2 a); y4 (m4c3 a)] ++ l4 (m4c3 b)) -> is_nan (y4 (m4c3 (mat4_mul (F32 L) a b))) = true) /\
  (forall a b, some_nan ([z4 (m4c0 a); z4 (m4c1 a); z4 (m4c2 a); z4 (m4c3 a)] ++ l4 (m4c3 b)) -> is_nan (z4 (m4c3 (mat4_mul (F32 L) a b))) = true) /\
  (forall a b, some_nan ([w4 (m4c0 a); w4 (m4c1 a); w4 (m4c2 a); w4 (m4c3 a)] ++ l4 (m4c3 b)) -> is_nan (w4 (m4c3 (mat4_mul (F32 L) a b))) = true).
Proof.
  intros L. ands; intros; vdestruct;
    match goal with H : some_nan _ |- _ => revert H; unfold some_nan; fs; intros H; some_nan H end; nan.
Qed.

(** C67: normalize, inverse and the quaternion product spread a NaN to every component. *)
Lemma C67_all_components_pf : forall L : Libm,
  (forall v, some_nan (l2 v) -> Forall (fun x => is_nan x = true) (l2 (normalize2 (F32 L) v))) /\
  (forall v, some_nan (l3 v) -> Forall (fun x => is_nan x = true) (l3 (normalize3 (F32 L) v))) /\
  (forall v, some_nan (l4 v) -> Forall (fun x => is_nan x = true) (l4 (normalize4 (F32 L) v))) /\
  (forall q, some_nan (lq q) -> Forall (fun x => is_nan x = true) (lq (normalize_q (F32 L) q))) /\
  (forall m, some_nan (lm2 m) -> Forall (fun x => is_nan x = true) (lm2 (inverse2 (F32 L) m))) /\
  (forall m, some_nan (lm3 m) -> Forall (fun x => is_nan x = true) (lm3 (inverse3 (F32 L) m))) /\
  (forall m, some_nan (lm4 m) -> Forall (fun x => is_nan x = true) (lm4 (inverse4 (F32 L) m))) /\
  (forall p q, some_nan (lq p ++ lq q) -> Forall (fun x => is_nan x = true) (lq (quat_mul (F32 L) p q))).
Proof.
  intros L. ands; intros; vdestruct;
    match goal with H : some_nan _ |- _ => revert H; unfold some_nan; fs; intros H; some_nan H end;
    first [match goal with |- context [Bdiv mode_NE (f32_lit 1 0) ?d] => let N := fresh in assert (N : is_nan (Bdiv mode_NE (f32_lit 1 0) d) = true) by (apply nan_div_r; rnan);
             revert N; generalize (Bdiv mode_NE (f32_lit 1 0) d); intros r N; repeat (apply Forall_cons; [apply nan_mul_r; exact N|]) end
          |repeat (apply Forall_cons; [rnan|])]; apply Forall_nil.
Qed.

(** C67: the exceptions: the extrema and sign drop a NaN operand. *)
Lemma C67_masked_pf : forall (L : Libm) (x : f32),
  min_f (F32 L) x B754_nan = x /\ max_f (F32 L) x B754_nan = x /\
  sign_f (F32 L) B754_nan = f32_lit (-1) 0 /\
  compMin2 (F32 L) (V2 x B754_nan) = x /\ compMax2 (F32 L) (V2 x B754_nan) = x.
Proof.
  intros L x. assert (B : Bltb x B754_nan = false) by now apply Bltb_nan_r.
  assert (B' : Bltb B754_nan x = false) by now apply Bltb_nan_l.
  ands.
  - fs. now rewrite B'.
  - fs. now rewrite B.
  - f32_eq.
  - fs. now rewrite B'.
  - fs. now rewrite B.
Qed.

(*PROPS
Example C67_ex : is_nan (dot2 (F32 L0) (V2 (f32_lit 1 0) B754_nan) (V2 (f32_lit 0 0) (f32_lit 0 0))) = true.
Proof. reflexivity. Qed.

PROPS*)
