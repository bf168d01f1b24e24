(** * Algebra of binary32 operations: commutativity, NaN propagation, sign symmetry *)
From Coq Require Import ZArith Bool Reals List Lra Lia.
From Flocq Require Import Core IEEE754.BinarySingleNaN.
From Verif Require Import Scalar IEEE32 FloatBasics SpecF32 FloatOps.
Import ListNotations.
Local Open Scope R_scope.

(** Computes everything but the operations on floats. *)
Ltac fs := cbv -[Bplus Bmult Bminus Bdiv Bsqrt Bopp Babs Bfma Bltb Bleb Beqb Bnearbyint f32_lit f32_ofZ f32_isinf f32_prec_gt_0
  f32_prec_lt_emax is_nan is_finite xr rnd f32 iff not Rplus Rmult Rminus Ropp Rdiv Rinv Rabs IZR Rle Rlt Rge Rgt
  ieee_eq ieee_lt ieee_le finite l_cos l_sin l_tan l_acos l_asin l_atan l_atan2 l_pow l_exp l_log l_log2 l_cbrt].

Notation badd := (Bplus (prec := 24) (emax := 128) mode_NE).
Notation bsub := (Bminus (prec := 24) (emax := 128) mode_NE).
Notation bmul := (Bmult (prec := 24) (emax := 128) mode_NE).
Notation bdiv := (Bdiv (prec := 24) (emax := 128) mode_NE).
Notation bsqrt := (Bsqrt (prec := 24) (emax := 128) mode_NE).

(** ** Commutativity, bit for bit *)
Lemma badd_comm (x y : f32) : badd x y = badd y x.
Proof.
  destruct x as [s|s| |s m e H], y as [s'|s'| |s' m' e' H']; cbn [Bplus]; try reflexivity.
  - destruct s, s'; reflexivity.
  - destruct s, s'; reflexivity.
  - rewrite (Z.min_comm e e'). f_equal. unfold SpecFloat.shl_align, BinarySingleNaN.Fplus_naive. apply Z.add_comm.
Qed.
Lemma bmul_comm (x y : f32) : bmul x y = bmul y x.
Proof.
  destruct x as [s|s| |s m e H], y as [s'|s'| |s' m' e' H']; cbn [Bmult]; try reflexivity; try (now rewrite xorb_comm).
  apply B2SF_inj. rewrite !B2SF_SF2B. now rewrite xorb_comm, Pos.mul_comm, Z.add_comm.
Qed.

(** ** NaN propagation *)
Lemma nan_add_l (x y : f32) : is_nan x = true -> is_nan (badd x y) = true.
Proof. destruct x; try discriminate. destruct y; reflexivity. Qed.
Lemma nan_add_r (x y : f32) : is_nan y = true -> is_nan (badd x y) = true.
Proof. destruct y; try discriminate. destruct x; reflexivity. Qed.
Lemma nan_sub_l (x y : f32) : is_nan x = true -> is_nan (bsub x y) = true.
Proof. destruct x; try discriminate. destruct y; reflexivity. Qed.
Lemma nan_sub_r (x y : f32) : is_nan y = true -> is_nan (bsub x y) = true.
Proof. destruct y; try discriminate. destruct x; reflexivity. Qed.
Lemma nan_mul_l (x y : f32) : is_nan x = true -> is_nan (bmul x y) = true.
Proof. destruct x; try discriminate. destruct y; reflexivity. Qed.
Lemma nan_mul_r (x y : f32) : is_nan y = true -> is_nan (bmul x y) = true.
Proof. destruct y; try discriminate. destruct x; reflexivity. Qed.
Lemma nan_div_l (x y : f32) : is_nan x = true -> is_nan (bdiv x y) = true.
Proof. destruct x; try discriminate. destruct y; reflexivity. Qed.
Lemma nan_div_r (x y : f32) : is_nan y = true -> is_nan (bdiv x y) = true.
Proof. destruct y; try discriminate. destruct x; reflexivity. Qed.
Lemma nan_opp (x : f32) : is_nan x = true -> is_nan (Bopp x) = true.
Proof. destruct x; try discriminate. reflexivity. Qed.
Lemma nan_abs (x : f32) : is_nan x = true -> is_nan (Babs x) = true.
Proof. destruct x; try discriminate. reflexivity. Qed.
Lemma nan_sqrt (x : f32) : is_nan x = true -> is_nan (bsqrt x) = true.
Proof. destruct x; try discriminate. reflexivity. Qed.

Ltac nan :=
  first [ assumption
        | apply nan_add_l; nan | apply nan_add_r; nan | apply nan_sub_l; nan | apply nan_sub_r; nan
        | apply nan_mul_l; nan | apply nan_mul_r; nan | apply nan_div_l; nan | apply nan_div_r; nan
        | apply nan_opp; nan | apply nan_abs; nan | apply nan_sqrt; nan ].

(** ** Opposite values: NaN together, or opposite reals (zeros of any sign) *)
Definition opposite (x y : f32) : Prop := is_nan x = is_nan y /\ (is_nan x = false -> xr y = - xr x).

Lemma xr_opp (x : f32) : xr (Bopp x) = - xr x.
Proof.
  destruct x as [s|s| |s m e H]; cbn [Bopp xr]; [cbn; ring| | cbn; ring|].
  - destruct s; cbn [xr negb]; ring.
  - apply (B2R_Bopp 24 128 (B754_finite s m e H)).
Qed.
Lemma opposite_opp (x : f32) : opposite x (Bopp x).
Proof. split; [now destruct x|]. intros _. apply xr_opp. Qed.
Lemma opposite_nan (x y : f32) : is_nan x = true -> is_nan y = true -> opposite x y.
Proof. intros A B. split; [congruence|]. intros C. congruence. Qed.

Lemma xr_big_inf (x : f32) (s : bool) : is_nan x = false -> xr x = (if s then - big else big) -> x = B754_infinity s.
Proof.
  intros N E. pose proof big_pos as P. destruct x as [s'|s'| |s' m e H]; cbn [xr] in *.
  - cbn [B2R] in E. destruct s; lra.
  - f_equal. destruct s, s'; try reflexivity; lra.
  - discriminate.
  - pose proof (b2r_lt_big (B754_finite s' m e H)) as Q. destruct s; lra.
Qed.

Lemma clip_opp r : clip (- r) = - clip r.
Proof.
  pose proof big_pos. unfold clip, Rmax, Rmin. repeat destruct Rle_dec; lra.
Qed.

Lemma opposite_finite (x y : f32) : opposite x y -> finite x -> finite y.
Proof.
  intros [N E] F. pose proof (finite_nn x F) as Nx. specialize (E Nx). apply finite_of_xr; [congruence|].
  rewrite E, Rabs_Ropp. rewrite xr_finite by exact F. pose proof (b2r_lt_big x). unfold Rabs. destruct Rcase_abs; lra.
Qed.
Lemma opposite_inf (y : f32) s : opposite (B754_infinity s) y -> y = B754_infinity (negb s).
Proof.
  intros [N E]. specialize (E eq_refl). apply xr_big_inf; [symmetry; exact N|]. rewrite E. destruct s; cbn; ring.
Qed.
Lemma opposite_b2r (x y : f32) : opposite x y -> finite x -> b2r y = - b2r x.
Proof.
  intros H F. pose proof (opposite_finite _ _ H F) as G. destruct H as [_ E].
  specialize (E (finite_nn x F)). now rewrite !xr_finite in E.
Qed.
Lemma fin_cases (x : f32) : {finite x} + {exists s, x = B754_infinity s} + {is_nan x = true}.
Proof. destruct x; [left; left|left; right; eauto|right|left; left]; reflexivity. Qed.

Lemma opposite_add (x x' y y' : f32) : opposite x x' -> opposite y y' -> opposite (badd x y) (badd x' y').
Proof.
  intros Hx Hy. destruct (fin_cases x) as [[F|[s ->]]|F].
  - destruct (fin_cases y) as [[G|[s ->]]|G].
    + pose proof (opposite_finite _ _ Hx F) as F'. pose proof (opposite_finite _ _ Hy G) as G'.
      destruct (plus_xr x y F G) as [E N]. destruct (plus_xr x' y' F' G') as [E' N']. split; [congruence|]. intros _.
      rewrite E, E', (opposite_b2r _ _ Hx F), (opposite_b2r _ _ Hy G).
      replace (- b2r x + - b2r y) with (- (b2r x + b2r y)) by ring. now rewrite rnd_opp, clip_opp.
    + pose proof (opposite_finite _ _ Hx F) as F'. rewrite (opposite_inf _ _ Hy).
      destruct x; try discriminate F; destruct x'; try discriminate F'; cbn [Bplus]; apply (opposite_opp (B754_infinity s)).
    + assert (is_nan y' = true) by (destruct Hy as [<- _]; exact G). apply opposite_nan; nan.
  - rewrite (opposite_inf _ _ Hx). destruct (fin_cases y) as [[G|[t ->]]|G].
    + pose proof (opposite_finite _ _ Hy G) as G'.
      destruct y; try discriminate G; destruct y'; try discriminate G'; cbn [Bplus]; apply (opposite_opp (B754_infinity s)).
    + rewrite (opposite_inf _ _ Hy). cbn [Bplus]. destruct s, t; cbn; split; try reflexivity; intros; cbn [xr]; try discriminate; ring.
    + assert (is_nan y' = true) by (destruct Hy as [<- _]; exact G). apply opposite_nan; nan.
  - assert (is_nan x' = true) by (destruct Hx as [<- _]; exact F). apply opposite_nan; nan.
Qed.
Lemma opposite_sym (x y : f32) : opposite x y -> opposite y x.
Proof. intros [A B]. split; [congruence|]. intros C. rewrite B by congruence. ring. Qed.
Lemma opp_involutive (x : f32) : Bopp (Bopp x) = x.
Proof. destruct x; cbn; now rewrite ?negb_involutive. Qed.
Lemma opposite_opp2 (x y : f32) : opposite x y -> opposite (Bopp x) (Bopp y).
Proof.
  intros [A B]. split; [now rewrite !is_nan_Bopp|]. rewrite is_nan_Bopp. intros C. rewrite !xr_opp. rewrite B by exact C. ring.
Qed.
Lemma opposite_sub (x x' y y' : f32) : opposite x x' -> opposite y y' -> opposite (bsub x y) (bsub x' y').
Proof. intros. rewrite !minus_plus. apply opposite_add; [assumption|now apply opposite_opp2]. Qed.
Lemma opposite_swap (x y : f32) : opposite (bsub x y) (bsub y x).
Proof.
  rewrite !minus_plus. rewrite (badd_comm y). apply opposite_add; [apply opposite_opp|].
  rewrite <- (opp_involutive y) at 2. apply opposite_opp.
Qed.
Lemma Bsign_opp (x : f32) : is_nan x = false -> Bsign (Bopp x) = negb (Bsign x).
Proof. now destruct x. Qed.
Lemma bmul_opp_l (x y : f32) : bmul (Bopp x) y = Bopp (bmul x y).
Proof.
  destruct (fin_cases x) as [[F|[s ->]]|F].
  2:{ destruct y as [s'|s'| |s' m' e' H']; cbn; try reflexivity; destruct s, s'; reflexivity. }
  2:{ destruct x; try discriminate F. now destruct y. }
  destruct (fin_cases y) as [[G|[s ->]]|G].
  2:{ destruct x as [s'|s'| |s' m' e' H']; cbn; try reflexivity; destruct s, s'; reflexivity. }
  2:{ destruct y; try discriminate G. now destruct x. }
  pose proof (Bmult_correct 24 128 _ _ mode_NE x y) as A.
  pose proof (Bmult_correct 24 128 _ _ mode_NE (Bopp x) y) as B.
  rewrite B2R_Bopp in B. replace (- b2r x * b2r y) with (- (b2r x * b2r y)) in B by ring.
  rewrite round_NE_opp, Rabs_Ropp in B. rewrite Bsign_opp, is_finite_Bopp in B by now apply finite_nn.
  destruct (Rlt_bool _ _).
  - destruct A as (A1 & A2 & A3). destruct B as (B1 & B2 & B3). rewrite F, G in A2, B2.
    assert (N : is_nan (bmul x y) = false) by (now apply finite_nn).
    assert (N' : is_nan (bmul (Bopp x) y) = false) by (now apply finite_nn).
    apply B2R_Bsign_inj.
    + exact B2.
    + now rewrite is_finite_Bopp.
    + rewrite B2R_Bopp, B1, A1. reflexivity.
    + rewrite Bsign_opp by exact N. rewrite B3, A3 by assumption. now destruct (Bsign x), (Bsign y).
  - apply sf_inf in A. apply sf_inf in B. rewrite A, B. cbn. now destruct (Bsign x), (Bsign y).
Qed.
Lemma bmul_opp_r (x y : f32) : bmul x (Bopp y) = Bopp (bmul x y).
Proof. rewrite bmul_comm, bmul_opp_l. now rewrite bmul_comm. Qed.

(** ** Exact zeros *)
Lemma sub_self (x : f32) : finite x -> bsub x x = B754_zero false.
Proof.
  intros F. pose proof (Bminus_correct 24 128 _ _ mode_NE x x F F) as A.
  replace (b2r x - b2r x) with 0 in A by ring. rewrite round_0 in A by apply valid_rnd_N. rewrite Rabs_R0 in A.
  rewrite Rlt_bool_true in A by apply bpow_gt_0. destruct A as (A1 & A2 & A3).
  rewrite Rcompare_Eq in A3 by reflexivity.
  apply B2R_Bsign_inj; [exact A2|reflexivity|exact A1|]. rewrite A3. cbn. now destruct (Bsign x).
Qed.
Lemma add_opp_self (x : f32) : finite x -> badd (Bopp x) x = B754_zero false.
Proof. intros F. rewrite badd_comm, <- minus_plus. now apply sub_self. Qed.
Lemma mul_zero_r (x : f32) s : finite x -> iszero (bmul x (B754_zero s)) = true.
Proof. destruct x; try discriminate; intros _; reflexivity. Qed.
Lemma add_zero_zero (x y : f32) : iszero x = true -> iszero y = true -> iszero (badd x y) = true.
Proof. destruct x as [s| | |]; try discriminate; destruct y as [s'| | |]; try discriminate. intros _ _. destruct s, s'; reflexivity. Qed.

(** ** Multiplication by one is exact *)
Lemma bmul_one (x : f32) : bmul x (f32_lit 1 0) = x.
Proof.
  destruct x as [s|s| |s m e H].
  1,2,3: try destruct s; apply B2SF_inj; vm_compute; reflexivity.
  set (x := B754_finite s m e H). assert (F : is_finite x = true) by reflexivity.
  pose proof (Bmult_correct 24 128 eq_refl eq_refl mode_NE x (f32_lit 1 0)) as C.
  fold (b2r (f32_lit 1 0)) in C. rewrite b2r_lit1, Rmult_1_r in C.
  change (round radix2 (SpecFloat.fexp 24 128) (round_mode mode_NE) (B2R x)) with (rnd (b2r x)) in C.
  rewrite rnd_b2r in C. rewrite Rlt_bool_true in C.
  - destruct C as (A & B & C). apply B2R_Bsign_inj.
    + etransitivity; [exact B|reflexivity].
    + exact F.
    + exact A.
    + etransitivity; [apply C; apply finite_nn; etransitivity; [exact B|reflexivity]|]. cbn [Bsign x]. destruct s; reflexivity.
  - pose proof (b2r_lt_big x). apply Rabs_def1; unfold b2r in *; lra.
Qed.
Lemma one_bmul (x : f32) : bmul (f32_lit 1 0) x = x.
Proof. rewrite bmul_comm. apply bmul_one. Qed.
