(** * Decimal enclosures of real constants and correctness of float literals *)
From Coq Require Import ZArith Bool Reals Lra Lia Machin Ratan.
From Flocq Require Import Core IEEE754.BinarySingleNaN.
From Verif Require Import IEEE32 RealInst FloatBasics SpecF32 FloatOps.
Local Open Scope R_scope.

(** ** literals *)
Lemma IZR_pow10 k : IZR (Z.pow_pos 10 k) = IZR (Zpos (Pos.pow 10 k)).
Proof. f_equal. now rewrite Pos2Z.inj_pow. Qed.

Lemma norm_lit z : Rabs (rnd (IZR z)) < big -> let y := binary_normalize 24 128 _ _ mode_NE z 0 false in
  finite y /\ b2r y = rnd (IZR z).
Proof.
  intros B y. pose proof (binary_normalize_correct 24 128 _ _ mode_NE z 0 false) as H. cbv zeta in H.
  fold y in H. replace (F2R (Float radix2 z 0)) with (IZR z) in H by (unfold F2R; cbn; ring).
  change (round radix2 (SpecFloat.fexp 24 128) (round_mode mode_NE) (IZR z)) with (rnd (IZR z)) in H.
  rewrite Rlt_bool_true in H by exact B. destruct H as (H1 & H2 & _). now split.
Qed.

Lemma lit_rnd m e : (e <= 0)%Z -> Rabs (rnd (Rlit m e)) < big -> finite (f32_lit m e) /\ b2r (f32_lit m e) = rnd (Rlit m e).
Proof.
  intros He B. destruct e as [|k|k]; [| lia |].
  - unfold Rlit in *. destruct m as [|p|p].
    + split; [reflexivity|]. unfold f32_lit. now rewrite rnd_0.
    + replace (f32_lit (Z.pos p) 0) with (binary_normalize 24 128 _ _ mode_NE (Z.pos p) 0 false); [now apply norm_lit|].
      unfold f32_lit. now rewrite Z.mul_1_r.
    + replace (f32_lit (Z.neg p) 0) with (binary_normalize 24 128 _ _ mode_NE (Z.neg p) 0 false); [now apply norm_lit|].
      unfold f32_lit. now rewrite Z.mul_1_r.
  - assert (P : forall s p, Rlit (cond_Zopp s (Zpos p)) (Zneg k) =
      F2R (Float radix2 (cond_Zopp s (Zpos p)) 0) / F2R (Float radix2 (cond_Zopp false (Zpos (Pos.pow 10 k))) 0)).
    { intros s p. unfold Rlit, F2R. cbn [Fnum Fexp bpow cond_Zopp]. rewrite IZR_pow10. field. apply not_0_IZR. discriminate. }
    assert (G : forall s p, Rabs (rnd (Rlit (cond_Zopp s (Zpos p)) (Zneg k))) < big ->
      let y := SF2B _ (proj1 (Bdiv_correct_aux 24 128 _ _ mode_NE s p 0 false (Pos.pow 10 k) 0)) in
      finite y /\ b2r y = rnd (Rlit (cond_Zopp s (Zpos p)) (Zneg k))).
    { intros s p Bs. pose proof (proj2 (Bdiv_correct_aux 24 128 _ _ mode_NE s p 0 false (Pos.pow 10 k) 0)) as H. cbv zeta. unfold finite, b2r.
      rewrite is_finite_SF2B.
      rewrite <- P in H. change (round radix2 (SpecFloat.fexp 24 128) (round_mode mode_NE) (Rlit (cond_Zopp s (Zpos p)) (Zneg k))) with (rnd (Rlit (cond_Zopp s (Zpos p)) (Zneg k))) in H.
      rewrite Rlt_bool_true in H by exact Bs. destruct H as (H1 & H2 & _). split; [exact H2|]. etransitivity; [apply B2R_SF2B|exact H1]. }
    destruct m as [|p|p].
    + split; [reflexivity|]. unfold f32_lit, Rlit. unfold Rdiv. rewrite Rmult_0_l. now rewrite rnd_0.
    + exact (G false p B).
    + exact (G true p B).
Qed.

(** a real number between two literals that round to the same float *)
Lemma rnd_between x m1 m2 e (y : f32) : (e <= 0)%Z -> Rlit m1 e <= x <= Rlit m2 e -> Rabs (Rlit m1 e) <= IZR (2 ^ 20) -> Rabs (Rlit m2 e) <= IZR (2 ^ 20) ->
  B2SF (f32_lit m1 e) = B2SF y -> B2SF (f32_lit m2 e) = B2SF y -> b2r y = rnd x.
Proof.
  intros He [H1 H2] B1 B2 E1 E2. apply B2SF_inj in E1. apply B2SF_inj in E2.
  assert (S : forall t, Rabs t <= IZR (2 ^ 20) -> Rabs (rnd t) < big).
  { intros t T. apply Rle_lt_trans with (IZR (2 ^ 20)); [apply rnd_abs_le; [apply fmt_Z; cbn; lia|exact T]|].
    change (bpow radix2 20 < bpow radix2 128). apply bpow_lt. reflexivity. }
  destruct (lit_rnd m1 e He (S _ B1)) as [_ R1]. destruct (lit_rnd m2 e He (S _ B2)) as [_ R2].
  rewrite E1 in R1. rewrite E2 in R2. apply Rle_antisym; [rewrite R1 | rewrite R2]; now apply rnd_mono.
Qed.

(** ** pi *)
Lemma PI_bounds : 314159265358 / 100000000000 <= PI <= 314159265360 / 100000000000.
Proof.
  destruct (PI_2_3_7_ineq 6) as [A B]. cbn [Nat.mul Nat.add] in A, B. 
  cbn [sum_f_R0] in A, B. unfold tg_alt, PI_2_3_7_tg, Ratan_seq in A, B.
  cbn [Nat.mul Nat.add] in A, B. repeat rewrite INR_IZR_INZ in A; repeat rewrite INR_IZR_INZ in B. cbn [Z.of_nat Pos.of_succ_nat Pos.succ] in A, B. cbn [pow] in A, B. lra.
Qed.

(** ** the exponential of a negative number *)
Fixpoint Tn (a : R) (n : nat) : R := match n with O => 1 | S k => Tn a k * a / INR (S k) end.
Lemma Tn_eq a n : Tn a n = / INR (fact n) * a ^ n.
Proof.
  induction n as [|n IH]; [cbn; field|]. cbn [Tn]. rewrite IH. rewrite fact_simpl, mult_INR. cbn [pow]. field.
  split; [apply INR_fact_neq_0|apply not_0_INR; discriminate].
Qed.
Lemma Tn_pos a n : 0 <= a -> 0 <= Tn a n.
Proof. intros A. rewrite Tn_eq. apply Rmult_le_pos; [apply Rlt_le, Rinv_0_lt_compat, INR_fact_lt_0|now apply pow_le]. Qed.
Lemma Tn_decr a : 0 <= a <= 1 -> Un_decreasing (Tn a).
Proof.
  intros A n. cbn [Tn]. pose proof (Tn_pos a n (proj1 A)). assert (1 <= INR (S n)) by (apply (le_INR 1); lia).
  apply Rmult_le_reg_r with (INR (S n)); [lra|]. unfold Rdiv. rewrite Rmult_assoc, Rinv_l, Rmult_1_r by lra. nra.
Qed.
Lemma Tn_cv a : 0 <= a <= 1 -> Un_cv (Tn a) 0.
Proof.
  intros A eps E. destruct (cv_speed_pow_fact a eps E) as [N H]. exists N. intros n Hn. specialize (H n Hn).
  rewrite Tn_eq. now rewrite Rmult_comm.
Qed.
Lemma exp_neg_bounds a N : 0 <= a <= 1 -> sum_f_R0 (tg_alt (Tn a)) (S (2 * N)) <= exp (- a) <= sum_f_R0 (tg_alt (Tn a)) (2 * N).
Proof.
  intros A. apply alternated_series_ineq; [now apply Tn_decr|now apply Tn_cv|].
  unfold exp. destruct (exist_exp (- a)) as [l H]. cbn [proj1_sig]. intros eps E. destruct (H eps E) as [M HM]. exists M. intros n Hn.
  replace (sum_f_R0 (tg_alt (Tn a)) n) with (sum_f_R0 (fun i => / INR (fact i) * (- a) ^ i) n); [now apply HM|].
  apply sum_eq. intros i _. unfold tg_alt. rewrite Tn_eq. replace (- a) with (-1 * a) by ring. rewrite Rpow_mult_distr. ring.
Qed.
Ltac exp_num N := let A := fresh "A" in let B := fresh "B" in
  match goal with |- context [exp (- ?a)] => destruct (exp_neg_bounds a N) as [A B]; [lra|];
    cbn [Nat.mul Nat.add sum_f_R0] in A, B; unfold tg_alt in A, B; cbn [Tn pow] in A, B; repeat rewrite INR_IZR_INZ in A; repeat rewrite INR_IZR_INZ in B;
    cbn [Z.of_nat Pos.of_succ_nat Pos.succ] in A, B; lra end.

Lemma exp1_bounds : 27182818284 / 10000000000 <= exp 1 <= 27182818285 / 10000000000.
Proof.
  assert (H : 10000000000 / 27182818285 <= exp (- (1)) <= 10000000000 / 27182818284) by exp_num 7%nat.
  rewrite exp_Ropp in H. pose proof (exp_pos 1) as P. destruct H as [H1 H2]. split.
  - apply Rinv_le_contravar in H2; [|now apply Rinv_0_lt_compat]. rewrite Rinv_inv in H2. lra.
  - apply Rinv_le_contravar in H1; [|lra]. rewrite Rinv_inv in H1. lra.
Qed.

Lemma ln_bounds x a b : exp a <= x <= exp b -> a <= ln x <= b.
Proof.
  intros [A B]. pose proof (exp_pos a). split.
  - rewrite <- (ln_exp a). destruct A as [A|A]; [left; now apply ln_increasing|right; now rewrite A].
  - rewrite <- (ln_exp b). destruct B as [B|B]; [left; apply ln_increasing; lra|right; now rewrite B].
Qed.
Lemma ln_bounds_inv x a b : 0 < x -> exp (- b) <= x <= exp (- a) -> a <= ln (/ x) <= b.
Proof. intros X H. apply ln_bounds in H. rewrite ln_Rinv by exact X. lra. Qed.

Lemma ln2_bounds : 693147180559 / 1000000000000 <= ln 2 <= 693147180560 / 1000000000000.
Proof.
  replace 2 with (/ / 2) by field. apply ln_bounds_inv; [lra|]. split; exp_num 7%nat.
Qed.
Lemma ln125_bounds : 22314355131 / 100000000000 <= ln (5 / 4) <= 22314355132 / 100000000000.
Proof.
  replace (5 / 4) with (/ (4 / 5)) by field. apply ln_bounds_inv; [lra|]. split; exp_num 5%nat.
Qed.
Lemma ln10_bounds : 23025850929 / 10000000000 <= ln 10 <= 23025850931 / 10000000000.
Proof.
  pose proof ln2_bounds. pose proof ln125_bounds. replace 10 with (2 * (2 * (2 * (5 / 4)))) by field.
  rewrite !ln_mult by lra. lra.
Qed.
Lemma lnln2_bounds : - 36651292059 / 100000000000 <= ln (ln 2) <= - 36651292057 / 100000000000.
Proof.
  pose proof ln2_bounds as [A B]. apply ln_bounds. split.
  - replace (- 36651292059 / 100000000000) with (- (36651292059 / 100000000000)) by field. eapply Rle_trans; [|exact A]. exp_num 6%nat.
  - replace (- 36651292057 / 100000000000) with (- (36651292057 / 100000000000)) by field. eapply Rle_trans; [exact B|]. exp_num 6%nat.
Qed.

(** ** square roots *)
Lemma sqrt_bounds x a b : 0 <= a -> 0 <= b -> a * a <= x <= b * b -> a <= sqrt x <= b.
Proof.
  intros A B [H1 H2]. split.
  - rewrite <- (sqrt_square a) by exact A. now apply sqrt_le_1_alt.
  - rewrite <- (sqrt_square b) by exact B. now apply sqrt_le_1_alt.
Qed.
Lemma inv_bounds x a b : 0 < a -> 0 < b -> / b <= x <= / a -> a <= / x <= b.
Proof.
  intros A B [H1 H2]. assert (0 < / b) by now apply Rinv_0_lt_compat. split.
  - rewrite <- (Rinv_inv a). apply Rinv_le_contravar; lra.
  - rewrite <- (Rinv_inv b). apply Rinv_le_contravar; lra.
Qed.
