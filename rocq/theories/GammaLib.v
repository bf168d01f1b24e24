(** * An enclosure of the Euler-Mascheroni constant *)
From Coq Require Import ZArith Reals Lra Lia QArith Qreals.
From Coquelicot Require Import Coquelicot.
From Verif Require Import NumLib.
Local Open Scope R_scope.

Lemma incr_from_zero (f f' : R -> R) t : 0 <= t < 1 -> f 0 = 0 -> (forall s, 0 <= s < 1 -> is_derive f s (f' s)) ->
  (forall s, 0 <= s < 1 -> 0 <= f' s) -> 0 <= f t.
Proof.
  intros T F0 D P. destruct (proj1 T) as [H|H]; [|subst; lra].
  destruct (MVT_cor2 f f' 0 t H) as (c & E & C).
  { intros c C. apply is_derive_Reals, D. lra. }
  rewrite F0 in E. assert (0 <= f' c) by (apply P; lra). nra.
Qed.

Definition P1 (t : R) : R := 2 * t / (1 - t * t) - 4 / 3 * (t * t * t) / ((1 - t * t) * (1 - t * t)).
Definition P2 (t : R) : R := 16 / 15 * (t * t * t * t * t) * (1 + t * t) / ((1 - t * t) * (1 - t * t) * (1 - t * t) * (1 - t * t)).

Lemma ln_lower t : 0 <= t < 1 -> P1 t <= ln (1 + t) - ln (1 - t).
Proof.
  intros T. cut (0 <= ln (1 + t) - ln (1 - t) - P1 t); [lra|].
  apply (incr_from_zero (fun t => ln (1 + t) - ln (1 - t) - P1 t) (fun t => 16 / 3 * (t * t * t * t) / ((1 - t * t) * (1 - t * t) * (1 - t * t)))); auto.
  - unfold P1. rewrite Rplus_0_r, Rminus_0_r, ln_1. field.
  - intros s S. assert (0 < 1 - s * s) by nra. unfold P1. auto_derive; [|field]; repeat split; nra.
  - intros s S. assert (0 < 1 - s * s) by nra. apply Rmult_le_pos; [|apply Rlt_le, Rinv_0_lt_compat; repeat apply Rmult_lt_0_compat; lra].
    assert (0 <= s * s) by nra. assert (0 <= s * s * (s * s)) by nra. lra.
Qed.
Lemma ln_upper t : 0 <= t < 1 -> ln (1 + t) - ln (1 - t) <= P1 t + P2 t.
Proof.
  intros T. cut (0 <= P1 t + P2 t - (ln (1 + t) - ln (1 - t))); [lra|].
  apply (incr_from_zero (fun t => P1 t + P2 t - (ln (1 + t) - ln (1 - t)))
    (fun t => 16 / 15 * (t * t * t * t * t * t) * (20 - 4 * (t * t)) / ((1 - t * t) * (1 - t * t) * (1 - t * t) * (1 - t * t) * (1 - t * t)))); auto.
  - unfold P1, P2. rewrite Rplus_0_r, Rminus_0_r, ln_1. field.
  - intros s S. assert (0 < 1 - s * s) by nra. assert (0 < (1 - s * s) * (1 - s * s)) by nra. assert (0 < (1 - s * s) * (1 - s * s) * (1 - s * s)) by nra.
    unfold P1, P2. auto_derive; [|field]; repeat split; nra.
  - intros s S. assert (0 < 1 - s * s) by nra. apply Rmult_le_pos; [|apply Rlt_le, Rinv_0_lt_compat; repeat apply Rmult_lt_0_compat; lra].
    assert (0 <= s * s <= 1) by nra. assert (0 <= s * s * (s * s) <= 1) by nra. assert (0 <= s * s * (s * s) * (s * s)) by nra.
    apply Rmult_le_pos; lra.
Qed.

Definition h (n : nat) : R := sum_f_R0 (fun k => / INR (S k)) n - ln (INR (S n)).
Definition bn (n : nat) : R := let x := INR (S n) in h n - / (2 * x) + / (12 * (x * x)).
Definition cn (n : nat) : R := let x := INR (S n) in bn n - / (120 * (x * x * x * x)).

Lemma step_ln x : 1 <= x -> let t := / (2 * x + 1) in 0 <= t < 1 /\ ln (x + 1) - ln x = ln (1 + t) - ln (1 - t).
Proof.
  intros X t. assert (0 < t) by (apply Rinv_0_lt_compat; lra). assert (t < 1) by (unfold t; rewrite <- Rinv_1; apply Rinv_lt_contravar; lra).
  split; [lra|]. replace (1 + t) with ((x + 1) * (2 * t)) by (unfold t; field; lra). replace (1 - t) with (x * (2 * t)) by (unfold t; field; lra).
  rewrite !ln_mult by lra. ring.
Qed.
Lemma bn_step n : let x := INR (S n) in bn (S n) - bn n = P1 (/ (2 * x + 1)) - (ln (x + 1) - ln x).
Proof.
  intros x. unfold bn, h. cbn [sum_f_R0]. rewrite (S_INR (S n)). fold x. assert (1 <= x) by (apply (le_INR 1); lia).
  unfold P1. field. repeat split; nra.
Qed.
Lemma cn_step n : let x := INR (S n) in cn (S n) - cn n = P1 (/ (2 * x + 1)) + P2 (/ (2 * x + 1)) - (ln (x + 1) - ln x).
Proof.
  intros x. unfold cn. pose proof (bn_step n) as B. cbv zeta in B. fold x in B. rewrite (S_INR (S n)). fold x. assert (1 <= x) by (apply (le_INR 1); lia).
  assert (P2 (/ (2 * x + 1)) = / (120 * (x * x * x * x)) - / (120 * ((x + 1) * (x + 1) * (x + 1) * (x + 1)))); [|lra].
  unfold P2. field. repeat split; nra.
Qed.
Lemma bn_decr : Un_decreasing bn.
Proof.
  intros n. pose proof (bn_step n) as B. cbv zeta in B. assert (1 <= INR (S n)) by (apply (le_INR 1); lia).
  destruct (step_ln (INR (S n)) H) as [T E]. pose proof (ln_lower _ T). lra.
Qed.
Lemma cn_incr : Un_growing cn.
Proof.
  intros n. pose proof (cn_step n) as B. cbv zeta in B. assert (1 <= INR (S n)) by (apply (le_INR 1); lia).
  destruct (step_ln (INR (S n)) H) as [T E]. pose proof (ln_upper _ T). lra.
Qed.
Lemma inv_cv : Un_cv (fun n => / INR (S n)) 0.
Proof.
  intros eps E. destruct (archimed_cor1 eps E) as (N & H1 & H2). exists N. intros n Hn. unfold R_dist. rewrite Rminus_0_r.
  assert (0 < INR N) by now apply (lt_INR 0). assert (INR N <= INR (S n)) by (apply le_INR; lia).
  rewrite Rabs_pos_eq by (apply Rlt_le, Rinv_0_lt_compat; lra). eapply Rle_lt_trans; [|exact H1]. apply Rinv_le_contravar; lra.
Qed.
Lemma const_cv c : Un_cv (fun _ => c) c.
Proof. intros eps E. exists 0%nat. intros. now rewrite R_dist_eq. Qed.
Lemma bn_eq n : bn n = h n - / 2 * / INR (S n) + / 12 * (/ INR (S n) * / INR (S n)).
Proof. unfold bn. assert (1 <= INR (S n)) by (apply (le_INR 1); lia). cbv zeta. field. lra. Qed.
Lemma cn_eq n : cn n = bn n - / 120 * ((/ INR (S n) * / INR (S n)) * (/ INR (S n) * / INR (S n))).
Proof. unfold cn. assert (1 <= INR (S n)) by (apply (le_INR 1); lia). cbv zeta. field. lra. Qed.
Lemma bn_cv g : Un_cv h g -> Un_cv bn g.
Proof.
  intros H. apply Un_cv_ext with (fun n => h n - / 2 * / INR (S n) + / 12 * (/ INR (S n) * / INR (S n))); [intros; now rewrite bn_eq|].
  replace g with (g - / 2 * 0 + / 12 * (0 * 0)) by ring.
  apply CV_plus; [apply CV_minus; [exact H|apply CV_mult; [apply const_cv|apply inv_cv]]|].
  apply CV_mult; [apply const_cv|apply CV_mult; apply inv_cv].
Qed.
Lemma cn_cv g : Un_cv h g -> Un_cv cn g.
Proof.
  intros H. apply Un_cv_ext with (fun n => bn n - / 120 * ((/ INR (S n) * / INR (S n)) * (/ INR (S n) * / INR (S n)))); [intros; now rewrite cn_eq|].
  replace g with (g - / 120 * ((0 * 0) * (0 * 0))) by ring.
  apply CV_minus; [now apply bn_cv|]. apply CV_mult; [apply const_cv|]. apply CV_mult; apply CV_mult; apply inv_cv.
Qed.
Lemma gamma_between g n : Un_cv h g -> cn n <= g <= bn n.
Proof. intros H. split; [apply growing_ineq; [apply cn_incr|now apply cn_cv]|apply decreasing_ineq; [apply bn_decr|now apply bn_cv]]. Qed.

(** the sequence does converge *)
Lemma gamma_exists : exists g, Un_cv h g.
Proof.
  assert (B : has_lb bn).
  { exists (- (cn 0)). intros y [n ->]. unfold opp_seq. pose proof cn_incr as G. assert (cn 0 <= cn n) by (apply Rge_le, growing_prop; [exact G|lia]).
    assert (cn n <= bn n); [|lra]. unfold cn. assert (1 <= INR (S n)) by (apply (le_INR 1); lia). cbv zeta.
    assert (0 < / (120 * (INR (S n) * INR (S n) * INR (S n) * INR (S n)))); [|lra]. apply Rinv_0_lt_compat. repeat apply Rmult_lt_0_compat; lra. }
  destruct (decreasing_cv bn bn_decr B) as [g G]. exists g.
  apply Un_cv_ext with (fun n => bn n + / 2 * / INR (S n) - / 12 * (/ INR (S n) * / INR (S n))); [intros; rewrite bn_eq; ring|].
  replace g with (g + / 2 * 0 - / 12 * (0 * 0)) by ring.
  apply CV_minus; [apply CV_plus; [exact G|apply CV_mult; [apply const_cv|apply inv_cv]]|].
  apply CV_mult; [apply const_cv|apply CV_mult; apply inv_cv].
Qed.

(** the harmonic number of 32, computed with rationals *)
Fixpoint hq (n : nat) : Q := match n with O => 1%Q | S k => Qred (hq k + (1 # Pos.of_succ_nat (S k)))%Q end.
Lemma hq_ok n : sum_f_R0 (fun k => / INR (S k)) n = Q2R (hq n).
Proof.
  induction n as [|n IH]; [unfold Q2R; cbn; field|]. cbn [sum_f_R0 hq]. rewrite IH.
  rewrite (Qeq_eqR _ _ (Qred_correct _)), Q2R_plus. f_equal. unfold Q2R. cbn [Qnum Qden]. rewrite INR_IZR_INZ. cbn [Z.of_nat]. ring.
Qed.
Lemma gamma_bounds g : Un_cv h g -> 57721565 / 100000000 <= g <= 57721568 / 100000000.
Proof.
  intros H. destruct (gamma_between g 31 H) as [A B]. unfold cn, bn, h in A, B. cbv zeta in A, B. rewrite hq_ok in A, B.
  replace (INR 32) with (2 * (2 * (2 * (2 * 2)))) in A, B by (rewrite INR_IZR_INZ; cbn [Z.of_nat Pos.of_succ_nat Pos.succ]; ring).
  assert (E : Q2R (hq 31) = 586061125622639 / 144403552893600). { replace (hq 31) with (586061125622639 # 144403552893600)%Q by (vm_compute; reflexivity). unfold Q2R. cbn [Qnum Qden]. reflexivity. }
  rewrite E in A, B. rewrite !ln_mult in A, B by lra. pose proof ln2_bounds. lra.
Qed.
