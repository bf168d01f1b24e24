(** * The weights of spherical interpolation *)
From Coq Require Import Reals Lra Psatz.
From Flocq Require Import Core.
From Verif Require Import NumLib RotLib.
Local Open Scope R_scope.

Lemma nonneg_from_0 (f f' : R -> R) a : 0 <= a -> (forall x, 0 <= x <= a -> derivable_pt_lim f x (f' x)) -> (forall x, 0 <= x <= a -> 0 <= f' x) -> f 0 <= f a.
Proof.
  intros Ha D P. destruct (Req_dec a 0) as [->|N]; [lra|]. destruct (MVT_cor2 f f' 0 a) as (c & E & H); [lra|exact D|].
  pose proof (P c ltac:(lra)). assert (0 <= f' c * (a - 0)) by (apply Rmult_le_pos; lra). lra.
Qed.
Lemma mono_between (f f' : R -> R) a b : a <= b -> (forall x, a <= x <= b -> derivable_pt_lim f x (f' x)) -> (forall x, a <= x <= b -> 0 <= f' x) -> f a <= f b.
Proof.
  intros Ha D P. destruct (Req_dec a b) as [->|N]; [lra|]. destruct (MVT_cor2 f f' a b) as (c & E & H); [lra|exact D|].
  pose proof (P c ltac:(lra)). assert (0 <= f' c * (b - a)) by (apply Rmult_le_pos; lra). lra.
Qed.
Lemma d_sin_s s x : derivable_pt_lim (fun x => sin (s * x)) x (s * cos (s * x)).
Proof.
  replace (s * cos (s * x)) with (cos (s * x) * s) by ring. apply (derivable_pt_lim_comp (fun x => s * x) sin); [|apply derivable_pt_lim_sin].
  pose proof (derivable_pt_lim_scal id s x 1 (derivable_pt_lim_id x)) as H. rewrite Rmult_1_r in H. exact H.
Qed.
Lemma d_cos_s s x : derivable_pt_lim (fun x => cos (s * x)) x (- s * sin (s * x)).
Proof.
  replace (- s * sin (s * x)) with (- sin (s * x) * s) by ring. apply (derivable_pt_lim_comp (fun x => s * x) cos); [|apply derivable_pt_lim_cos].
  pose proof (derivable_pt_lim_scal id s x 1 (derivable_pt_lim_id x)) as H. rewrite Rmult_1_r in H. exact H.
Qed.
Lemma sin_le_id x : 0 <= x -> sin x <= x.
Proof. intros H. destruct (Req_dec x 0) as [->|N]; [rewrite sin_0; lra|]. left. apply sin_lt_x. lra. Qed.
Lemma sin_above x : 0 <= x <= PI / 2 -> 6 / 10 * x <= sin x.
Proof.
  intros H. pose proof PI_bounds as HP. apply Rle_trans with (sin_lb x); [|apply SIN; lra]. unfold sin_lb, sin_approx, sin_term. cbn [sum_f_R0 Nat.mul Nat.add pow fact INR].
  match goal with |- _ <= ?e => replace e with (x * (1 - (x * x) / 6 + (x * x) * (x * x) / 120 * (1 - (x * x) / 42))) by (cbn; field) end.
  assert (0 <= x * x <= 2468 / 1000) by (split; nra). set (y := x * x) in *.
  assert (6 / 10 <= 1 - y / 6 + y * y / 120 * (1 - y / 42)) by nra. rewrite Rmult_comm. apply Rmult_le_compat_l; lra.
Qed.

Section Weight.
Variable s : R.
Hypothesis Hs : 0 <= s <= 1.
Lemma sx x : 0 <= x <= PI / 2 -> 0 <= s * x <= PI / 2.
Proof. intros H. split; [apply Rmult_le_pos; lra|]. rewrite <- (Rmult_1_l (PI / 2)). apply Rmult_le_compat; lra. Qed.
(** g = sin (s x) cos x - s cos (s x) sin x has derivative -(1 - s^2) sin (s x) sin x *)
Lemma d_g x : derivable_pt_lim (fun x => sin (s * x) * cos x - s * (cos (s * x) * sin x)) x (- (1 - s * s) * (sin (s * x) * sin x)).
Proof.
  replace (- (1 - s * s) * (sin (s * x) * sin x)) with ((s * cos (s * x) * cos x + sin (s * x) * - sin x) - s * (- s * sin (s * x) * sin x + cos (s * x) * cos x)) by ring.
  apply (derivable_pt_lim_minus (fun x => sin (s * x) * cos x) (fun x => s * (cos (s * x) * sin x))).
  - apply (derivable_pt_lim_mult (fun x => sin (s * x)) cos); [apply d_sin_s|apply derivable_pt_lim_cos].
  - apply (derivable_pt_lim_scal (fun x => cos (s * x) * sin x)). apply (derivable_pt_lim_mult (fun x => cos (s * x)) sin); [apply d_cos_s|apply derivable_pt_lim_sin].
Qed.
Lemma g_bounds x : 0 <= x <= PI / 2 -> 0 <= - (sin (s * x) * cos x - s * (cos (s * x) * sin x)) <= s * (1 - s * s) / 3 * (x * x * x).
Proof.
  intros H. pose proof PI_bounds as HP. set (g := fun x => sin (s * x) * cos x - s * (cos (s * x) * sin x)).
  assert (G0 : g 0 = 0) by (unfold g; rewrite Rmult_0_r, sin_0; ring).
  assert (Q : 0 <= 1 - s * s) by nra.
  assert (N : forall y, 0 <= y <= x -> 0 <= sin (s * y) /\ 0 <= sin y /\ sin (s * y) <= s * y /\ sin y <= y).
  { intros y Hy. pose proof (sx y ltac:(lra)). split; [apply sin_ge_0; lra|]. split; [apply sin_ge_0; lra|]. split; apply sin_le_id; lra. }
  split.
  - assert (- g 0 <= - g x); [|unfold g in *; lra].
    apply (nonneg_from_0 (fun x => - g x) (fun x => - (- (1 - s * s) * (sin (s * x) * sin x)))); [lra| |].
    + intros y _. apply (derivable_pt_lim_opp g). apply d_g.
    + intros y Hy. destruct (N y Hy) as (A & B & _). assert (0 <= sin (s * y) * sin y) by now apply Rmult_le_pos. nra.
  - set (m := fun x => s * (1 - s * s) / 3 * (x * x * x)). assert (m 0 + g 0 <= m x + g x); [|unfold m, g in *; rewrite G0 in *; lra].
    apply (nonneg_from_0 (fun x => m x + g x) (fun x => s * (1 - s * s) / 3 * ((1 * x + x * 1) * x + x * x * 1) + (- (1 - s * s) * (sin (s * x) * sin x)))); [lra| |].
    + intros y _. apply (derivable_pt_lim_plus m g); [|apply d_g].
      apply (derivable_pt_lim_scal (fun x => x * x * x)). apply (derivable_pt_lim_mult (fun x => x * x) id); [|apply derivable_pt_lim_id].
      apply (derivable_pt_lim_mult id id); apply derivable_pt_lim_id.
    + intros y Hy. destruct (N y Hy) as (A & B & C & D). assert (sin (s * y) * sin y <= s * y * y) by (apply Rmult_le_compat; lra).
      assert (0 <= (1 - s * s) * (s * y * y - sin (s * y) * sin y)) by (apply Rmult_le_pos; lra). lra.
Qed.
Lemma s_cubic : s * (1 - s * s) <= 386 / 1000.
Proof. assert (0 <= (s - 577/1000) * (s - 577/1000) * (s + 1154/1000)) by (apply Rmult_le_pos; [apply Rle_0_sqr|lra]). lra. Qed.

Definition wt (x : R) : R := sin (s * x) / sin x.
Lemma sin_pos x : 0 < x <= PI / 2 -> 0 < sin x.
Proof. intros H. pose proof PI_bounds. apply sin_gt_0; lra. Qed.
Lemma d_wt x : 0 < x <= PI / 2 -> derivable_pt_lim wt x (- (sin (s * x) * cos x - s * (cos (s * x) * sin x)) / (sin x * sin x)).
Proof.
  intros H. pose proof (sin_pos x H) as P.
  replace (- (sin (s * x) * cos x - s * (cos (s * x) * sin x)) / (sin x * sin x)) with ((s * cos (s * x) * sin x - cos x * sin (s * x)) / Rsqr (sin x)) by (unfold Rsqr; field; lra).
  apply (derivable_pt_lim_div (fun x => sin (s * x)) sin); [apply d_sin_s|apply derivable_pt_lim_sin|lra].
Qed.
(** the derivative is between 0 and 3/5 sin x *)
Lemma d_wt_bounds x : 0 < x <= PI / 2 -> 0 <= - (sin (s * x) * cos x - s * (cos (s * x) * sin x)) / (sin x * sin x) <= 6 / 10 * sin x.
Proof.
  intros H. pose proof (sin_pos x H) as P. destruct (g_bounds x ltac:(lra)) as [A B]. assert (Q : 0 < sin x * sin x) by nra. split.
  - apply Rmult_le_pos; [exact A|]. left. now apply Rinv_0_lt_compat.
  - apply (Rmult_le_reg_r (sin x * sin x)); [exact Q|]. unfold Rdiv at 1. rewrite Rmult_assoc, Rinv_l, Rmult_1_r by lra. eapply Rle_trans; [exact B|].
    pose proof s_cubic as C. pose proof (sin_above x ltac:(lra)) as L.
    assert (X : 0 <= x * x * x) by (apply Rmult_le_pos; [nra|lra]).
    assert (K : (6/10 * x) * (6/10 * x) * (6/10 * x) <= sin x * sin x * sin x).
    { apply Rmult_le_compat; [nra|lra| |lra]. apply Rmult_le_compat; lra. }
    assert (s * (1 - s * s) / 3 * (x * x * x) <= 1287 / 10000 * (x * x * x)) by (apply Rmult_le_compat_r; lra).
    lra.
Qed.
Lemma wt_lip a b : 0 < a <= PI / 2 -> 0 < b <= PI / 2 -> Rabs (wt a - wt b) <= 6 / 10 * Rabs (cos a - cos b).
Proof.
  assert (M : forall a b, 0 < a -> a <= b -> b <= PI / 2 -> wt a <= wt b /\ wt b + 6 / 10 * cos b <= wt a + 6 / 10 * cos a /\ cos b <= cos a).
  { clear a b. intros a b Ha Hab Hb. split; [|split].
    - apply (mono_between wt (fun x => - (sin (s * x) * cos x - s * (cos (s * x) * sin x)) / (sin x * sin x))); [exact Hab| |]; intros x Hx.
      + apply d_wt; lra. + apply d_wt_bounds; lra.
    - assert (- (wt a + 6/10 * cos a) <= - (wt b + 6/10 * cos b)); [|lra].
      apply (mono_between (fun x => - (wt x + 6/10 * cos x)) (fun x => - (- (sin (s * x) * cos x - s * (cos (s * x) * sin x)) / (sin x * sin x) + 6/10 * - sin x))); [exact Hab| |]; intros x Hx.
      + apply (derivable_pt_lim_opp (fun x => wt x + 6/10 * cos x)). apply (derivable_pt_lim_plus wt (fun x => 6/10 * cos x)); [apply d_wt; lra|].
        apply derivable_pt_lim_scal, derivable_pt_lim_cos.
      + pose proof (d_wt_bounds x ltac:(lra)). lra.
    - pose proof PI_bounds. destruct (Req_dec a b) as [->|N]; [lra|]. left. apply cos_decreasing_1; lra. }
  intros Ha Hb. destruct (Rle_or_lt a b) as [H|H].
  - destruct (M a b ltac:(lra) H ltac:(lra)) as (A & B & C). rewrite (Rabs_left1 (wt a - wt b)), (Rabs_pos_eq (cos a - cos b)) by lra. lra.
  - destruct (M b a ltac:(lra) ltac:(lra) ltac:(lra)) as (A & B & C). rewrite (Rabs_pos_eq (wt a - wt b)), (Rabs_left1 (cos a - cos b)) by lra. lra.
Qed.
Lemma wt_ge a : 0 < a <= PI / 2 -> s <= wt a.
Proof.
  intros Ha. pose proof (sin_pos a Ha) as P. apply (Rmult_le_reg_r (sin a)); [exact P|]. unfold wt, Rdiv. rewrite Rmult_assoc, Rinv_l, Rmult_1_r by lra.
  assert (sin (s * 0) - s * sin 0 <= sin (s * a) - s * sin a); [|rewrite Rmult_0_r, sin_0 in *; lra].
  apply (nonneg_from_0 (fun x => sin (s * x) - s * sin x) (fun x => s * cos (s * x) - s * cos x)); [lra| |]; intros x Hx.
  - apply (derivable_pt_lim_minus (fun x => sin (s * x)) (fun x => s * sin x)); [apply d_sin_s|]. apply derivable_pt_lim_scal, derivable_pt_lim_sin.
  - assert (cos x <= cos (s * x)); [|nra]. pose proof PI_bounds. assert (s * x <= x) by nra. pose proof (sx x ltac:(lra)).
    destruct (Req_dec (s * x) x) as [->|N]; [lra|]. left. apply cos_decreasing_1; lra.
Qed.
Lemma wt_small b : 0 < b <= 1 -> wt b <= s + b.
Proof.
  intros Hb. pose proof PI_bounds as HP. pose proof (sin_pos b ltac:(lra)) as P. apply (Rmult_le_reg_r (sin b)); [exact P|]. unfold wt, Rdiv. rewrite Rmult_assoc, Rinv_l, Rmult_1_r by lra.
  pose proof (sx b ltac:(lra)). apply Rle_trans with (s * b); [apply sin_le_id; lra|].
  assert (L : b * (1 - b * b / 6) <= sin b).
  { apply Rle_trans with (sin_lb b); [|apply SIN; lra]. unfold sin_lb, sin_approx, sin_term. cbn [sum_f_R0 Nat.mul Nat.add pow fact INR].
    match goal with |- _ <= ?e => replace e with (b * (1 - (b * b) / 6 + (b * b) * (b * b) / 120 * (1 - (b * b) / 42))) by (cbn; field) end.
    apply Rmult_le_compat_l; [lra|]. assert (0 <= b * b <= 1) by nra. set (y := b * b) in *. nra. }
  assert (Y : 0 <= b * b <= b) by nra.
  apply Rle_trans with ((s + b) * (b * (1 - b * b / 6))); [|apply Rmult_le_compat_l; lra].
  assert (0 <= b * (b - (s + b) * (b * b) / 6)); [|nra]. apply Rmult_le_pos; [lra|]. assert ((s + b) * (b * b) <= 2 * b) by (apply Rmult_le_compat; lra). lra.
Qed.
Lemma wt_le a : 0 < a <= PI / 2 -> wt a <= s + 6 / 10 * (1 - cos a).
Proof.
  intros Ha. apply le_epsilon. intros eps He. set (b := Rmin a (Rmin eps 1)).
  assert (B : 0 < b /\ b <= a /\ b <= eps /\ b <= 1).
  { unfold b. pose proof (Rmin_l a (Rmin eps 1)). pose proof (Rmin_r a (Rmin eps 1)). pose proof (Rmin_l eps 1). pose proof (Rmin_r eps 1).
    split; [|lra]. unfold Rmin. repeat destruct (Rle_dec _ _); lra. }
  pose proof (wt_lip a b Ha ltac:(lra)) as L. pose proof (wt_small b ltac:(lra)) as M. pose proof (COS_bound b) as Cb.
  assert (cos a <= cos b). { pose proof PI_bounds. destruct (Req_dec a b) as [<-|N]; [lra|]. left. apply cos_decreasing_1; lra. }
  rewrite (Rabs_left1 (cos a - cos b)) in L by lra. apply Rabs_le_inv in L. lra.
Qed.
Lemma wt_1 a : 0 < a <= PI / 2 -> 0 <= wt a <= 1.
Proof.
  intros Ha. pose proof (wt_ge a Ha). split; [lra|]. pose proof (sin_pos a Ha) as P. apply (Rmult_le_reg_r (sin a)); [exact P|]. unfold wt, Rdiv. rewrite Rmult_assoc, Rinv_l by lra.
  pose proof PI_bounds. rewrite Rmult_1_r, Rmult_1_l. apply sin_incr_1; try (pose proof (sx a ltac:(lra)); lra). nra.
Qed.
End Weight.
