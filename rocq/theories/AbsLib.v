(** * Absolute errors of sums and products of moderate size *)
From Coq Require Import ZArith Bool Reals List Lra Lia Psatz.
From Flocq Require Import Core IEEE754.BinarySingleNaN.
From Verif Require Import Scalar IEEE32 Types FloatBasics FloatOps SpecF32 SpecErr SpecDom SpecAcc ErrLib OvfLib ScaleLib DomLib PfQuatAcc PfOctAcc.
Local Open Scope R_scope.

Definition ab (e : R) (c : f32) (x : R) : Prop := finite c /\ Rabs (b2r c - x) <= e.
Lemma ab_weak e e' c x : e <= e' -> ab e c x -> ab e' c x.
Proof. intros H [F K]. split; [exact F|lra]. Qed.
Lemma ab_exact c : finite c -> ab 0 c (b2r c).
Proof. intros F. split; [exact F|]. rewrite Rminus_diag_eq, Rabs_R0 by reflexivity. lra. Qed.
Lemma ab_pos e c x : ab e c x -> 0 <= e. Proof. intros [_ K]. pose proof (Rabs_pos (b2r c - x)). lra. Qed.
Lemma ab_within e c x : ab e c x -> Rabs x <= 1000 -> e <= 1 -> within 10 c.
Proof.
  intros [F K] X E. split; [exact F|]. replace (b2r c) with (x + (b2r c - x)) by ring. eapply Rle_trans; [apply Rabs_triang|]. change (p2 10) with 1024. lra.
Qed.
Lemma ab_opp e c x : ab e c x -> ab e (Bopp c) (- x).
Proof. intros [F K]. split; [now apply finite_opp|]. rewrite B2R_Bopp. replace (- b2r c - - x) with (- (b2r c - x)) by ring. now rewrite Rabs_Ropp. Qed.
Lemma ab_add e1 e2 a b A B M : ab e1 a A -> ab e2 b B -> Rabs A <= 1000 -> Rabs B <= 1000 -> e1 <= 1 -> e2 <= 1 -> Rabs (A + B) + e1 + e2 <= M ->
  ab (e1 + e2 + u * M + tiny) (Bplus mode_NE a b) (A + B).
Proof.
  intros HA HB MA MB E1 E2 HM. pose proof (ab_within _ _ _ HA MA E1) as Wa. pose proof (ab_within _ _ _ HB MB E2) as Wb.
  destruct (w_add 10 10 11 a b Wa Wb) as [[F _] E]; try lia. split; [exact F|]. rewrite E. destruct HA as [_ KA], HB as [_ KB].
  assert (K : Rabs (b2r a + b2r b - (A + B)) <= e1 + e2) by (replace (b2r a + b2r b - (A + B)) with ((b2r a - A) + (b2r b - B)) by ring; eapply Rle_trans; [apply Rabs_triang|lra]).
  assert (S : Rabs (b2r a + b2r b) <= M) by (replace (b2r a + b2r b) with ((A + B) + (b2r a + b2r b - (A + B))) by ring; eapply Rle_trans; [apply Rabs_triang|lra]).
  pose proof (rnd_err_t _ _ S) as R. replace (rnd (b2r a + b2r b) - (A + B)) with ((rnd (b2r a + b2r b) - (b2r a + b2r b)) + (b2r a + b2r b - (A + B))) by ring.
  eapply Rle_trans; [apply Rabs_triang|]. lra.
Qed.
Lemma ab_sub e1 e2 a b A B M : ab e1 a A -> ab e2 b B -> Rabs A <= 1000 -> Rabs B <= 1000 -> e1 <= 1 -> e2 <= 1 -> Rabs (A - B) + e1 + e2 <= M ->
  ab (e1 + e2 + u * M + tiny) (Bminus mode_NE a b) (A - B).
Proof.
  intros HA HB MA MB E1 E2 HM. pose proof (ab_within _ _ _ HA MA E1) as Wa. pose proof (ab_within _ _ _ HB MB E2) as Wb.
  destruct (w_sub 10 10 11 a b Wa Wb) as [[F _] E]; try lia. split; [exact F|]. rewrite E. destruct HA as [_ KA], HB as [_ KB].
  assert (K : Rabs (b2r a - b2r b - (A - B)) <= e1 + e2) by (replace (b2r a - b2r b - (A - B)) with ((b2r a - A) + - (b2r b - B)) by ring; eapply Rle_trans; [apply Rabs_triang|rewrite Rabs_Ropp; lra]).
  assert (S : Rabs (b2r a - b2r b) <= M) by (replace (b2r a - b2r b) with ((A - B) + (b2r a - b2r b - (A - B))) by ring; eapply Rle_trans; [apply Rabs_triang|lra]).
  pose proof (rnd_err_t _ _ S) as R. replace (rnd (b2r a - b2r b) - (A - B)) with ((rnd (b2r a - b2r b) - (b2r a - b2r b)) + (b2r a - b2r b - (A - B))) by ring.
  eapply Rle_trans; [apply Rabs_triang|]. lra.
Qed.
Lemma ab_mul e1 e2 a b A B M N : ab e1 a A -> ab e2 b B -> Rabs A <= 1000 -> Rabs B <= 1000 -> e1 <= 1 -> e2 <= 1 -> e1 * Rabs B + e2 * Rabs A + e1 * e2 <= M -> Rabs (A * B) + M <= N ->
  ab (M + u * N + tiny) (Bmult mode_NE a b) (A * B).
Proof.
  intros HA HB MA MB E1 E2 HM HN. pose proof (ab_within _ _ _ HA MA E1) as Wa. pose proof (ab_within _ _ _ HB MB E2) as Wb.
  pose proof (ab_pos _ _ _ HA) as P1. pose proof (ab_pos _ _ _ HB) as P2.
  destruct (w_mul 10 10 20 a b Wa Wb) as [[F _] E]; try lia. split; [exact F|]. rewrite E. destruct HA as [_ KA], HB as [_ KB].
  assert (K : Rabs (b2r a * b2r b - A * B) <= M).
  { replace (b2r a * b2r b - A * B) with ((b2r a - A) * B + (b2r b - B) * A + (b2r a - A) * (b2r b - B)) by ring.
    eapply Rle_trans; [eapply Rle_trans; [apply Rabs_triang|apply Rplus_le_compat_r, Rabs_triang]|]. rewrite !Rabs_mult. pose proof (Rabs_pos A). pose proof (Rabs_pos B).
    assert (Rabs (b2r a - A) * Rabs B <= e1 * Rabs B) by (apply Rmult_le_compat_r; lra). assert (Rabs (b2r b - B) * Rabs A <= e2 * Rabs A) by (apply Rmult_le_compat_r; lra).
    assert (Rabs (b2r a - A) * Rabs (b2r b - B) <= e1 * e2) by (apply Rmult_le_compat; trivial; apply Rabs_pos). lra. }
  assert (S : Rabs (b2r a * b2r b) <= N) by (replace (b2r a * b2r b) with (A * B + (b2r a * b2r b - A * B)) by ring; eapply Rle_trans; [apply Rabs_triang|lra]).
  pose proof (rnd_err_t _ _ S) as R. replace (rnd (b2r a * b2r b) - A * B) with ((rnd (b2r a * b2r b) - b2r a * b2r b) + (b2r a * b2r b - A * B)) by ring.
  eapply Rle_trans; [apply Rabs_triang|]. lra.
Qed.
(** halving is exact up to underflow *)
Lemma ab_half e a A : ab e a A -> Rabs A <= 1000 -> e <= 1 -> ab (e / 2 + 2 * tiny) (Bmult mode_NE a (f32_lit 5 (-1))) (A / 2).
Proof.
  intros HA MA E1. pose proof (ab_within _ _ _ HA MA E1) as Wa. assert (H5 : b2r (f32_lit 5 (-1)) = / 2) by (unfold f32_lit; vm_compute; lra).
  assert (W5 : within 0 (f32_lit 5 (-1))) by (split; [reflexivity|]; rewrite H5, Rabs_pos_eq by lra; change (p2 0) with 1; lra).
  destruct (w_mul 10 0 10 a _ Wa W5) as [[F _] E]; try lia. split; [exact F|]. rewrite E, H5. destruct HA as [_ KA].
  assert (R : Rabs (rnd (b2r a * / 2) - b2r a * / 2) <= 2 * tiny).
  { destruct (Rle_or_lt (bpow radix2 (-125)) (Rabs (b2r a))) as [G|G].
    - replace (rnd (b2r a * / 2)) with (b2r a * / 2); [rewrite Rminus_diag_eq, Rabs_R0 by reflexivity; unfold tiny; left; apply Rmult_lt_0_compat; [lra|apply Rinv_0_lt_compat; now apply (IZR_lt 0)]|].
      change (/ 2) with (bpow radix2 (-1)). assert (PB : bpow radix2 (-125) = bpow radix2 (-126) * 2) by (change 2 with (bpow radix2 1); rewrite <- bpow_plus; reflexivity). pose proof (bpow_gt_0 radix2 (-126)).
      rewrite ScaleLib.rnd_scale_normal; [rewrite (rnd_id (b2r a)) by apply fmt_b2r; reflexivity|lra|]. rewrite Rabs_mult, (Rabs_pos_eq (bpow radix2 (-1))) by apply bpow_ge_0. change (bpow radix2 (-1)) with (/ 2). lra.
    - eapply Rle_trans; [apply (rnd_err_t _ (bpow radix2 (-125)))|]; [rewrite Rabs_mult, (Rabs_pos_eq (/ 2)) by lra; pose proof (Rabs_pos (b2r a)); lra|].
      assert (T : u * bpow radix2 (-125) = tiny) by (unfold tiny, ulp_half; change (/ IZR (2 ^ 24)) with (bpow radix2 (-24)); change (/ IZR (2 ^ 149)) with (bpow radix2 (-149)); rewrite <- bpow_plus; reflexivity). lra. }
  replace (rnd (b2r a * / 2) - A / 2) with ((rnd (b2r a * / 2) - b2r a * / 2) + (b2r a - A) / 2) by field. eapply Rle_trans; [apply Rabs_triang|].
  replace ((b2r a - A) / 2) with ((b2r a - A) * / 2) by reflexivity. rewrite Rabs_mult, (Rabs_pos_eq (/ 2)) by lra. lra.
Qed.
