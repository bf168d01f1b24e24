(** * Accuracy of square roots of sums of squares *)
From Coq Require Import ZArith Bool Reals List Lra Lia.
From Flocq Require Import Core Relative IEEE754.BinarySingleNaN.
From Verif Require Import Scalar IEEE32 RealInst Types Spec FloatBasics FloatOps SpecF32 SpecR SpecErr RealTac ErrLib OvfLib.
Import ListNotations.
Local Open Scope R_scope.

Lemma uval : ulp_half = / 16777216. Proof. reflexivity. Qed.
Lemma rnd_rel x : bpow radix2 (-126) <= Rabs x -> exists eps, Rabs eps <= u32 /\ rnd x = x * (1 + eps).
Proof.
  intros H. destruct (relative_error_N_FLT_ex radix2 (-149) 24 eq_refl (fun t => negb (Z.even t)) x H) as [eps [H1 H2]].
  exists eps. split; [|exact H2]. eapply Rle_trans; [exact H1|]. unfold u32. apply half_bpow; reflexivity.
Qed.
Lemma sqrt_perturb N s g t : 0 <= N -> 0 <= s -> 0 <= g <= / 2 -> 0 <= t -> Rabs (s - N * N) <= g * (N * N) + t ->
  Rabs (sqrt s - N) <= (g / 2 + g * g) * N + sqrt t.
Proof.
  intros PN Ps Pg Pt H. pose proof (sqrt_pos t) as Q. pose proof (sqrt_sqrt t Pt) as QQ. set (b := sqrt t) in *.
  assert (H' : N * N * (1 - g) - t <= s <= N * N * (1 + g) + t) by (unfold Rabs in H; destruct Rcase_abs; lra).
  assert (g2 : 0 <= g * g <= g / 2) by nra.
  apply Rabs_le. split.
  - set (a := N * (1 - g / 2 - g * g)). assert (a - b <= sqrt s); [|unfold a in *; lra].
    destruct (Rle_dec a b) as [C|C]; [pose proof (sqrt_pos s); lra|].
    assert (b < a) by lra. rewrite <- (sqrt_square (a - b)) by lra. apply sqrt_le_1_alt.
    apply Rle_trans with (a * a - b * b); [nra|].
    assert (a * a <= N * N * (1 - g)); [|lra]. unfold a.
    replace (N * (1 - g / 2 - g * g) * (N * (1 - g / 2 - g * g))) with (N * N * ((1 - g / 2 - g * g) * (1 - g / 2 - g * g))) by ring.
    apply Rmult_le_compat_l; [nra|].
    replace ((1 - g / 2 - g * g) * (1 - g / 2 - g * g)) with (1 - g - g * g * (7 / 4 - g - g * g)) by field.
    assert (0 <= g * g * (7 / 4 - g - g * g)) by (apply Rmult_le_pos; lra). lra.
  - assert (sqrt s <= N * (1 + g / 2) + b).
    { assert (P1 : 0 <= N * (1 + g / 2)) by (apply Rmult_le_pos; lra).
      rewrite <- (sqrt_square (N * (1 + g / 2) + b)) by lra. apply sqrt_le_1_alt.
      eapply Rle_trans; [exact (proj2 H')|].
      replace ((N * (1 + g / 2) + b) * (N * (1 + g / 2) + b)) with (N * N * (1 + g) + b * b + (N * N * (g * g / 4) + 2 * (N * (1 + g / 2)) * b)) by field.
      assert (0 <= N * N * (g * g / 4)) by (apply Rmult_le_pos; nra).
      assert (0 <= 2 * (N * (1 + g / 2)) * b) by (apply Rmult_le_pos; lra). lra. }
    assert (0 <= g * g * N) by (apply Rmult_le_pos; lra). lra.
Qed.

Lemma gam_small n : (n <= 4)%nat -> 0 <= gam n <= (INR n + / 1000000) * ulp_half.
Proof.
  intros H. assert (I : 0 <= INR n <= 4) by (split; [apply pos_INR|replace 4 with (INR 4) by (cbn; lra); now apply le_INR]).
  unfold gam. rewrite uval. set (x := INR n) in *. assert (P : 0 < 1 - x * / 16777216) by lra.
  split.
  - apply Rmult_le_pos; [lra|left; now apply Rinv_0_lt_compat].
  - apply Rmult_le_reg_r with (1 - x * / 16777216); [exact P|]. unfold Rdiv. rewrite Rmult_assoc, Rinv_l by lra. nra.
Qed.
Lemma finite_sqrt (s : f32) : finite s -> 0 <= b2r s -> finite (Bsqrt mode_NE s) /\
  exists eps, Rabs eps <= u32 /\ b2r (Bsqrt mode_NE s) = sqrt (b2r s) * (1 + eps).
Proof.
  intros F P. destruct (Bsqrt_correct 24 128 _ _ mode_NE s) as (H1 & H2 & _). split.
  - destruct s as [b|b| |b m e B]; try discriminate F; try reflexivity.
    unfold finite. rewrite H2. destruct b; [|reflexivity]. exfalso. cbn in P.
    assert (F2R (Float radix2 (Z.neg m) e) < 0) by (apply F2R_lt_0; reflexivity). lra.
  - change (b2r (Bsqrt mode_NE s) = rnd (sqrt (b2r s))) in H1. rewrite H1.
    destruct (Req_dec (b2r s) 0) as [Z|NZ].
    + exists 0. rewrite Z, sqrt_0, rnd_0, Rabs_R0. split; [left; apply u_pos|ring].
    + assert (bpow radix2 (-149) <= b2r s).
      { destruct s as [b|b| |b m e B]; try discriminate F; [cbn in NZ; lra|].
        destruct b; [exfalso; assert (F2R (Float radix2 (Z.neg m) e) < 0) by (apply F2R_lt_0; reflexivity); cbn in P; lra|].
        exact (bounded_ge_emin 24 128 m e B). }
      apply rnd_rel. rewrite Rabs_pos_eq by apply sqrt_pos.
      apply Rle_trans with (bpow radix2 (-75)); [apply bpow_le; lia|].
      rewrite <- (sqrt_square (bpow radix2 (-75))) by apply bpow_ge_0. apply sqrt_le_1_alt. rewrite <- bpow_plus.
      eapply Rle_trans; [|exact H]. apply bpow_le. lia.
Qed.
Lemma sqrt_tiny n : (n <= 4)%nat -> sqrt (INR n * tiny) * (1 + / 16777216) <= / IZR (2 ^ 73).
Proof.
  intros H. assert (I : INR n <= 4) by (replace 4 with (INR 4) by (cbn; lra); now apply le_INR).
  assert (S : sqrt (INR n * tiny) <= / IZR (2 ^ 73) * (3 / 4)).
  { set (x := / IZR (2 ^ 73)). assert (0 < x) by (apply Rinv_0_lt_compat; now apply IZR_lt).
    rewrite <- (sqrt_square (x * (3 / 4))) by lra. apply sqrt_le_1_alt.
    assert (E : tiny = x * x / 8).
    { unfold tiny, x. change (2 ^ 149)%Z with (2 ^ 73 * 2 ^ 73 * 8)%Z. rewrite !mult_IZR. field. apply Rgt_not_eq. now apply IZR_lt. }
    rewrite E. nra. }
  assert (0 < / IZR (2 ^ 73)) by (apply Rinv_0_lt_compat; now apply IZR_lt). lra.
Qed.

Lemma total_squares l : total (map (fun x => x * x) l) = norm l * norm l.
Proof. rewrite norm_sq. unfold total, ip. induction l as [|x l IH]; [reflexivity|]. cbn. now rewrite IH. Qed.

(** from the error bound of the sum of squares to the error bound of its computed square root *)
Lemma len_core n N (s : f32) : (n <= 4)%nat -> 0 <= N -> finite s -> 0 <= b2r s ->
  Rabs (b2r s - N * N) <= gam n * (N * N) + INR n * tiny ->
  finite (Bsqrt mode_NE s) /\ Rabs (b2r (Bsqrt mode_NE s) - N) <= (INR n / 2 + 11 / 10) * ulp_half * N + / IZR (2 ^ 73).
Proof.
  intros Hn PN F P H. destruct (finite_sqrt s F P) as [F' [eps [He E]]]. split; [exact F'|]. rewrite E.
  pose proof (gam_small n Hn) as G. assert (I : 0 <= INR n <= 4) by (split; [apply pos_INR|replace 4 with (INR 4) by (cbn; lra); now apply le_INR]).
  pose proof tiny_pos as T. assert (T' : 0 <= INR n * tiny) by (apply Rmult_le_pos; lra).
  rewrite uval in *. change u32 with ulp_half in He. rewrite uval in He.
  pose proof (sqrt_perturb N (b2r s) (gam n) (INR n * tiny) PN P ltac:(lra) T' H) as Q.
  pose proof (sqrt_tiny n Hn) as ST. pose proof (sqrt_pos (INR n * tiny)).
  set (q := sqrt (b2r s)) in *. set (w := sqrt (INR n * tiny)) in *. set (g := gam n) in *.
  replace (q * (1 + eps) - N) with ((q - N) * (1 + eps) + N * eps) by ring.
  eapply Rle_trans; [apply Rabs_triang|]. rewrite !Rabs_mult, (Rabs_pos_eq N) by exact PN.
  assert (E1 : Rabs (1 + eps) <= 1 + / 16777216) by (eapply Rle_trans; [apply Rabs_triang|]; rewrite Rabs_R1; lra).
  pose proof (Rabs_pos (q - N)). pose proof (Rabs_pos (1 + eps)). pose proof (Rabs_pos eps).
  apply Rle_trans with (((g / 2 + g * g) * N + w) * (1 + / 16777216) + N * / 16777216).
  { apply Rplus_le_compat; [apply Rmult_le_compat; lra|apply Rmult_le_compat_l; lra]. }
  assert (C : (g / 2 + g * g) * (1 + / 16777216) + / 16777216 <= (INR n / 2 + 11 / 10) * / 16777216) by nra.
  assert (C' : ((g / 2 + g * g) * (1 + / 16777216) + / 16777216) * N <= (INR n / 2 + 11 / 10) * / 16777216 * N) by (apply Rmult_le_compat_r; lra).
  lra.
Qed.

(** ** Normalization *)
Lemma round_core x N r k : 0 < N -> Rabs x <= N -> 0 <= k <= 8 -> Rabs (r - / N) <= k * ulp_half * / N ->
  Rabs (rnd (x * r)) < big /\ Rabs (rnd (x * r) - x / N) <= (k + 3 / 2) * ulp_half * Rabs (x / N) + tiny.
Proof.
  intros PN Hx Hk Hr. rewrite uval in *. assert (PI : 0 < / N) by now apply Rinv_0_lt_compat.
  destruct (rnd_error (x * r)) as [eps [eta [He [Ht [_ E]]]]]. change u32 with ulp_half in He. rewrite uval in He. rewrite eta_tiny in Ht.
  set (y := x / N). assert (Y : Rabs y = Rabs x * / N) by (unfold y, Rdiv; rewrite Rabs_mult, (Rabs_pos_eq (/ N)); lra).
  pose proof (Rabs_pos x) as PX.
  assert (Y1 : Rabs y <= 1). { rewrite Y. rewrite <- (Rinv_r N) by lra. apply Rmult_le_compat_r; lra. }
  assert (D : Rabs (x * r - y) <= k * / 16777216 * Rabs y).
  { replace (x * r - y) with (x * (r - / N)) by (unfold y; field; lra). rewrite Rabs_mult, Y.
    replace (k * / 16777216 * (Rabs x * / N)) with (Rabs x * (k * / 16777216 * / N)) by ring. apply Rmult_le_compat_l; [exact PX|exact Hr]. }
  pose proof (Rabs_pos y) as PY.
  assert (Z : Rabs (x * r) <= (1 + k * / 16777216) * Rabs y).
  { replace (x * r) with ((x * r - y) + y) by ring. eapply Rle_trans; [apply Rabs_triang|]. lra. }
  pose proof tiny_pos as TP. split.
  - apply Rle_lt_trans with 2; [|change (IZR (2 ^ 1) < bpow radix2 128); change (bpow radix2 1 < bpow radix2 128); apply bpow_lt; lia].
    apply rnd_abs_le; [apply (fmt_Z 2); cbn; lia|]. nra.
  - rewrite E. replace (x * r * (1 + eps) + eta - y) with ((x * r - y) + x * r * eps + eta) by ring.
    eapply Rle_trans; [apply Rabs_triang|]. eapply Rle_trans; [apply Rplus_le_compat_r, Rabs_triang|]. rewrite (Rabs_mult (x * r)).
    assert (Rabs (x * r) * Rabs eps <= (1 + k * / 16777216) * Rabs y * / 16777216).
    { apply Rmult_le_compat; try apply Rabs_pos; assumption. }
    nra.
Qed.

Lemma sum_sq_rel n N (s : f32) : (n <= 4)%nat -> / IZR (2 ^ 48) <= N -> 
  Rabs (b2r s - N * N) <= gam n * (N * N) + INR n * tiny -> Rabs (b2r s - N * N) <= (gam n + / 10000 * ulp_half) * (N * N) + 0.
Proof.
  intros Hn HN H. assert (I : 0 <= INR n <= 4) by (split; [apply pos_INR|replace 4 with (INR 4) by (cbn; lra); now apply le_INR]).
  eapply Rle_trans; [exact H|]. rewrite Rmult_plus_distr_r. rewrite Rplus_0_r. apply Rplus_le_compat_l.
  set (a := / IZR (2 ^ 48)) in *. assert (PA : 0 < a) by (apply Rinv_0_lt_compat; now apply IZR_lt).
  assert (E : tiny = a * a * / IZR (2 ^ 53)).
  { unfold tiny, a. change (2 ^ 149)%Z with (2 ^ 48 * 2 ^ 48 * 2 ^ 53)%Z. rewrite !mult_IZR, !Rinv_mult. reflexivity. }
  assert (B : / IZR (2 ^ 53) <= / 40000 * ulp_half).
  { rewrite uval. rewrite <- Rinv_mult, <- mult_IZR. apply Rinv_le_contravar; [now apply IZR_lt|now apply IZR_le]. }
  assert (A2 : a * a <= N * N) by (apply Rmult_le_compat; lra).
  rewrite E. assert (0 < / IZR (2 ^ 53)) by (apply Rinv_0_lt_compat; now apply IZR_lt).
  apply Rle_trans with (4 * (a * a * / IZR (2 ^ 53))); [apply Rmult_le_compat_r; [|lra]; apply Rmult_le_pos; [apply Rmult_le_pos; lra|lra]|].
  apply Rle_trans with (4 * (N * N * / IZR (2 ^ 53))); [apply Rmult_le_compat_l; [lra|]; apply Rmult_le_compat_r; lra|].
  assert (0 <= N * N) by (apply Rmult_le_pos; lra). 
  apply Rle_trans with (4 * (N * N * (/ 40000 * ulp_half))); [apply Rmult_le_compat_l; [lra|]; apply Rmult_le_compat_l; lra|]. lra.
Qed.
Lemma inv_rel q N d : 0 < N -> 0 <= d <= / 1000000 -> Rabs (q - N) <= d * N -> 0 < q /\ Rabs (/ q - / N) <= (d * (1 + / 100000)) * / N.
Proof.
  intros PN Hd H. assert (B : N * (1 - d) <= q <= N * (1 + d)) by (unfold Rabs in H; destruct Rcase_abs; lra).
  assert (Q : 0 < q) by (eapply Rlt_le_trans; [|exact (proj1 B)]; apply Rmult_lt_0_compat; lra). split; [exact Q|].
  replace (/ q - / N) with ((N - q) * (/ q * / N)) by (field; lra). assert (0 < / q) by now apply Rinv_0_lt_compat. assert (0 < / N) by now apply Rinv_0_lt_compat.
  rewrite Rabs_mult, (Rabs_pos_eq (/ q * / N)) by (apply Rmult_le_pos; lra).
  rewrite <- Rmult_assoc. apply Rmult_le_compat_r; [lra|]. rewrite Rabs_minus_sym.
  apply Rmult_le_reg_r with q; [exact Q|]. rewrite Rmult_assoc, Rinv_l by lra. rewrite Rmult_1_r.
  eapply Rle_trans; [exact H|]. rewrite Rmult_assoc. apply Rmult_le_compat_l; [lra|].
  apply Rle_trans with ((1 + / 100000) * (N * (1 - d))); [|apply Rmult_le_compat_l; lra].
  assert (1 <= (1 + / 100000) * (1 - d)) by lra. nra.
Qed.
(** the factor 1/|v| as computed *)
Lemma isqrt_core' n N (s r : f32) : (n <= 4)%nat -> / IZR (2 ^ 48) <= N -> 0 <= b2r s ->
  Rabs (b2r s - N * N) <= gam n * (N * N) + INR n * tiny ->
  (0 < b2r s -> Rabs (b2r r - / sqrt (b2r s)) <= bpow radix2 (-22) * / sqrt (b2r s)) ->
  0 < b2r s /\ Rabs (b2r r - / N) <= (INR n / 2 + 42 / 10) * ulp_half * / N.
Proof.
  intros Hn HN P H Hr. assert (I : 0 <= INR n <= 4) by (split; [apply pos_INR|replace 4 with (INR 4) by (cbn; lra); now apply le_INR]).
  assert (PN : 0 < N) by (eapply Rlt_le_trans; [|exact HN]; apply Rinv_0_lt_compat; now apply IZR_lt).
  pose proof (sum_sq_rel n N s Hn HN H) as H1. pose proof (gam_small n Hn) as G. rewrite uval in *.
  pose proof (sqrt_perturb N (b2r s) (gam n + / 10000 * / 16777216) 0 (Rlt_le _ _ PN) P ltac:(lra) (Rle_refl 0) H1) as Q. rewrite sqrt_0, Rplus_0_r in Q.
  set (g := gam n + / 10000 * / 16777216) in *. assert (Gg : 0 <= g <= (INR n + 2 / 10000) * / 16777216) by (unfold g; lra).
  assert (C : g / 2 + g * g <= (INR n / 2 + / 100) * / 16777216) by nra. assert (0 <= g * g) by nra.
  destruct (inv_rel _ _ _ PN ltac:(split; [|apply Rle_trans with ((INR n / 2 + / 100) * / 16777216); [exact C|lra]]; lra) Q) as [SP IR].
  assert (PS : 0 < b2r s). { destruct P as [P|P]; [exact P|]. rewrite <- P, sqrt_0 in SP. lra. }
  split; [exact PS|]. specialize (Hr PS). replace (bpow radix2 (-22)) with (4 * / 16777216) in Hr by (cbn; lra).
  set (z := / sqrt (b2r s)) in *. assert (PI : 0 < / N) by now apply Rinv_0_lt_compat.
  assert (Z : Rabs (z - / N) <= (INR n / 2 + / 50) * / 16777216 * / N).
  { eapply Rle_trans; [exact IR|]. apply Rmult_le_compat_r; [lra|]. 
    apply Rle_trans with ((INR n / 2 + / 100) * / 16777216 * (1 + / 100000)); [apply Rmult_le_compat_r; lra|]. nra. }
  assert (Zb : z <= (1 + / 1000000) * / N) by (unfold Rabs in Z; destruct Rcase_abs; nra).
  replace (b2r r - / N) with ((b2r r - z) + (z - / N)) by ring. eapply Rle_trans; [apply Rabs_triang|].
  apply Rle_trans with (4 * / 16777216 * ((1 + / 1000000) * / N) + (INR n / 2 + / 50) * / 16777216 * / N); [|nra].
  apply Rplus_le_compat; [|exact Z]. eapply Rle_trans; [exact Hr|]. apply Rmult_le_compat_l; lra.
Qed.

(** ** Norms of nearby lists *)
Lemma norm_mono a b : Forall2 (fun x y => Rabs x <= y) a b -> norm a <= norm b.
Proof.
  intros H. unfold norm. apply sqrt_le_1_alt. unfold ip. induction H as [|x y a b H F IH]; [apply Rle_refl|]. cbn.
  apply Rplus_le_compat; [|exact IH]. rewrite <- (Rabs_pos_eq (x * x)) by nra. rewrite Rabs_mult. pose proof (Rabs_pos x). apply Rmult_le_compat; lra.
Qed.
Lemma norm_near n c y d t : length c = n -> length y = n -> (n <= 4)%nat -> 0 <= d -> 0 <= t ->
  Forall2 (fun a b => Rabs (a - b) <= d * Rabs b + t) c y -> Rabs (norm c - norm y) <= d * norm y + 2 * t.
Proof.
  intros LC LY Hn Pd Pt H.
  assert (A : norm (zip Rminus c y) <= d * norm y + 2 * t).
  { apply Rle_trans with (norm (zip Rplus (map (Rmult d) (map Rabs y)) (map (Rmult t) (map (fun _ => 1) y)))).
    - apply norm_mono. clear -H. induction H as [|a b c y H F IH]; cbn; [apply Forall2_nil|]. apply Forall2_cons; [lra|exact IH].
    - eapply Rle_trans; [apply norm_triangle; now rewrite !map_length|]. rewrite !norm_scale, !Rabs_pos_eq by assumption.
      assert (E : norm (map Rabs y) = norm y).
      { unfold norm. f_equal. unfold ip. clear. induction y as [|x y IH]; [reflexivity|]. cbn. rewrite IH. f_equal.
        rewrite <- Rabs_mult. apply Rabs_pos_eq. nra. }
      rewrite E. apply Rplus_le_compat_l. rewrite (Rmult_comm 2). apply Rmult_le_compat_l; [exact Pt|].
      unfold norm. rewrite <- (sqrt_square 2) by lra. apply sqrt_le_1_alt.
      assert (X : ip (map (fun _ => 1) y) (map (fun _ => 1) y) = INR (length y)).
      { clear. unfold ip. induction y as [|x y IH]; [reflexivity|]. cbn [map zip fold_right length]. rewrite IH, S_INR. ring. }
      rewrite X, LY. apply le_INR in Hn. replace (INR 4) with 4 in Hn by (cbn; lra). lra. }
  assert (LZ : length (zip Rminus c y) = n) by (rewrite zip_len; congruence).
  assert (E1 : zip Rplus y (zip Rminus c y) = c).
  { assert (LL : length c = length y) by congruence. clear -LL. revert c LL. induction y as [|b y IH]; intros [|a c] LL; try discriminate; [reflexivity|].
    cbn. f_equal; [ring|apply IH; now injection LL]. }
  assert (E2 : zip Rplus c (map (Rmult (-1)) (zip Rminus c y)) = y).
  { assert (LL : length c = length y) by congruence. clear -LL. revert c LL. induction y as [|b y IH]; intros [|a c] LL; try discriminate; [reflexivity|].
    cbn. f_equal; [ring|apply IH; now injection LL]. }
  pose proof (norm_triangle y (zip Rminus c y) ltac:(congruence)) as T1. rewrite E1 in T1.
  pose proof (norm_triangle c (map (Rmult (-1)) (zip Rminus c y)) ltac:(rewrite map_length; congruence)) as T2. rewrite E2, norm_scale in T2.
  replace (Rabs (-1)) with 1 in T2 by (rewrite Rabs_left; lra). apply Rabs_le. lra.
Qed.
