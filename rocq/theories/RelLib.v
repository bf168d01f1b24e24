(** * Relative error calculus in binary32 *)
From Coq Require Import ZArith Bool Reals List Lra Lia.
From Flocq Require Import Core Relative IEEE754.BinarySingleNaN.
From Verif Require Import Scalar IEEE32 Spec FloatBasics FloatOps SpecF32 SpecErr SpecProj ErrLib LenLib.
Import ListNotations.
Local Open Scope R_scope.

Lemma u32_val : u32 = ulp_half.
Proof. reflexivity. Qed.
Lemma in_range_0 : in_range 0. Proof. now left. Qed.
Lemma in_range_opp x : in_range x -> in_range (- x).
Proof. intros [->|H]; [left; ring|right; now rewrite Rabs_Ropp]. Qed.

Lemma rel_factor k c x : 0 <= k -> rel_close k c x <-> finite c /\ exists d, Rabs d <= k * ulp_half /\ b2r c = x * (1 + d).
Proof.
  intros Hk. unfold rel_close. split; intros [F H]; (split; [exact F|]).
  - destruct (Req_dec x 0) as [->|N].
    + exists 0. rewrite Rabs_R0 in *. split; [rewrite uval; lra|]. rewrite Rmult_0_r in H. apply Rabs_le_inv in H. lra.
    + exists ((b2r c - x) / x). split; [|field; exact N]. unfold Rdiv. rewrite Rabs_mult, Rabs_inv.
      apply Rmult_le_reg_r with (Rabs x); [now apply Rabs_pos_lt|]. rewrite Rmult_assoc, Rinv_l, Rmult_1_r by (now apply Rabs_no_R0). exact H.
  - destruct H as [d [Hd ->]]. replace (x * (1 + d) - x) with (d * x) by ring. rewrite Rabs_mult. apply Rmult_le_compat_r; [apply Rabs_pos|exact Hd].
Qed.
Lemma rel_weaken j k c x : j <= k -> rel_close j c x -> rel_close k c x.
Proof.
  intros H [F E]. split; [exact F|]. eapply Rle_trans; [exact E|]. apply Rmult_le_compat_r; [apply Rabs_pos|]. rewrite uval. lra.
Qed.
Lemma rel_exact c : finite c -> rel_close 0 c (b2r c).
Proof. intros F. split; [exact F|]. rewrite Rminus_diag_eq, Rabs_R0 by reflexivity. lra. Qed.
Lemma rel_opp k c x : rel_close k c x -> rel_close k (Bopp c) (- x).
Proof.
  intros [F E]. split; [now apply finite_opp|]. rewrite Bopp_b2r, Rabs_Ropp. replace (- b2r c - - x) with (- (b2r c - x)) by ring. now rewrite Rabs_Ropp.
Qed.
Lemma rel_zero k c : finite c -> b2r c = 0 -> rel_close k c 0.
Proof. intros F E. split; [exact F|]. rewrite E, Rminus_0_r, Rabs_R0. lra. Qed.

(** sums and differences of inputs *)
Lemma rel_plus (x y : f32) : finite x -> finite y -> Rabs (b2r x) <= IZR (2 ^ 120) -> Rabs (b2r y) <= IZR (2 ^ 120) ->
  rel_close 1 (Bplus mode_NE x y) (b2r x + b2r y).
Proof.
  intros Fx Fy Hx Hy.
  assert (B : Rabs (rnd (b2r x + b2r y)) < big).
  { apply Rle_lt_trans with (bpow radix2 121); [|apply bpow_lt; lia]. apply rnd_abs_le; [apply fmt_bpow; lia|].
    eapply Rle_trans; [apply Rabs_triang|]. change (bpow radix2 121) with (IZR (2 * 2 ^ 120)). rewrite mult_IZR. lra. }
  destruct (plus_ok x y Fx Fy B) as [F E]. apply rel_factor; [lra|]. split; [exact F|]. rewrite E.
  destruct (rnd_plus_error x y) as [eps [He Hr]]. exists eps. split; [rewrite Rmult_1_l; exact He|exact Hr].
Qed.
Lemma rel_minus (x y : f32) : finite x -> finite y -> Rabs (b2r x) <= IZR (2 ^ 120) -> Rabs (b2r y) <= IZR (2 ^ 120) ->
  rel_close 1 (Bminus mode_NE x y) (b2r x - b2r y).
Proof.
  intros Fx Fy Hx Hy. rewrite minus_plus. unfold Rminus. rewrite <- Bopp_b2r. apply rel_plus; trivial; [now apply finite_opp|]. now rewrite Bopp_b2r, Rabs_Ropp.
Qed.

Definition P120 : R := IZR (2 ^ 120).
(** rounding a value that is within 1/2 of a value in range *)
Lemma rnd_in_range y X d : in_range X -> y = X * (1 + d) -> Rabs d <= / 2 -> Rabs (rnd y) < big /\ exists e, Rabs e <= ulp_half /\ rnd y = y * (1 + e).
Proof.
  intros [->|H] E D.
  - rewrite Rmult_0_l in E. subst y. rewrite rnd_0, Rabs_R0. split; [apply bpow_gt_0|]. exists 0. rewrite Rabs_R0, uval. split; lra.
  - assert (YB : / 2 * Rabs X <= Rabs y <= 2 * Rabs X).
    { rewrite E, Rabs_mult. assert (/ 2 <= Rabs (1 + d) <= 2) by (apply Rabs_le_inv in D; rewrite Rabs_pos_eq; lra). pose proof (Rabs_pos X). nra. }
    split.
    + apply Rle_lt_trans with (bpow radix2 121); [|apply bpow_lt; lia]. apply rnd_abs_le; [apply fmt_bpow; lia|].
      change (bpow radix2 121) with (IZR (2 * 2 ^ 120)). rewrite mult_IZR. lra.
    + destruct (rnd_rel y) as [e [He Hr]]; [|now exists e].
      apply Rle_trans with (/ 2 * / IZR (2 ^ 120)); [|lra]. rewrite <- Rinv_mult, <- mult_IZR. change (bpow radix2 (-126)) with (/ IZR (2 ^ 126)).
      apply Rinv_le_contravar; [now apply IZR_lt|now apply IZR_le].
Qed.
Lemma prod_err i j a b e : 0 <= i -> 0 <= j -> i <= 64 -> j <= 64 -> Rabs a <= i * ulp_half -> Rabs b <= j * ulp_half -> Rabs e <= ulp_half ->
  Rabs ((1 + a) * (1 + b) * (1 + e) - 1) <= (i + j + 1 + / 100) * ulp_half.
Proof.
  intros Hi Hj Mi Mj Ha Hb He. rewrite uval in *. set (u := / 16777216) in *. assert (U : 0 < u <= / 16777216) by (unfold u; lra).
  assert (AB : Rabs (a * b) <= i * u * (64 * u)). { rewrite Rabs_mult. apply Rmult_le_compat; try apply Rabs_pos; trivial. nra. }
  assert (A1 : Rabs (a + b + a * b) <= (i + j) * u + i * u * (64 * u)).
  { eapply Rle_trans; [apply Rabs_triang|]. apply Rplus_le_compat; [|exact AB]. eapply Rle_trans; [apply Rabs_triang|]. lra. }
  assert (A2 : Rabs ((a + b + a * b) * e) <= ((i + j) * u + i * u * (64 * u)) * u).
  { rewrite Rabs_mult. apply Rmult_le_compat; try apply Rabs_pos; trivial. }
  replace ((1 + a) * (1 + b) * (1 + e) - 1) with ((a + b + a * b) + e + (a + b + a * b) * e) by ring.
  eapply Rle_trans; [apply Rabs_triang|]. eapply Rle_trans; [apply Rplus_le_compat_r, Rabs_triang|].
  assert (i * u * (64 * u) <= 64 * u * (64 * u)) by nra. unfold u in *. nra.
Qed.
Lemma rel_mul i j (x y : f32) X Y : 0 <= i <= 64 -> 0 <= j <= 64 -> rel_close i x X -> rel_close j y Y -> in_range (X * Y) ->
  rel_close (i + j + 1 + / 100) (Bmult mode_NE x y) (X * Y).
Proof.
  intros Hi Hj Hx Hy R. apply rel_factor in Hx as [Fx [a [Ha Ex]]]; [|lra]. apply rel_factor in Hy as [Fy [b [Hb Ey]]]; [|lra].
  pose proof (prod_err i j a b 0 ltac:(lra) ltac:(lra) ltac:(lra) ltac:(lra) Ha Hb ltac:(rewrite Rabs_R0, uval; lra)) as Q0.
  destruct (rnd_in_range (b2r x * b2r y) (X * Y) ((1 + a) * (1 + b) - 1) R) as [B [e [He Er]]].
  { rewrite Ex, Ey. ring. }
  { replace ((1 + a) * (1 + b) - 1) with ((1 + a) * (1 + b) * (1 + 0) - 1) by ring. eapply Rle_trans; [exact Q0|]. rewrite uval. lra. }
  destruct (mult_ok x y Fx Fy B) as [F E]. apply rel_factor; [lra|]. split; [exact F|]. exists ((1 + a) * (1 + b) * (1 + e) - 1).
  split; [apply prod_err; lra|]. rewrite E, Er, Ex, Ey. ring.
Qed.
Lemma inv_err j b : 0 <= j <= 64 -> Rabs b <= j * ulp_half -> exists b', Rabs b' <= (j + / 1000) * ulp_half /\ / (1 + b) = 1 + b' /\ 1 + b <> 0.
Proof.
  intros Hj Hb. rewrite uval in *. assert (B : Rabs b <= / 100000) by lra. assert (P : 1 - / 100000 <= 1 + b) by (apply Rabs_le_inv in B; lra).
  exists (- b / (1 + b)). split; [|split; [field; lra|lra]]. unfold Rdiv. rewrite Rabs_mult, Rabs_Ropp, Rabs_inv, (Rabs_pos_eq (1 + b)) by lra.
  apply Rmult_le_reg_r with (1 + b); [lra|]. rewrite Rmult_assoc, Rinv_l, Rmult_1_r by lra.
  (* |b| <= (j + 1/1000) u (1 + b) *)
  assert (Rabs b * (1 + Rabs b * 2) <= (j + / 1000) * / 16777216) by (pose proof (Rabs_pos b); nra).
  assert (1 <= (1 + Rabs b * 2) * (1 + b)). { unfold Rabs in *. destruct Rcase_abs; nra. }
  pose proof (Rabs_pos b). nra.
Qed.
Lemma rel_div i j (x y : f32) X Y : 0 <= i <= 60 -> 0 <= j <= 60 -> rel_close i x X -> rel_close j y Y -> Y <> 0 -> in_range (X / Y) ->
  rel_close (i + j + 1 + / 50) (Bdiv mode_NE x y) (X / Y).
Proof.
  intros Hi Hj Hx Hy N R. apply rel_factor in Hx as [Fx [a [Ha Ex]]]; [|lra]. apply rel_factor in Hy as [Fy [b [Hb Ey]]]; [|lra].
  destruct (inv_err j b ltac:(lra) Hb) as (b' & Hb' & Ei & N1).
  assert (Eq : b2r x / b2r y = X / Y * ((1 + a) * (1 + b'))) by (rewrite Ex, Ey, <- Ei; field; split; trivial).
  pose proof (prod_err i (j + / 1000) a b' 0 ltac:(lra) ltac:(lra) ltac:(lra) ltac:(lra) Ha Hb' ltac:(rewrite Rabs_R0, uval; lra)) as Q0.
  destruct (rnd_in_range (b2r x / b2r y) (X / Y) ((1 + a) * (1 + b') - 1) R) as [B [e [He Er]]].
  { rewrite Eq. ring. }
  { replace ((1 + a) * (1 + b') - 1) with ((1 + a) * (1 + b') * (1 + 0) - 1) by ring. eapply Rle_trans; [exact Q0|]. rewrite uval. lra. }
  assert (NY : b2r y <> 0) by (rewrite Ey; now apply Rmult_integral_contrapositive).
  destruct (div_ok x y Fx Fy NY B) as [F E]. apply rel_factor; [lra|]. split; [exact F|]. exists ((1 + a) * (1 + b') * (1 + e) - 1).
  split; [|rewrite E, Er, Eq; ring].
  eapply Rle_trans; [apply (prod_err i (j + / 1000)); lra|]. rewrite uval. lra.
Qed.
