(** * Proofs: square roots, angle units, named constants and gamma curves *)
From Coq Require Import ZArith Bool Reals List Lra.
From Flocq Require Import Core IEEE754.BinarySingleNaN.
From Verif Require Import Scalar IEEE32 F32Tac RealInst FloatBasics Outcome Types Spec SpecF32 SpecR RealTac ModelVec ModelCommon
  ModelQuat ModelExp ModelTrig ModelConst ModelColor.
Import ListNotations.
Local Open Scope R_scope.
(*HEADER END*)
From Coq Require Import Lia SpecFloat.
From Flocq Require Import Relative.
From Verif Require Import FloatOps FloatAlg NumLib GammaLib.

(** ** relative error of one rounding *)
Lemma rnd_rel x : bpow radix2 (-126) <= Rabs x -> exists eps, Rabs eps <= u32 /\ rnd x = x * (1 + eps).
Proof.
  intros H. destruct (relative_error_N_FLT_ex radix2 (-149) 24 eq_refl (fun t => negb (Z.even t)) x H) as [eps [H1 H2]].
  exists eps. split; [|exact H2]. eapply Rle_trans; [exact H1|]. unfold u32. apply half_bpow; reflexivity.
Qed.
Lemma u32_val : u32 = / 16777216.
Proof. unfold u32. cbn. lra. Qed.
Lemma bpow22 : bpow radix2 (-22) = / 4194304. Proof. cbn. lra. Qed.
Lemma bpow21 : bpow radix2 (-21) = / 2097152. Proof. cbn. lra. Qed.
Lemma rel_range x eps lo hi : Rabs eps <= u32 -> 0 <= lo -> lo <= Rabs x <= hi -> lo / 2 <= Rabs (x * (1 + eps)) <= hi * 2.
Proof.
  intros E L [H1 H2]. rewrite u32_val in E. rewrite Rabs_mult. assert (/ 2 <= Rabs (1 + eps) <= 2) by (unfold Rabs in *; repeat destruct Rcase_abs; lra).
  pose proof (Rabs_pos x). split; nra.
Qed.

(** ** C28 *)
Lemma bsqrt_ok (x : f32) : finite x -> 0 <= b2r x -> finite (Bsqrt mode_NE x) /\ b2r (Bsqrt mode_NE x) = rnd (sqrt (b2r x)).
Proof.
  intros F P. destruct (Bsqrt_correct 24 128 _ _ mode_NE x) as (H1 & H2 & _). split; [|exact H1].
  destruct x as [s|s| |s m e B]; try discriminate F; try reflexivity.
  unfold finite. rewrite H2. destruct s; [|reflexivity]. exfalso. cbn in P.
  assert (F2R (Float radix2 (Z.neg m) e) < 0) by (apply F2R_lt_0; reflexivity). lra.
Qed.
Lemma bsqrt_neg (x : f32) : ieee_lt x (B754_zero false) -> is_nan (Bsqrt mode_NE x) = true.
Proof.
  intros (N & _ & H). destruct x as [s|s| |s m e B]; cbn in H; try discriminate; try lra.
  - destruct s; [reflexivity|]. pose proof big_pos. cbn in H. lra.
  - destruct s; [reflexivity|]. cbn in H. assert (0 < F2R (Float radix2 (Z.pos m) e)) by (apply F2R_gt_0; reflexivity). lra.
Qed.

(** C28: sqrt is the correctly rounded square root, with the IEEE special cases. *)
Lemma C28_sqrt_pf : forall (L : Libm) (x : f32), let r := sqrt_f (F32 L) x in
  (finite x -> 0 <= b2r x -> finite r /\ b2r r = rnd (sqrt (b2r x))) /\
  (ieee_lt x (B754_zero false) -> is_nan r = true) /\ (is_nan x = true -> is_nan r = true) /\
  (x = B754_infinity false -> r = B754_infinity false) /\ (forall s, x = B754_zero s -> r = B754_zero s).
Proof.
  intros L x r. ands.
  - apply bsqrt_ok.
  - apply bsqrt_neg.
  - intros N. now apply nan_sqrt.
  - intros ->. reflexivity.
  - intros s ->. reflexivity.
Qed.

Lemma pos_min (x : f32) : finite x -> 0 < b2r x -> bpow radix2 (-149) <= b2r x.
Proof.
  intros F P. destruct x as [s|s| |s m e B]; try discriminate F; cbn in P |- *; try lra.
  destruct s; [exfalso; assert (F2R (Float radix2 (Z.neg m) e) < 0) by (apply F2R_lt_0; reflexivity); cbn in P; lra|].
  pose proof (bounded_ge_emin 24 128 m e B) as H. change (-149)%Z with (SpecFloat.emin 24 128). exact H.
Qed.
Lemma isqrt_core x : bpow radix2 (-149) <= x < big ->
  let s := rnd (sqrt x) in bpow radix2 (-76) <= s <= bpow radix2 65 /\ Rabs (rnd (1 / s)) < big /\
  Rabs (rnd (1 / s) - / sqrt x) <= bpow radix2 (-22) * / sqrt x.
Proof.
  intros [H1 H2] s.
  assert (P : 0 < sqrt x) by (apply sqrt_lt_R0; eapply Rlt_le_trans; [apply (bpow_gt_0 radix2 (-149))|exact H1]).
  assert (R1 : bpow radix2 (-75) <= sqrt x <= bpow radix2 64).
  { apply sqrt_bounds; try apply bpow_ge_0. rewrite <- !bpow_plus. split; [eapply Rle_trans; [|exact H1]; apply bpow_le; lia|]. apply Rlt_le. exact H2. }
  destruct (rnd_rel (sqrt x)) as (e1 & E1 & Q1).
  { rewrite Rabs_pos_eq by lra. eapply Rle_trans; [|exact (proj1 R1)]. apply bpow_le. lia. }
  fold s in Q1. assert (A1 : Rabs (sqrt x) = sqrt x) by (apply Rabs_pos_eq; lra).
  pose proof (rel_range (sqrt x) e1 (bpow radix2 (-75)) (bpow radix2 64) E1 (bpow_ge_0 _ _)) as G. rewrite A1 in G. specialize (G R1). rewrite <- Q1 in G.
  assert (E1' := E1). rewrite u32_val in E1'. assert (B1 : - / 16777216 <= e1 <= / 16777216) by (unfold Rabs in E1'; destruct Rcase_abs; lra).
  assert (Ps : 0 < s) by (rewrite Q1; apply Rmult_lt_0_compat; lra). rewrite (Rabs_pos_eq s) in G by lra.
  assert (X1 : bpow radix2 (-75) / 2 = bpow radix2 (-76)) by (change (-75)%Z with (-76 + 1)%Z; rewrite bpow_plus; change (bpow radix2 1) with 2; field).
  assert (X2 : bpow radix2 64 * 2 = bpow radix2 65) by (change 65%Z with (64 + 1)%Z; rewrite bpow_plus; reflexivity).
  rewrite X1, X2 in G. split; [exact G|].
  assert (R2 : bpow radix2 (-65) <= 1 / s <= bpow radix2 76).
  { unfold Rdiv. rewrite Rmult_1_l. rewrite (bpow_opp radix2 65 : bpow radix2 (-65) = _), (bpow_opp radix2 (-76) : bpow radix2 76 = _). destruct G.
    split; apply Rinv_le_contravar; try assumption; try apply bpow_gt_0. }
  assert (A2 : Rabs (1 / s) = 1 / s) by (apply Rabs_pos_eq; pose proof (bpow_ge_0 radix2 (-65)); lra).
  destruct (rnd_rel (1 / s)) as (e2 & E2 & Q2).
  { rewrite A2. eapply Rle_trans; [|exact (proj1 R2)]. apply bpow_le. lia. }
  split.
  - eapply Rle_lt_trans with (bpow radix2 76); [|change (bpow radix2 76 < bpow radix2 128); apply bpow_lt; lia].
    apply rnd_abs_le; [apply fmt_bpow; lia|]. rewrite A2. exact (proj2 R2).
  - rewrite Q2, Q1. rewrite u32_val in E2. assert (B2 : - / 16777216 <= e2 <= / 16777216) by (unfold Rabs in E2; destruct Rcase_abs; lra).
    rewrite bpow22. replace (1 / (sqrt x * (1 + e1)) * (1 + e2) - / sqrt x) with (/ sqrt x * ((e2 - e1) / (1 + e1))) by (field; lra).
    assert (0 < / sqrt x) by now apply Rinv_0_lt_compat. rewrite Rabs_mult, (Rabs_pos_eq (/ sqrt x)) by lra. rewrite (Rmult_comm (/ 4194304)).
    apply Rmult_le_compat_l; [lra|]. apply Rabs_le. assert (0 < / (1 + e1)) by (apply Rinv_0_lt_compat; lra).
    split; apply Rmult_le_reg_r with (1 + e1); try lra; unfold Rdiv; rewrite Rmult_assoc, Rinv_l by lra; lra.
Qed.

(** C28: inversesqrt has relative error at most 2^-22 on every positive finite float, subnormals included, never
    overflows there, and has the IEEE special cases. *)
Lemma C28_inversesqrt_pf : forall (L : Libm) (x : f32), let r := inversesqrt_f (F32 L) x in
  (finite x -> 0 < b2r x -> finite r /\ Rabs (b2r r - / sqrt (b2r x)) <= bpow radix2 (-22) * / sqrt (b2r x)) /\
  (forall s, x = B754_zero s -> r = B754_infinity s) /\ (x = B754_infinity false -> r = B754_zero false) /\
  (ieee_lt x (B754_zero false) -> is_nan r = true) /\ (is_nan x = true -> is_nan r = true).
Proof.
  intros L x r. unfold r, inversesqrt_f. change (sqrt_f (F32 L) x) with (Bsqrt mode_NE x). ands.
  - intros F P. destruct (bsqrt_ok x F (Rlt_le _ _ P)) as [Fs Qs].
    destruct (isqrt_core (b2r x)) as (R1 & R2 & R3); [split; [now apply pos_min|apply b2r_lt_big]|].
    assert (Ps : 0 < b2r (Bsqrt mode_NE x)) by (rewrite Qs; eapply Rlt_le_trans; [apply (bpow_gt_0 radix2 (-76))|exact (proj1 R1)]).
    destruct (div_ok (f32_lit 1 0) (Bsqrt mode_NE x) fin_lit1 Fs) as [Fd Qd]; [lra|rewrite b2r_lit1, Qs; exact R2|].
    split; [exact Fd|]. rewrite b2r_lit1, Qs in Qd. eapply Rle_trans; [|exact R3]. right. do 2 f_equal. exact Qd.
  - intros s ->. destruct s; reflexivity.
  - intros ->. reflexivity.
  - intros H. apply nan_div_r. now apply bsqrt_neg.
  - intros H. apply nan_div_r. now apply nan_sqrt.
Qed.

(** C28: in exact arithmetic exp and log are inverse, pow(x, y) = exp(y log x) for x > 0, log2 inverts 2^x, sqrt and
    cbrt invert the square and the cube. *)
Lemma C28_exact_pf : forall x y : R,
  log_f RS (exp_f RS x) = x /\ (0 < x -> exp_f RS (log_f RS x) = x) /\
  (0 < x -> pow_f RS x y = exp_f RS (y * log_f RS x)%R) /\
  log2_f RS (pow_f RS 2 x) = x /\ (0 < x -> pow_f RS 2 (log2_f RS x) = x) /\
  (0 <= x -> 0 <= sqrt_f RS x /\ (sqrt_f RS x)^2 = x) /\ (cbrt_f RS x)^3 = x /\
  (0 < x -> inversesqrt_f RS x * sqrt_f RS x = 1).
Proof.
  intros x y. assert (L2 : ln 2 <> 0) by (pose proof ln_lt_2; lra).
  assert (P2 : forall t, pow_f RS 2 t = Rpower 2 t) by (intros; unfold pow_f, mpow, RS, Rpow; rewrite Rlt_bool_true by lra; reflexivity).
  ands.
  - apply ln_exp.
  - apply exp_ln.
  - intros H. unfold pow_f. cbn [mpow RS]. unfold Rpow. rewrite Rlt_bool_true by exact H. reflexivity.
  - rewrite P2. unfold log2_f. cbn [mlog2 RS]. unfold Rlog2, Rpower. rewrite ln_exp. change (x * ln 2 / ln 2 = x). now field.
  - intros H. rewrite P2. unfold log2_f. cbn [mlog2 RS]. unfold Rlog2, Rpower. transitivity (exp (ln x)); [|now apply exp_ln]. f_equal. change (ln x / ln 2 * ln 2 = ln x). now field.
  - intros H. split; [apply sqrt_pos|]. cbn [pow]. rewrite Rmult_1_r. now apply sqrt_sqrt.
  - unfold cbrt_f. cbn [mcbrt RS]. unfold Rcbrt.
    assert (C : forall t, 0 < t -> Rpower t (1 / 3) ^ 3 = t).
    { intros t T. rewrite <- Rpower_pow by apply exp_pos. rewrite Rpower_mult. replace (1 / 3 * INR 3) with 1 by (cbn; field). now apply Rpower_1. }
    destruct (Rlt_bool_spec 0 x) as [H|H]; [now apply C|]. destruct (Rlt_bool_spec x 0) as [H'|H'].
    + replace ((- Rpower (- x) (1 / 3)) ^ 3) with (- (Rpower (- x) (1 / 3) ^ 3)) by ring. rewrite C by lra. ring.
    + replace x with 0 by lra. ring.
  - intros H. unfold inversesqrt_f. cbn [sdiv RS]. change (sqrt_f RS x) with (sqrt x). assert (0 < sqrt x) by now apply sqrt_lt_R0.
    change (1 / sqrt x * sqrt x = 1). field. lra.
Qed.
(*PROPS
(** the smallest subnormal and a negative number *)
Example C28_ex : let tiny := @B754_finite 24 128 false 1 (-149) eq_refl in
  finite tiny /\ 0 < b2r tiny /\ ieee_lt (Bopp tiny) (B754_zero false).
Proof.
  cbv zeta. assert (0 < b2r (@B754_finite 24 128 false 1 (-149) eq_refl)) as H by (unfold B2R; apply Float_prop.F2R_gt_0; reflexivity).
  ands; try reflexivity; try exact H. unfold ieee_lt. ands; try reflexivity. change (xr (B754_zero false)) with 0.
  rewrite xr_finite by reflexivity. rewrite B2R_Bopp. lra.
Qed.

PROPS*)
(** ** C29 *)
Ltac lits := unfold Rlit; repeat match goal with
  | |- context [Z.pow_pos 10 ?k] => let v := eval vm_compute in (Z.pow_pos 10 k) in change (Z.pow_pos 10 k) with v end;
  change (2 ^ 20)%Z with 1048576%Z.
Lemma PI_180 : 174532925198 / 10000000000000 <= PI / 180 <= 174532925201 / 10000000000000.
Proof. pose proof PI_bounds. lra. Qed.
Lemma inv_PI_180 : 5729577951200 / 100000000000 <= 180 / PI <= 5729577951400 / 100000000000.
Proof.
  pose proof PI_bounds as [A B]. assert (0 < PI) by lra. split; apply Rmult_le_reg_r with PI; try lra; unfold Rdiv; rewrite (Rmult_assoc 180), Rinv_l by lra; lra.
Qed.
Definition cR : f32 := f32_lit 1745329251994 (-14).
Definition cD : f32 := f32_lit 572957795130823 (-13).
Lemma cR_ok : b2r cR = rnd (PI / 180).
Proof.
  apply (rnd_between _ 174532925198 174532925201 (-13)); [lia|lits; apply PI_180| | | |]; try (vm_compute; reflexivity);
    lits; rewrite Rabs_pos_eq; lra.
Qed.
Lemma cD_ok : b2r cD = rnd (180 / PI).
Proof.
  apply (rnd_between _ 5729577951200 5729577951400 (-11)); [lia|lits; apply inv_PI_180| | | |]; try (vm_compute; reflexivity);
    lits; rewrite Rabs_pos_eq; lra.
Qed.
Definition close (d y Y : R) : Prop := Rabs (y - Y) <= d * Rabs Y.
Lemma close_mult d e y Y : 0 <= d -> Rabs e <= u32 -> close d y Y -> close (d + (1 + d) * u32) (y * (1 + e)) Y.
Proof.
  unfold close. intros D E H. replace (y * (1 + e) - Y) with ((y - Y) + e * y) by ring. eapply Rle_trans; [apply Rabs_triang|].
  rewrite (Rabs_mult e). assert (Rabs y <= (1 + d) * Rabs Y). { replace y with (y - Y + Y) by ring. eapply Rle_trans; [apply Rabs_triang|]. lra. }
  pose proof (Rabs_pos Y). pose proof (Rabs_pos y). pose proof (Rabs_pos e). assert (Rabs e * Rabs y <= u32 * ((1 + d) * Rabs Y)) by (apply Rmult_le_compat; assumption). lra.
Qed.
Lemma close_weaken d d' y Y : d <= d' -> close d y Y -> close d' y Y.
Proof. unfold close. intros. pose proof (Rabs_pos Y). nra. Qed.
Lemma close_abs d y Y : close d y Y -> (1 - d) * Rabs Y <= Rabs y <= (1 + d) * Rabs Y.
Proof. unfold close. intros H. assert (Rabs y <= Rabs (y - Y) + Rabs Y) by (replace y with (y - Y + Y) at 1 by ring; apply Rabs_triang).
  assert (Rabs Y <= Rabs (y - Y) + Rabs y). { replace Y with (- (y - Y) + y) at 1 by ring. eapply Rle_trans; [apply Rabs_triang|]. rewrite Rabs_Ropp. lra. }
  lra. Qed.

(** one multiplication by a rounded constant *)
Lemma scale_step (x c : f32) C : finite x -> finite c -> b2r c = rnd C -> bpow radix2 (-126) <= Rabs C ->
  bpow radix2 (-125) <= Rabs (b2r x * C) <= bpow radix2 126 ->
  finite (Bmult mode_NE x c) /\ close (3 * u32) (b2r (Bmult mode_NE x c)) (b2r x * C).
Proof.
  intros Fx Fc Hc NC [L H]. destruct (rnd_rel C NC) as (e1 & E1 & Q1). rewrite Q1 in Hc.
  assert (C0 : close 0 (b2r x * C) (b2r x * C)) by (unfold close; rewrite Rminus_eq_0, Rabs_R0; lra).
  pose proof (close_mult 0 e1 _ _ (Rle_refl 0) E1 C0) as C1. replace (b2r x * C * (1 + e1)) with (b2r x * b2r c) in C1 by (rewrite Hc; ring).
  rewrite Rplus_0_r, Rplus_0_l, Rmult_1_l in C1. pose proof (close_abs _ _ _ C1) as A. pose proof u32_val as U.
  assert (R : bpow radix2 (-126) <= Rabs (b2r x * b2r c) <= bpow radix2 127).
  { change (-125)%Z with (-126 + 1)%Z in L. change 127%Z with (126 + 1)%Z. rewrite bpow_plus in L |- *. change (bpow radix2 1) with 2 in *.
    rewrite U in A. pose proof (bpow_gt_0 radix2 (-126)). pose proof (bpow_gt_0 radix2 126). split; lra. }
  destruct (rnd_rel _ (proj1 R)) as (e2 & E2 & Q2).
  destruct (mult_ok x c Fx Fc) as [Fm Qm].
  { eapply Rle_lt_trans with (bpow radix2 127); [|change (bpow radix2 127 < bpow radix2 128); apply bpow_lt; lia].
    apply rnd_abs_le; [apply fmt_bpow; lia|exact (proj2 R)]. }
  split; [exact Fm|]. rewrite Qm, Q2. assert (U0 : 0 <= u32) by lra.
  eapply close_weaken; [|apply (close_mult _ e2 _ _ U0 E2 C1)]. rewrite U. lra.
Qed.
Lemma cR_norm : bpow radix2 (-126) <= Rabs (PI / 180).
Proof. pose proof PI_180. rewrite Rabs_pos_eq by lra. apply Rle_trans with (bpow radix2 (-7)); [apply bpow_le; lia|cbn; lra]. Qed.
Lemma cD_norm : bpow radix2 (-126) <= Rabs (180 / PI).
Proof. pose proof inv_PI_180. rewrite Rabs_pos_eq by lra. apply Rle_trans with (bpow radix2 0); [apply bpow_le; lia|cbn; lra]. Qed.
Lemma bp_shift e k x : (0 <= k)%Z -> bpow radix2 e * IZR (2 ^ k) = x -> bpow radix2 (e + k) = x.
Proof. intros K <-. rewrite bpow_plus. f_equal. symmetry. exact (IZR_Zpower radix2 k K). Qed.

(** C29: radians and degrees multiply by the floats nearest to pi/180 and 180/pi, have relative error at most 2^-22
    whenever the product is in the normal range, and are inverse up to relative error 2^-21. *)
Lemma C29_angles_pf : forall L : Libm, let rad := radians_f (F32 L) in let deg := degrees_f (F32 L) in
  (exists c, b2r c = rnd (PI / 180) /\ forall x, rad x = Bmult mode_NE x c) /\
  (exists c, b2r c = rnd (180 / PI) /\ forall x, deg x = Bmult mode_NE x c) /\
  (forall d, finite d -> bpow radix2 (-119) <= Rabs (b2r d) -> finite (rad d) /\
     Rabs (b2r (rad d) - b2r d * (PI / 180)) <= bpow radix2 (-22) * Rabs (b2r d * (PI / 180))) /\
  (forall r, finite r -> bpow radix2 (-125) <= Rabs (b2r r) <= bpow radix2 120 -> finite (deg r) /\
     Rabs (b2r (deg r) - b2r r * (180 / PI)) <= bpow radix2 (-22) * Rabs (b2r r * (180 / PI))) /\
  (forall d, finite d -> bpow radix2 (-118) <= Rabs (b2r d) <= bpow radix2 125 -> finite (deg (rad d)) /\
     Rabs (b2r (deg (rad d)) - b2r d) <= bpow radix2 (-21) * Rabs (b2r d)) /\
  (forall r, finite r -> bpow radix2 (-124) <= Rabs (b2r r) <= bpow radix2 120 -> finite (rad (deg r)) /\
     Rabs (b2r (rad (deg r)) - b2r r) <= bpow radix2 (-21) * Rabs (b2r r)).
Proof.
  intros L rad deg. assert (FR : finite cR) by reflexivity. assert (FD : finite cD) by reflexivity.
  pose proof PI_180 as PR. pose proof inv_PI_180 as PD. assert (AR : Rabs (PI / 180) = PI / 180) by (apply Rabs_pos_eq; lra).
  assert (AD : Rabs (180 / PI) = 180 / PI) by (apply Rabs_pos_eq; lra). assert (PN : PI <> 0) by (pose proof PI_bounds; lra).
  assert (Rr : forall d : f32, finite d -> bpow radix2 (-119) <= Rabs (b2r d) -> finite (rad d) /\ close (3 * u32) (b2r (rad d)) (b2r d * (PI / 180))).
  { intros d F H. apply (scale_step d cR _ F FR cR_ok cR_norm). rewrite Rabs_mult, AR. split.
    - change (-119)%Z with (-125 + 6)%Z in H. rewrite bpow_plus in H. change (bpow radix2 6) with 64 in H. pose proof (bpow_gt_0 radix2 (-125)). nra.
    - assert (Rabs (b2r d) <= bpow radix2 128) by (apply Rlt_le, Rabs_def1; apply b2r_lt_big). rewrite (bpow_plus radix2 126 2 : bpow radix2 128 = _) in H0. change (bpow radix2 2) with 4 in H0.
      apply Rle_trans with (Rabs (b2r d) * / 4); [apply Rmult_le_compat_l; [apply Rabs_pos|lra]|lra]. }
  assert (Dd : forall r : f32, finite r -> bpow radix2 (-125) <= Rabs (b2r r) <= bpow radix2 120 -> finite (deg r) /\ close (3 * u32) (b2r (deg r)) (b2r r * (180 / PI))).
  { intros r F [H1 H2]. apply (scale_step r cD _ F FD cD_ok cD_norm). rewrite Rabs_mult, AD. pose proof (bpow_gt_0 radix2 (-125)). split; [nra|].
    change 126%Z with (120 + 6)%Z. rewrite bpow_plus. change (bpow radix2 6) with 64. pose proof (bpow_gt_0 radix2 120). nra. }
  assert (W : forall y Y, close (3 * u32) y Y -> Rabs (y - Y) <= bpow radix2 (-22) * Rabs Y).
  { intros y Y H. apply (close_weaken _ (bpow radix2 (-22))) in H; [exact H|]. rewrite u32_val, bpow22. lra. }
  assert (T : forall y z Z k k', k * k' = 1 -> 0 < k' -> close (3 * u32) y (Z * k) -> close (3 * u32) z (y * k') -> Rabs (z - Z) <= bpow radix2 (-21) * Rabs Z).
  { unfold close. intros y z Z k k' K P H1 H2. rewrite u32_val in H1, H2. rewrite bpow21.
    assert (E : Rabs (y * k' - Z) <= 3 * / 16777216 * Rabs Z).
    { replace (y * k' - Z) with ((y - Z * k) * k') by (rewrite Rmult_minus_distr_r, Rmult_assoc, K; ring). rewrite Rabs_mult, (Rabs_pos_eq k') by lra.
      assert (X : Rabs Z = Rabs (Z * k) * k'). { rewrite <- (Rabs_pos_eq k') at 1 by lra. rewrite <- Rabs_mult. f_equal. rewrite Rmult_assoc, K. ring. }
      rewrite X. nra. }
    assert (Rabs (y * k') <= 11 / 10 * Rabs Z). { replace (y * k') with (y * k' - Z + Z) by ring. eapply Rle_trans; [apply Rabs_triang|]. pose proof (Rabs_pos Z). lra. }
    replace (z - Z) with ((z - y * k') + (y * k' - Z)) by ring. eapply Rle_trans; [apply Rabs_triang|]. pose proof (Rabs_pos Z). lra. }
  ands.
  - exists cR. split; [apply cR_ok|reflexivity].
  - exists cD. split; [apply cD_ok|reflexivity].
  - intros d F H. destruct (Rr d F H). auto.
  - intros r F H. destruct (Dd r F H). auto.
  - intros d F [H1 H2]. destruct (Rr d F) as [F1 C1].
    { eapply Rle_trans; [|exact H1]. apply bpow_le. lia. }
    pose proof (close_abs _ _ _ C1) as A. rewrite u32_val, Rabs_mult, AR in A.
    destruct (Dd (rad d) F1) as [F2 C2].
    { pose proof (Rabs_pos (b2r d)). split.
      - change (-118)%Z with (-125 + 7)%Z in H1. rewrite bpow_plus in H1. change (bpow radix2 7) with 128 in H1. nra.
      - change 125%Z with (120 + 5)%Z in H2. rewrite bpow_plus in H2. change (bpow radix2 5) with 32 in H2. pose proof (bpow_gt_0 radix2 120). nra. }
    split; [exact F2|]. apply (T (b2r (rad d)) _ _ (PI / 180) (180 / PI)); auto; [now field|lra].
  - intros r F [H1 H2]. destruct (Dd r F) as [F1 C1].
    { split; [eapply Rle_trans; [|exact H1]; apply bpow_le; lia|exact H2]. }
    pose proof (close_abs _ _ _ C1) as A. rewrite u32_val, Rabs_mult, AD in A.
    destruct (Rr (deg r) F1) as [F2 C2].
    { pose proof (Rabs_pos (b2r r)). assert (bpow radix2 (-119) = bpow radix2 (-124) * 32) by (change (-119)%Z with (-124 + 5)%Z; now rewrite bpow_plus). pose proof (bpow_gt_0 radix2 (-124)). nra. }
    split; [exact F2|]. apply (T (b2r (deg r)) _ _ (180 / PI) (PI / 180)); auto; [now field|lra].
Qed.
(*PROPS
(** one is in every range *)
Example C29_ex : finite (f32_lit 1 0) /\ bpow radix2 (-118) <= Rabs (b2r (f32_lit 1 0)) <= bpow radix2 120.
Proof.
  split; [reflexivity|]. replace (b2r (f32_lit 1 0)) with (bpow radix2 0) by (unfold f32_lit; vm_compute; Lra.lra).
  rewrite Rabs_pos_eq by apply bpow_ge_0. split; apply bpow_le; discriminate.
Qed.

PROPS*)

(** ** C30 *)
Lemma div_lo a x l : 0 < x -> l * x <= a -> l <= a / x.
Proof. intros X H. apply Rmult_le_reg_r with x; [exact X|]. unfold Rdiv. rewrite Rmult_assoc, Rinv_l by lra. lra. Qed.
Lemma div_hi a x h : 0 < x -> a <= h * x -> a / x <= h.
Proof. intros X H. apply Rmult_le_reg_r with x; [exact X|]. unfold Rdiv. rewrite Rmult_assoc, Rinv_l by lra. lra. Qed.
Ltac between m1 m2 e tac :=
  split; [reflexivity|]; apply (rnd_between _ m1 m2 e); [lia|lits; tac| | | |]; try (vm_compute; reflexivity);
  lits; unfold Rabs; destruct Rcase_abs; lra.

(** C30: every function of constants.hpp returns the float nearest to the real number it names. *)
Lemma C30_constants_pf : forall L : Libm, let S := F32 L in
  Forall (fun p => finite (fst p) /\ b2r (fst p) = rnd (snd p))
   [(c_zero S, 0); (c_one S, 1);
    (c_pi S, PI);
    (c_two_pi S, 2 * PI);
    (c_root_pi S, sqrt PI);
    (c_half_pi S, PI / 2);
    (c_three_over_two_pi S, 3 / 2 * PI);
    (c_quarter_pi S, PI / 4);
    (c_one_over_pi S, 1 / PI);
    (c_one_over_two_pi S, 1 / (2 * PI));
    (c_two_over_pi S, 2 / PI);
    (c_four_over_pi S, 4 / PI);
    (c_two_over_root_pi S, 2 / sqrt PI);
    (c_one_over_root_two S, 1 / sqrt 2);
    (c_root_half_pi S, sqrt (PI / 2));
    (c_root_two_pi S, sqrt (2 * PI));
    (c_root_ln_four S, sqrt (ln 4));
    (c_e S, exp 1);
    (c_root_two S, sqrt 2);
    (c_root_three S, sqrt 3);
    (c_root_five S, sqrt 5);
    (c_ln_two S, ln 2);
    (c_ln_ten S, ln 10);
    (c_ln_ln_two S, ln (ln 2));
    (c_third S, 1 / 3);
    (c_two_thirds S, 2 / 3);
    (c_golden_ratio S, (1 + sqrt 5) / 2)].
Proof.
  intros L S. pose proof PI_bounds as [P1 P2]. pose proof ln2_bounds as [L1 L2]. pose proof ln10_bounds as [T1 T2]. pose proof lnln2_bounds as [N1 N2].
  pose proof exp1_bounds as [E1 E2]. assert (L4 : ln 4 = 2 * ln 2) by (replace 4 with (2 * 2) by ring; rewrite ln_mult by lra; ring).
  assert (S5 : 22360679773 / 10000000000 <= sqrt 5 <= 22360679776 / 10000000000) by (apply sqrt_bounds; lra).
  assert (S2 : 14142135622 / 10000000000 <= sqrt 2 <= 14142135625 / 10000000000) by (apply sqrt_bounds; lra).
  assert (SP : 17724538508 / 10000000000 <= sqrt PI <= 17724538511 / 10000000000) by (apply sqrt_bounds; lra).
  apply Forall_cons; [split; [reflexivity|]; cbn [fst snd]; rewrite rnd_0; reflexivity|].
  apply Forall_cons; [split; [reflexivity|]; cbn [fst snd]; rewrite (rnd_id 1 fmt_1); apply b2r_lit1|].
  apply Forall_cons; [cbn [fst snd]; between (31415926534)%Z (31415926537)%Z (-10)%Z ltac:(lra)|].
  apply Forall_cons; [cbn [fst snd]; between (62831853070)%Z (62831853073)%Z (-10)%Z ltac:(lra)|].
  apply Forall_cons; [cbn [fst snd]; between (17724538508)%Z (17724538511)%Z (-10)%Z ltac:(apply sqrt_bounds; lra)|].
  apply Forall_cons; [cbn [fst snd]; between (15707963266)%Z (15707963269)%Z (-10)%Z ltac:(lra)|].
  apply Forall_cons; [cbn [fst snd]; between (47123889802)%Z (47123889805)%Z (-10)%Z ltac:(lra)|].
  apply Forall_cons; [cbn [fst snd]; between (7853981632)%Z (7853981635)%Z (-10)%Z ltac:(lra)|].
  apply Forall_cons; [cbn [fst snd]; between (3183098860)%Z (3183098863)%Z (-10)%Z ltac:(split; [apply div_lo|apply div_hi]; lra)|].
  apply Forall_cons; [cbn [fst snd]; between (1591549429)%Z (1591549432)%Z (-10)%Z ltac:(split; [apply div_lo|apply div_hi]; lra)|].
  apply Forall_cons; [cbn [fst snd]; between (6366197722)%Z (6366197725)%Z (-10)%Z ltac:(split; [apply div_lo|apply div_hi]; lra)|].
  apply Forall_cons; [cbn [fst snd]; between (12732395446)%Z (12732395449)%Z (-10)%Z ltac:(split; [apply div_lo|apply div_hi]; lra)|].
  apply Forall_cons; [cbn [fst snd]; between (11283791669)%Z (11283791672)%Z (-10)%Z ltac:(split; [apply div_lo|apply div_hi]; lra)|].
  apply Forall_cons; [cbn [fst snd]; between (7071067810)%Z (7071067813)%Z (-10)%Z ltac:(split; [apply div_lo|apply div_hi]; lra)|].
  apply Forall_cons; [cbn [fst snd]; between (12533141372)%Z (12533141375)%Z (-10)%Z ltac:(apply sqrt_bounds; lra)|].
  apply Forall_cons; [cbn [fst snd]; between (25066282745)%Z (25066282748)%Z (-10)%Z ltac:(apply sqrt_bounds; lra)|].
  apply Forall_cons; [cbn [fst snd]; between (11774100224)%Z (11774100227)%Z (-10)%Z ltac:(apply sqrt_bounds; lra)|].
  apply Forall_cons; [cbn [fst snd]; between (27182818283)%Z (27182818286)%Z (-10)%Z ltac:(lra)|].
  apply Forall_cons; [cbn [fst snd]; between (14142135622)%Z (14142135625)%Z (-10)%Z ltac:(apply sqrt_bounds; lra)|].
  apply Forall_cons; [cbn [fst snd]; between (17320508074)%Z (17320508077)%Z (-10)%Z ltac:(apply sqrt_bounds; lra)|].
  apply Forall_cons; [cbn [fst snd]; between (22360679773)%Z (22360679776)%Z (-10)%Z ltac:(apply sqrt_bounds; lra)|].
  apply Forall_cons; [cbn [fst snd]; between (6931471804)%Z (6931471807)%Z (-10)%Z ltac:(lra)|].
  apply Forall_cons; [cbn [fst snd]; between (23025850928)%Z (23025850931)%Z (-10)%Z ltac:(lra)|].
  apply Forall_cons; [cbn [fst snd]; between (-3665129207)%Z (-3665129204)%Z (-10)%Z ltac:(lra)|].
  apply Forall_cons; [cbn [fst snd]; between (3333333332)%Z (3333333335)%Z (-10)%Z ltac:(lra)|].
  apply Forall_cons; [cbn [fst snd]; between (6666666665)%Z (6666666668)%Z (-10)%Z ltac:(lra)|].
  apply Forall_cons; [cbn [fst snd]; between (16180339886)%Z (16180339889)%Z (-10)%Z ltac:(lra)|].
  apply Forall_nil.
Qed.

(** C30: the Euler constant, against its definition as a limit (which exists). *)
Lemma C30_euler_pf : let gamma g := Un_cv (fun n => sum_f_R0 (fun k => / INR (S k)) n - ln (INR (S n))) g in
  (exists g, gamma g) /\ forall (L : Libm) g, gamma g -> finite (c_euler (F32 L)) /\ b2r (c_euler (F32 L)) = rnd g.
Proof.
  intros gamma. split; [exact gamma_exists|]. intros L g G. pose proof (gamma_bounds g G) as B. between 57721565%Z 57721568%Z (-8)%Z ltac:(lra).
Qed.

(** C30: epsilon is the distance from 1 to the next float. *)
Lemma C30_epsilon_pf : forall L : Libm, let eps := b2r (c_epsilon (F32 L)) in
  (exists y : f32, finite y /\ b2r y = 1 + eps) /\ 0 < eps /\ forall y : f32, finite y -> 1 < b2r y -> 1 + eps <= b2r y.
Proof.
  intros L eps. assert (E : eps = bpow radix2 (-23)).
  { unfold eps. change (c_epsilon (F32 L)) with (f32_lit 11920928955078125 (-23)). unfold f32_lit. vm_compute. lra. }
  rewrite E. clearbody eps. ands.
  - exists (@B754_finite 24 128 false 8388609 (-23) eq_refl). split; [reflexivity|]. unfold B2R, F2R. cbn. lra.
  - apply bpow_gt_0.
  - intros y F H. pose proof (fmt_b2r y) as G.
    assert (S : succ radix2 (SpecFloat.fexp 24 128) 1 <= b2r y) by (apply succ_le_lt; auto using fmt_1; apply fexp_correct; reflexivity).
    rewrite succ_eq_pos in S by lra. replace (ulp radix2 (SpecFloat.fexp 24 128) 1) with (bpow radix2 (-23)) in S; [exact S|].
    change 1 with (bpow radix2 0). rewrite ulp_bpow. reflexivity.
Qed.

(** ** C63 *)
Definition K1 : R := 94786729857819905213270142180095 / 100000000000000000000000000000000.
Definition K2 : R := 7739938080495356037151702786378 / 100000000000000000000000000000000.
Definition toL (s g : R) : R := if Rle_bool s (4045 / 100000) then s * K2 else Rpow ((s + 55 / 1000) * K1) g.
Definition unit_clamp (x : R) : R := Rmin (Rmax x 0) 1.
Definition toS (l g : R) : R := let c := unit_clamp l in
  if Rlt_bool c (31308 / 10000000) then c * (1292 / 100) else Rpow c g * (1055 / 1000) - 55 / 1000.
Lemma Rmin_model (a b : R) : @min_f RS a b = Rmin a b.
Proof.
  unfold min_f. cbn [slt RS]. unfold Rmin. destruct (Rle_dec a b) as [H|H]; destruct (Rlt_bool_spec b a) as [H1|H1]; try reflexivity; try lra.
Qed.
Lemma Rmax_model (a b : R) : @max_f RS a b = Rmax a b.
Proof.
  unfold max_f. cbn [slt RS]. unfold Rmax. destruct (Rle_dec a b) as [H|H]; destruct (Rlt_bool_spec a b) as [H1|H1]; try reflexivity; try lra.
Qed.
Lemma toL_model (v : vec3 R) (g : R) : l3 (sRGBToLinear3_g RS v g) = map (fun s => toL s g) (l3 v).
Proof. destruct v as [a b c]. reflexivity. Qed.
Lemma toS_model (v : vec3 R) (g : R) : l3 (linearToSRGB3_g RS v g) = map (fun l => toS l g) (l3 v).
Proof.
  assert (U : forall x : R, min_f RS (max_f RS x 0) 1 = unit_clamp x) by (intros; rewrite Rmax_model; apply Rmin_model).
  destruct v as [a b c]. unfold l3. cbn [map]. unfold toS. rewrite <- !U. reflexivity.
Qed.
Lemma nth_map_R (f : R -> R) l i : (i < length l)%nat -> nth i (map f l) 0 = f (nth i l 0).
Proof. intros H. rewrite (nth_indep _ 0 (f 0)) by (now rewrite map_length). apply map_nth. Qed.
Lemma Rpow_pos x y : 0 < x -> Rpow x y = Rpower x y.
Proof. intros H. unfold Rpow. now rewrite Rlt_bool_true. Qed.
Lemma unit_clamp_in x : 0 <= x <= 1 -> unit_clamp x = x.
Proof. intros H. unfold unit_clamp. rewrite Rmax_left, Rmin_left; lra. Qed.
Lemma unit_clamp_hi x : 1 <= x -> unit_clamp x = 1.
Proof. intros H. unfold unit_clamp. rewrite Rmax_left, Rmin_right; lra. Qed.
Lemma Rpower_le_1 b g : 0 < b <= 1 -> 0 <= g -> Rpower b g <= 1.
Proof.
  intros [B [B1|B1]] G; [|subst; unfold Rpower; rewrite ln_1, Rmult_0_r, exp_0; lra].
  unfold Rpower. rewrite <- exp_0. assert (ln b < 0) by (rewrite <- ln_1; now apply ln_increasing). destruct (Rle_lt_or_eq_dec (g * ln b) 0); [nra|left; now apply exp_increasing|right; now f_equal].
Qed.
Lemma Rpower_ge_1 b g : 1 <= b -> 0 <= g -> 1 <= Rpower b g.
Proof.
  intros [B1|B1] G; [|subst; unfold Rpower; rewrite ln_1, Rmult_0_r, exp_0; lra].
  unfold Rpower. rewrite <- exp_0. assert (0 < ln b) by (rewrite <- ln_1; apply ln_increasing; lra). destruct (Rle_lt_or_eq_dec 0 (g * ln b)); [nra|left; now apply exp_increasing|right; now f_equal].
Qed.
Definition eps30 : R := / 1000000000000000000000000000000.

Lemma back_pow s g : 4045 / 100000 < s <= 1 -> 0 < g -> 31308 / 10000000 <= toL s g -> Rabs (toS (toL s g) (1 / g) - s) <= eps30.
Proof.
  intros [S1 S2] G. unfold toL. rewrite Rle_bool_false by lra. set (b := (s + 55 / 1000) * K1).
  assert (B : 0 < b) by (unfold b, K1; lra). rewrite Rpow_pos by exact B. intros H.
  assert (P : 0 < Rpower b g) by apply exp_pos. unfold toS.
  destruct (Rle_or_lt b 1) as [H1|H1].
  - rewrite unit_clamp_in by (split; [lra|apply Rpower_le_1; lra]). cbv zeta. rewrite Rlt_bool_false by lra.
    rewrite Rpow_pos by exact P. rewrite Rpower_mult. replace (g * (1 / g)) with 1 by (field; lra). rewrite Rpower_1 by exact B.
    apply Rabs_le. unfold b, K1, eps30 in *. lra.
  - rewrite unit_clamp_hi by (apply Rpower_ge_1; lra). cbv zeta. rewrite Rlt_bool_false by lra. rewrite Rpow_pos by lra.
    replace (Rpower 1 (1 / g)) with 1 by (unfold Rpower; rewrite ln_1, Rmult_0_r, exp_0; reflexivity). apply Rabs_le. unfold b, K1, eps30 in *. lra.
Qed.
Lemma back_toe s g g' : 0 <= s <= 4045 / 100000 -> toL s g < 31308 / 10000000 -> Rabs (toS (toL s g) g' - s) <= eps30.
Proof.
  intros [S1 S2]. unfold toL. rewrite Rle_bool_true by lra. intros H. unfold toS. rewrite unit_clamp_in by (unfold K2 in *; lra).
  cbv zeta. rewrite Rlt_bool_true by exact H. apply Rabs_le. unfold K2, eps30 in *. lra.
Qed.
Lemma pow_strict x b n : 0 < x < b -> x ^ S n < b ^ S n.
Proof. intros H. induction n as [|n IH]; [cbn; lra|]. change (x * x ^ S n < b * b ^ S n). assert (0 < x ^ S n) by (apply pow_lt; lra). apply Rmult_gt_0_lt_compat; lra. Qed.
Lemma pow_le_inv x b n : 0 < b -> 0 < x -> x ^ S n <= b ^ S n -> x <= b.
Proof. intros B X H. destruct (Rle_or_lt x b) as [|C]; [assumption|]. pose proof (pow_strict b x n (conj B C)). lra. Qed.
Lemma Rpower_ratio l p q : 0 < l -> (0 < q)%nat -> Rpower l (INR p / INR q) ^ q = l ^ p.
Proof.
  intros L Q. rewrite <- Rpower_pow by apply exp_pos. rewrite Rpower_mult. replace (INR p / INR q * INR q) with (INR p); [now apply Rpower_pow|].
  field. apply not_0_INR. lia.
Qed.
Definition g24 : R := 24 / 10.
Lemma g24_eq : g24 = INR 12 / INR 5. Proof. unfold g24. cbn. field. Qed.
Lemma g24_inv : 1 / g24 = INR 5 / INR 12. Proof. unfold g24. cbn. field. Qed.

(** with the standard exponent the power branch stays above the threshold *)
Lemma above24 s : 4045 / 100000 < s -> 31308 / 10000000 <= toL s g24.
Proof.
  intros S. unfold toL. rewrite Rle_bool_false by lra. set (b := (s + 55 / 1000) * K1). assert (B : 9047393364 / 100000000000 <= b) by (unfold b, K1; lra).
  rewrite Rpow_pos by lra. apply (pow_le_inv _ _ 4); [apply exp_pos|lra|]. rewrite g24_eq, Rpower_ratio by (lra || lia).
  apply Rle_trans with ((9047393364 / 100000000000) ^ 12); [|apply pow_incr; lra]. lra.
Qed.
(** between the two published thresholds *)
Lemma middle24 s g : s <= 4045 / 100000 -> 31308 / 10000000 <= toL s g -> Rabs (toS (toL s g) (1 / g24) - s) <= / 10000000.
Proof.
  intros S. unfold toL. rewrite Rle_bool_true by lra. intros H. assert (U : s * K2 <= 31308049536 / 10000000000000) by (unfold K2 in *; lra).
  assert (S0 : 40449935 / 1000000000 <= s) by (unfold K2 in *; lra).
  unfold toS. rewrite unit_clamp_in by (unfold K2 in *; lra). cbv zeta. rewrite Rlt_bool_false by exact H. rewrite Rpow_pos by lra.
  set (l := s * K2) in *. set (y := Rpower l (1 / g24)). assert (Y : 0 < y) by apply exp_pos.
  assert (E : y ^ 12 = l ^ 5) by (unfold y; rewrite g24_inv; apply Rpower_ratio; [lra|lia]).
  assert (l ^ 5 <= (31308049536 / 10000000000000) ^ 5) by (apply pow_incr; lra).
  assert ((31308 / 10000000) ^ 5 <= l ^ 5) by (apply pow_incr; lra).
  assert (y <= (4044998 / 100000000 + 55 / 1000) * (1000 / 1055)) by (apply (pow_le_inv _ _ 11); [lra|exact Y|]; rewrite E; lra).
  assert ((4044990 / 100000000 + 55 / 1000) * (1000 / 1055) <= y) by (apply (pow_le_inv _ _ 11); [exact Y|lra|]; rewrite E; lra).
  apply Rabs_le. lra.
Qed.

(** C63: from sRGB to linear and back, in exact arithmetic, channel by channel.  With exponent g on the way there and 1/g
    on the way back the channel is returned up to 10^-30 on the power branch and on the linear toe; with the standard
    exponent 2.4 it is returned up to 10^-7 on the whole range [0,1]. *)
Lemma C63_roundtrip_pf : forall (v : vec3 R) (i : nat), (i < 3)%nat ->
  let ch (u : vec3 R) := nth i (l3 u) 0 in let s := ch v in
  let lin g := sRGBToLinear3_g RS v g in let back g h := ch (linearToSRGB3_g RS (lin g) h) in
  (forall g, 0 < g -> 0.04045 < s <= 1 -> 0.0031308 <= ch (lin g) -> Rabs (back g (1 / g)%R - s) <= / 10^30) /\
  (forall g h, 0 <= s <= 0.04045 -> ch (lin g) < 0.0031308 -> Rabs (back g h - s) <= / 10^30) /\
  (0 <= s <= 1 -> Rabs (back 2.4 (1 / 2.4)%R - s) <= / 10^7).
Proof.
  intros v i Hi ch s lin back. assert (L : forall u : vec3 R, (i < length (l3 u))%nat) by (intros [? ? ?]; exact Hi).
  assert (E1 : forall g, ch (lin g) = toL s g).
  { intros g. unfold ch, lin, s. etransitivity; [apply (f_equal (fun l => nth i l 0) (toL_model v g))|]. apply (nth_map_R (fun s => toL s g)), L. }
  assert (E2 : forall g h, back g h = toS (toL s g) h).
  { intros g h. rewrite <- E1. unfold back, ch. etransitivity; [apply (f_equal (fun l => nth i l 0) (toS_model (lin g) h))|]. apply (nth_map_R (fun s => toS s h)), L. }
  assert (T : / 10 ^ 30 = eps30) by (unfold eps30; f_equal; cbn; lra). rewrite T. assert (T7 : / 10 ^ 7 = / 10000000) by (f_equal; cbn; lra). rewrite T7.
  ands.
  - intros g G S H. rewrite E1 in H. rewrite E2. apply back_pow; lra.
  - intros g h S H. rewrite E1 in H. rewrite E2. apply back_toe; lra.
  - intros S. rewrite E2. replace 2.4 with g24 by (unfold g24; lra). assert (eps30 <= / 10000000) by (unfold eps30; lra).
    destruct (Rle_or_lt s (4045 / 100000)) as [A|A].
    + destruct (Rlt_or_le (toL s g24) (31308 / 10000000)) as [B|B].
      * eapply Rle_trans; [apply back_toe; [lra|exact B]|assumption].
      * now apply middle24.
    + eapply Rle_trans; [apply back_pow; [lra|unfold g24; lra|now apply above24]|assumption].
Qed.

(** C63: with the same exponent g > 1 both ways (the parameter has the same name and the same documented meaning) the
    result on the power branch is strictly darker than the round trip above, *)
Lemma C63_same_gamma_pf : forall (v : vec3 R) (i : nat) (g : R), (i < 3)%nat ->
  let ch (u : vec3 R) := nth i (l3 u) 0 in let s := ch v in let l := sRGBToLinear3_g RS v g in
  1 < g -> 0.04045 < s <= 0.999 -> 0.0031308 <= ch l ->
  ch (linearToSRGB3_g RS l g) < ch (linearToSRGB3_g RS l (1 / g)%R).
Proof.
  intros v i g Hi ch s l. assert (L : forall u : vec3 R, (i < length (l3 u))%nat) by (intros [? ? ?]; exact Hi).
  assert (E1 : ch l = toL s g).
  { unfold ch, l, s. etransitivity; [apply (f_equal (fun l => nth i l 0) (toL_model v g))|]. apply (nth_map_R (fun s => toL s g)), L. }
  assert (E2 : forall h, ch (linearToSRGB3_g RS l h) = toS (toL s g) h).
  { intros h. rewrite <- E1. unfold ch. etransitivity; [apply (f_equal (fun l => nth i l 0) (toS_model l h))|]. apply (nth_map_R (fun s => toS s h)), L. }
  intros G S H. rewrite E1 in H. rewrite (E2 g), (E2 (1 / g)). clear - G S H. unfold toL in *. rewrite Rle_bool_false in * by lra.
  set (b := (s + 55 / 1000) * K1) in *. assert (B : 0 < b < 1) by (unfold b, K1; lra). rewrite Rpow_pos in * by lra.
  assert (P : 0 < Rpower b g) by apply exp_pos. unfold toS.
  rewrite unit_clamp_in by (split; [lra|apply Rpower_le_1; lra]). cbv zeta. rewrite Rlt_bool_false by lra.
  rewrite !Rpow_pos by exact P. rewrite !Rpower_mult. replace (g * (1 / g)) with 1 by (field; lra).
  assert (Rpower b (g * g) < Rpower b 1); [|lra]. unfold Rpower. apply exp_increasing.
  assert (ln b < 0) by (rewrite <- ln_1; now apply ln_increasing). assert (1 < g * g) by nra. nra.
Qed.

(** C63: ... and with the default exponent 2.4 mid-grey even comes back negative. *)
Lemma C63_same_gamma_refuted_pf : exists s : R, 0 <= s <= 1 /\
  let l := sRGBToLinear3 RS (V3 s s s) in Forall (fun c => c < 0) (l3 (linearToSRGB3_g RS l 2.4)).
Proof.
  exists (1 / 2). split; [lra|]. intros l. rewrite (toS_model l 2.4). unfold l.
  assert (E : l3 (sRGBToLinear3 RS (V3 (1 / 2) (1 / 2) (1 / 2))) = map (fun s => toL s g24) [1 / 2; 1 / 2; 1 / 2]) by exact (toL_model (V3 (1 / 2) (1 / 2) (1 / 2)) g24).
  assert (N : toS (toL (1 / 2) g24) 2.4 < 0).
  { replace 2.4 with g24 by (unfold g24; lra). unfold toL. rewrite Rle_bool_false by lra. set (b := (1 / 2 + 55 / 1000) * K1).
    assert (B : 52 / 100 <= b <= 53 / 100) by (unfold b, K1; lra). rewrite Rpow_pos by lra.
    assert (P : 0 < Rpower b g24) by apply exp_pos. assert (Lb : ln b < 0) by (rewrite <- ln_1; apply ln_increasing; lra).
    assert (Q : 31308 / 10000000 <= Rpower b g24).
    { apply Rle_trans with (Rpower b (INR 3)); [rewrite Rpower_pow by lra; apply Rle_trans with ((52 / 100) ^ 3); [lra|apply pow_incr; lra]|].
      left. unfold Rpower. apply exp_increasing. unfold g24. cbn [INR]. lra. }
    unfold toS. rewrite unit_clamp_in by (split; [lra|apply Rpower_le_1; [lra|unfold g24; lra]]). cbv zeta. rewrite Rlt_bool_false by exact Q.
    rewrite Rpow_pos by exact P. rewrite Rpower_mult.
    assert (Rpower b (g24 * g24) <= (53 / 100) ^ 5); [|lra]. apply Rle_trans with (b ^ 5); [|apply pow_incr; lra].
    rewrite <- Rpower_pow by lra. left. unfold Rpower. apply exp_increasing. unfold g24. cbn [INR]. lra. }
  set (m := sRGBToLinear3 RS (V3 (1 / 2) (1 / 2) (1 / 2))) in *. clearbody m. destruct m as [a b c]. cbn in E. injection E as -> -> ->.
  cbn [map l3 x3 y3 z3]. repeat apply Forall_cons; auto.
Qed.
Lemma mid_above : 0.0031308 <= nth 0 (l3 (sRGBToLinear3_g RS (V3 0.5 0.5 0.5) 2.4)) 0.
Proof.
  eapply Rle_trans; [|right; symmetry; exact (f_equal (fun l => nth 0 l 0) (toL_model (V3 0.5 0.5 0.5) 2.4))]. cbn [map l3 x3 y3 z3 nth].
  replace 2.4 with g24 by (unfold g24; lra). replace 0.0031308 with (31308 / 10000000) by lra. apply above24. lra.
Qed.
(*PROPS
(** mid-grey meets the hypotheses of the power branch, a dark grey those of the toe *)
Example C63_ex : 0.04045 < 0.5 <= 0.999 /\ 0.0031308 <= nth 0 (l3 (sRGBToLinear3_g RS (V3 0.5 0.5 0.5) 2.4)) 0 /\ 0 <= 0.04 <= 0.04045.
Proof. split; [Lra.lra|]. split; [exact mid_above|Lra.lra]. Qed.

PROPS*)
