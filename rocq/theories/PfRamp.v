(** * Proofs: ramps, interpolation and remainders in binary32 *)
From Coq Require Import ZArith Bool Reals List Lra Lia.
From Flocq Require Import Core IEEE754.BinarySingleNaN.
From Verif Require Import Scalar IEEE32 RealInst Types Outcome Spec SpecR SpecF32 SpecErr SpecOrd SpecDom SpecAcc SpecProj SpecRamp FloatBasics FloatOps
  ModelVec ModelCommon F32Tac RealTac NumLib PfOrder.
Import ListNotations.
Local Open Scope R_scope.
(*HEADER END*)
From Coq Require Import Psatz.
From Verif Require Import FloatAlg ErrLib OvfLib LenLib RelLib MonoLib DomLib PfOrder PfOctAcc PfQuatAcc PfRound.

Lemma eta_tiny : eta32 <= tiny.
Proof. change tiny with (bpow radix2 (-149)). apply bpow_le. lia. Qed.
Lemma tiny_u : 0 < tiny <= / 1000 * u.
Proof.
  split; [apply Rinv_0_lt_compat; now apply IZR_lt|]. unfold u, tiny, ulp_half. rewrite <- Rinv_mult, <- mult_IZR. apply Rinv_le_contravar; [now apply IZR_lt|now apply IZR_le].
Qed.
Lemma rnd_dec x : exists e n, Rabs e <= u /\ Rabs n <= tiny /\ rnd x = x * (1 + e) + n.
Proof. destruct (rnd_error x) as [e [n [A [B [_ C]]]]]. exists e, n. split; [exact A|]. split; [pose proof eta_tiny; lra|exact C]. Qed.
Lemma minus_rel (x y : f32) : exists e, Rabs e <= u /\ rnd (b2r x - b2r y) = (b2r x - b2r y) * (1 + e).
Proof. destruct (rnd_plus_error x (Bopp y)) as [e [A B]]. rewrite Bopp_b2r in B. exists e. split; [exact A|exact B]. Qed.
Lemma Rabs_bound x b : Rabs x <= b -> - b <= x <= b. Proof. apply Rabs_le_inv. Qed.

Lemma two_factors a b i : 0 <= i <= 8 -> Rabs a <= i * u -> Rabs b <= u -> Rabs ((1 + a) * (1 + b) - 1) <= (i + 1 + / 4000) * u.
Proof.
  intros Hi Ha Hb. pose proof u_val as Hu. replace ((1 + a) * (1 + b) - 1) with (a + b + a * b) by ring. eapply Rle_trans; [apply Rabs_triang|].
  pose proof (Rabs_triang a b). rewrite Rabs_mult. assert (Rabs a * Rabs b <= (8 * u) * u) by (apply Rmult_le_compat; try apply Rabs_pos; nra). nra.
Qed.

(** ** smoothstep *)
Definition cubic (t : R) : R := t * t * (3 - t * 2).
Lemma cubic_close t T : 0 <= t <= 1 -> 0 <= T <= 1 -> Rabs (t - T) <= (3 + / 100) * u * T + tiny -> Rabs (cubic t - cubic T) <= (3 + / 50) * u.
Proof.
  intros Ht HT D. pose proof u_val as Hu. pose proof tiny_u as Ti.
  assert (D1 : Rabs (t - T) <= 4 * u) by nra.
  replace (cubic t - cubic T) with ((t - T) * (3 * (t + T) - 2 * (t * t + t * T + T * T))) by (unfold cubic; ring).
  rewrite Rabs_mult. set (g := 3 * (t + T) - 2 * (t * t + t * T + T * T)).
  assert (G : 0 <= g <= 3 / 2).
  { unfold g. split; [nra|]. assert (0 <= (t + T - 1) * (t + T - 1)) by apply Rle_0_sqr. assert (0 <= (t - T) * (t - T)) by apply Rle_0_sqr. lra. }
  rewrite (Rabs_pos_eq g) by lra.
  assert (GT : T * g <= 1).
  { unfold g. set (d := t - T) in *. replace t with (T + d) by (unfold d; ring). apply Rabs_bound in D1.
    replace (T * (3 * (T + d + T) - 2 * ((T + d) * (T + d) + (T + d) * T + T * T))) with (6 * (T * T * (1 - T)) + d * (3 * T - 6 * (T * T)) - 2 * T * (d * d)) by ring.
    assert (C : T * T * (1 - T) <= 4 / 27). { assert (0 <= (T - 2 / 3) * (T - 2 / 3) * (T + / 3)) by (apply Rmult_le_pos; [apply Rle_0_sqr|lra]). lra. }
    assert (0 <= 2 * T * (d * d)) by (apply Rmult_le_pos; nra).
    assert (- 3 <= 3 * T - 6 * (T * T) <= 3) by nra. assert (d * (3 * T - 6 * (T * T)) <= 12 * u) by nra. lra. }
  apply Rle_trans with (((3 + / 100) * u * T + tiny) * g); [apply Rmult_le_compat_r; lra|].
  replace (((3 + / 100) * u * T + tiny) * g) with ((3 + / 100) * u * (T * g) + tiny * g) by ring. nra.
Qed.
Lemma cubic_val (t : f32) : finite t -> 0 <= b2r t <= 1 -> Rabs (b2r (ss_poly t) - cubic (b2r t)) <= (3 + / 50) * u.
Proof.
  intros F H. destruct (ss_poly_val t F H) as [_ [-> _]]. pose proof u_val as Hu. pose proof tiny_u as Ti. set (a := b2r t) in *.
  destruct (rnd_dec (a * a)) as [e1 [n1 [A1 [B1 ->]]]].
  assert (C : exists e2, Rabs e2 <= u /\ rnd (3 - a * 2) = (3 - a * 2) * (1 + e2)).
  { assert (F2a : fmt (a * 2)) by (apply fmt_double, fmt_b2r). destruct (rnd_rel (3 - a * 2)) as [e2 [K1 K2]].
    - rewrite Rabs_pos_eq by lra. apply Rle_trans with 1; [|lra]. change 1 with (bpow radix2 0). apply bpow_le. lia.
    - exists e2. split; [exact K1|exact K2]. }
  destruct C as [e2 [A2 ->]]. destruct (rnd_dec ((a * a * (1 + e1) + n1) * ((3 - a * 2) * (1 + e2)))) as [e3 [n3 [A3 [B3 ->]]]].
  set (s := a * a) in *. set (w := 3 - a * 2) in *. assert (Hs : 0 <= s <= 1) by (unfold s; nra). assert (Hw : 1 <= w <= 3) by (unfold w; lra).
  assert (Hc : 0 <= s * w <= 1).
  { split; [nra|]. unfold s, w. assert (0 <= (1 - a) * (1 - a) * (1 + 2 * a)) by (apply Rmult_le_pos; nra). nra. }
  change (cubic a) with (s * w).
  replace ((s * (1 + e1) + n1) * (w * (1 + e2)) * (1 + e3) + n3 - s * w) with (s * w * ((1 + e1) * (1 + e2) * (1 + e3) - 1) + (n1 * (w * (1 + e2) * (1 + e3)) + n3)) by ring.
  assert (P : Rabs ((1 + e1) * (1 + e2) * (1 + e3) - 1) <= (3 + / 1000) * u).
  { assert (I1 : Rabs e1 <= 1 * u) by lra. pose proof (two_factors e1 e2 1 ltac:(lra) I1 A2) as J. set (m := (1 + e1) * (1 + e2) - 1) in *.
    replace ((1 + e1) * (1 + e2)) with (1 + m) by (unfold m; ring). pose proof (two_factors m e3 (1 + 1 + / 4000) ltac:(lra) J A3). lra. }
  assert (Q : Rabs (w * (1 + e2) * (1 + e3)) <= 4).
  { apply Rabs_bound in A2, A3. apply Rabs_le. assert (1 / 2 <= (1 + e2) * (1 + e3) <= 5 / 4) by nra. rewrite Rmult_assoc. nra. }
  eapply Rle_trans; [apply Rabs_triang|]. rewrite Rabs_mult, (Rabs_pos_eq (s * w)) by lra.
  assert (Rabs (n1 * (w * (1 + e2) * (1 + e3)) + n3) <= 5 * tiny).
  { eapply Rle_trans; [apply Rabs_triang|]. rewrite Rabs_mult. assert (Rabs n1 * Rabs (w * (1 + e2) * (1 + e3)) <= tiny * 4) by (apply Rmult_le_compat; try apply Rabs_pos; lra). lra. }
  assert (s * w * Rabs ((1 + e1) * (1 + e2) * (1 + e3) - 1) <= 1 * ((3 + / 1000) * u)) by (apply Rmult_le_compat; try apply Rabs_pos; lra). lra.
Qed.
Lemma ratio_err a b c : Rabs a <= u -> Rabs b <= u -> Rabs c <= u -> Rabs ((1 + a) / (1 + b) * (1 + c) - 1) <= (3 + / 1000) * u.
Proof.
  intros A B C. pose proof u_val as Hu. apply Rabs_bound in A, B, C.
  assert (K : (1 + a) / (1 + b) * (1 + c) - 1 = (a + c - b + a * c) / (1 + b)) by (field; lra). rewrite K.
  unfold Rdiv. rewrite Rabs_mult, (Rabs_pos_eq (/ (1 + b))) by (apply Rlt_le, Rinv_0_lt_compat; lra).
  apply Rmult_le_reg_r with (1 + b); [lra|]. rewrite Rmult_assoc, Rinv_l, Rmult_1_r by lra. apply Rabs_le. split; nra.
Qed.
Lemma le_intro (x y : f32) : finite x -> finite y -> b2r x <= b2r y -> ieee_le x y.
Proof. intros Fx Fy H. split; [now apply finite_nn|]. split; [now apply finite_nn|]. rewrite !xr_finite by assumption. exact H. Qed.
Lemma ramp_in e0 e1 x : e0 < e1 -> e0 <= x <= e1 -> 0 <= (x - e0) / (e1 - e0) <= 1 /\ ramp e0 e1 x = cubic ((x - e0) / (e1 - e0)).
Proof.
  intros H Hx. assert (P : 0 < / (e1 - e0)) by (apply Rinv_0_lt_compat; lra).
  assert (B : 0 <= (x - e0) / (e1 - e0) <= 1).
  { split; [apply Rmult_le_pos; lra|]. apply Rmult_le_reg_r with (e1 - e0); [lra|]. unfold Rdiv. rewrite Rmult_assoc, Rinv_l by lra. lra. }
  split; [exact B|]. unfold ramp. cbv zeta. rewrite Rmax_left, Rmin_left by lra. unfold cubic. ring.
Qed.
Lemma ramp_low e0 e1 x : e0 < e1 -> x <= e0 -> ramp e0 e1 x = 0.
Proof.
  intros H Hx. assert (P : 0 < / (e1 - e0)) by (apply Rinv_0_lt_compat; lra). unfold ramp. cbv zeta.
  assert ((x - e0) / (e1 - e0) <= 0) by (unfold Rdiv; nra). rewrite Rmax_right, Rmin_left by lra. ring.
Qed.
Lemma ramp_high e0 e1 x : e0 < e1 -> e1 <= x -> ramp e0 e1 x = 1.
Proof.
  intros H Hx. assert (P : 0 < / (e1 - e0)) by (apply Rinv_0_lt_compat; lra). unfold ramp. cbv zeta.
  assert (1 <= (x - e0) / (e1 - e0)) by (apply Rmult_le_reg_r with (e1 - e0); [lra|]; unfold Rdiv; rewrite Rmult_assoc, Rinv_l by lra; lra).
  rewrite Rmax_left, Rmin_right by lra. ring.
Qed.

(** C95: smoothstep is within 7 * 2^-24 of the cubic ramp, for all finite edges in order whose difference does not
    overflow and every finite x ... *)
Lemma C95_smoothstep_pf : forall (L : Libm) (e0 e1 x : f32), finite e0 -> finite e1 -> ieee_lt e0 e1 -> finite (@ssub (F32 L) e1 e0) -> finite x ->
  Rabs (b2r (smoothstep_f (F32 L) e0 e1 x) - ramp (b2r e0) (b2r e1) (b2r x)) <= 7 * ulp_half.
Proof.
  intros L e0 e1 x F0 F1 Hlt Fd Fx. pose proof u_val as Hu. pose proof tiny_u as Ti.
  destruct (C22_smoothstep_pf L e0 e1 x F0 F1 Hlt (finite_nn x Fx) Fd) as [_ [_ [Lo Hi]]].
  assert (H : b2r e0 < b2r e1) by (destruct Hlt as [_ [_ K]]; now rewrite !xr_finite in K by assumption).
  destruct (Rle_or_lt (b2r x) (b2r e0)) as [X0|X0].
  { rewrite (Lo (le_intro _ _ Fx F0 X0)). rewrite ramp_low, Rminus_0_r, Rabs_R0 by assumption. change ulp_half with u. lra. }
  destruct (Rle_or_lt (b2r e1) (b2r x)) as [X1|X1].
  { rewrite (Hi (le_intro _ _ F1 Fx X1)). rewrite ramp_high by assumption. replace (1 - 1) with 0 by ring. rewrite Rabs_R0. change ulp_half with u. lra. }
  clear Lo Hi. destruct (ramp_in (b2r e0) (b2r e1) (b2r x) H ltac:(lra)) as [HT ->]. set (T := (b2r x - b2r e0) / (b2r e1 - b2r e0)) in *.
  cbn [ssub F32] in Fd. destruct (minus_inv _ _ Fd) as [_ [_ Ed]]. destruct (minus_rel e1 e0) as [b [Hb Eb]]. rewrite Eb in Ed.
  destruct (minus_rel x e0) as [a [Ha Ea]]. pose proof (b2r_lt_big (Bminus mode_NE e1 e0)) as BD.
  assert (N0 : 0 <= rnd (b2r x - b2r e0)) by (apply rnd_ge_fmt; [apply fmt_0|lra]).
  assert (N1 : rnd (b2r x - b2r e0) <= b2r (Bminus mode_NE e1 e0)) by (rewrite Ed, <- Eb; apply rnd_mono; lra).
  destruct (minus_ok x e0 Fx F0) as [Fn En]; [rewrite Rabs_pos_eq; lra|]. rewrite <- En in N0, N1. rewrite Ea in En.
  set (n := Bminus mode_NE x e0) in *. set (d := Bminus mode_NE e1 e0) in *.
  assert (Pd : 0 < b2r d) by (rewrite Ed; apply Rabs_bound in Hb; apply Rmult_lt_0_compat; lra).
  assert (Q : 0 <= b2r n / b2r d <= 1).
  { split; [apply Rmult_le_pos; [exact N0|apply Rlt_le, Rinv_0_lt_compat; exact Pd]|]. apply Rmult_le_reg_r with (b2r d); [exact Pd|]. unfold Rdiv. rewrite Rmult_assoc, Rinv_l by lra. lra. }
  assert (Q1 : 0 <= rnd (b2r n / b2r d) <= 1) by (split; [apply rnd_ge_fmt; [apply fmt_0|lra]|apply rnd_le_fmt; [apply fmt_1|lra]]).
  pose proof one_lt_big as OB. destruct (div_ok n d Fn Fd) as [Fq Eq]; [lra|rewrite Rabs_pos_eq; lra|]. set (q := Bdiv mode_NE n d) in *.
  assert (Ct : finite (clamp_f (F32 L) q (f32_lit 0 0) (f32_lit 1 0)) /\ b2r (clamp_f (F32 L) q (f32_lit 0 0) (f32_lit 1 0)) = b2r q).
  { destruct (ss_clamp L q (finite_nn q Fq)) as [Ft [_ _]]. split; [exact Ft|]. rewrite <- (xr_finite _ Ft). unfold clamp_f.
    rewrite xr_min, xr_max, xr_0, xr_1 by (trivial; try (now apply finite_nn); apply max_f_nn; trivial; now apply finite_nn). rewrite (xr_finite q Fq), Eq. rewrite Rmax_left, Rmin_left; lra. }
  unfold smoothstep_f; cbn [ssub smul sdiv slit F32]. cbv zeta. fold n d. fold q. set (t := clamp_f _ _ _ _) in *. destruct Ct as [Ft Et]. rewrite Eq in Et.
  change (Bmult mode_NE (Bmult mode_NE t t) (Bminus mode_NE (f32_lit 3 0) (Bmult mode_NE (f32_lit 2 0) t))) with (ss_poly t).
  assert (Bt : 0 <= b2r t <= 1) by (rewrite Et; exact Q1).
  assert (D : Rabs (b2r t - T) <= (3 + / 100) * u * T + tiny).
  { rewrite Et. destruct (rnd_dec (b2r n / b2r d)) as [c [h [Hc [Hh ->]]]].
    assert (E : b2r n / b2r d = T * ((1 + a) / (1 + b))) by (rewrite En, Ed; unfold T; apply Rabs_bound in Hb; field; lra). rewrite E.
    replace (T * ((1 + a) / (1 + b)) * (1 + c) + h - T) with (T * ((1 + a) / (1 + b) * (1 + c) - 1) + h) by ring.
    eapply Rle_trans; [apply Rabs_triang|]. rewrite Rabs_mult, (Rabs_pos_eq T) by lra. pose proof (ratio_err a b c Ha Hb Hc) as R.
    assert (T * Rabs ((1 + a) / (1 + b) * (1 + c) - 1) <= T * ((3 + / 1000) * u)) by (apply Rmult_le_compat_l; lra). nra. }
  pose proof (cubic_val t Ft Bt) as V. pose proof (cubic_close (b2r t) T Bt HT D) as W.
  replace (b2r (ss_poly t) - cubic T) with ((b2r (ss_poly t) - cubic (b2r t)) + (cubic (b2r t) - cubic T)) by ring.
  eapply Rle_trans; [apply Rabs_triang|]. change ulp_half with u. lra.
Qed.
Lemma ramp_mono e0 e1 x y : e0 < e1 -> x <= y -> ramp e0 e1 x <= ramp e0 e1 y.
Proof.
  intros H Hxy. unfold ramp. cbv zeta. assert (P : 0 < / (e1 - e0)) by (apply Rinv_0_lt_compat; lra).
  assert (M : (x - e0) / (e1 - e0) <= (y - e0) / (e1 - e0)) by (apply Rmult_le_compat_r; lra).
  set (a := (x - e0) / (e1 - e0)) in *. set (b := (y - e0) / (e1 - e0)) in *.
  assert (S : Rmin (Rmax a 0) 1 <= Rmin (Rmax b 0) 1) by (apply Rle_min_compat_r, Rle_max_compat_r; exact M).
  assert (A : 0 <= Rmin (Rmax a 0) 1) by (apply Rmin_glb; [apply Rmax_r|lra]). assert (B : Rmin (Rmax b 0) 1 <= 1) by apply Rmin_r.
  set (s := Rmin (Rmax a 0) 1) in *. set (t := Rmin (Rmax b 0) 1) in *.
  assert (0 <= (t - s) * (3 * (s + t) - 2 * (s * s + s * t + t * t))) by (apply Rmult_le_pos; nra). nra.
Qed.
(** ... so rounding breaks its monotonicity (C81) by at most 14 * 2^-24. *)
Lemma C95_almost_monotone_pf : forall (L : Libm) (e0 e1 x y : f32), finite e0 -> finite e1 -> ieee_lt e0 e1 -> finite (@ssub (F32 L) e1 e0) -> finite x -> finite y -> b2r x <= b2r y ->
  b2r (smoothstep_f (F32 L) e0 e1 x) <= b2r (smoothstep_f (F32 L) e0 e1 y) + 14 * ulp_half.
Proof.
  intros L e0 e1 x y F0 F1 Hlt Fd Fx Fy Hxy. pose proof (C95_smoothstep_pf L e0 e1 x F0 F1 Hlt Fd Fx) as A. pose proof (C95_smoothstep_pf L e0 e1 y F0 F1 Hlt Fd Fy) as B.
  assert (H : b2r e0 < b2r e1) by (destruct Hlt as [_ [_ K]]; now rewrite !xr_finite in K by assumption).
  pose proof (ramp_mono _ _ _ _ H Hxy). apply Rabs_bound in A, B. lra.
Qed.

(** ** mix *)
(** C95: mix is within 5.1 * 2^-24 of the exact interpolation, relative to the larger endpoint; t in [0, 1], endpoints
    up to 2^126. *)
Lemma C95_mix_pf : forall (L : Libm) (x y t : f32), finite x -> finite y -> between 0 1 t -> Rabs (b2r x) <= IZR (2 ^ 126) -> Rabs (b2r y) <= IZR (2 ^ 126) ->
  finite (mix_f (F32 L) x y t) /\
  Rabs (b2r (mix_f (F32 L) x y t) - (b2r x + b2r t * (b2r y - b2r x))) <= 51/10 * ulp_half * Rmax (Rabs (b2r x)) (Rabs (b2r y)) + 2 * tiny.
Proof.
  intros L x y t Fx Fy [Ft Ht] Bx By. pose proof u_val as Hu. pose proof tiny_u as Ti. unfold mix_f. cbn [sadd smul ssub F32].
  set (M := Rmax (Rabs (b2r x)) (Rabs (b2r y))). assert (Mx : Rabs (b2r x) <= M) by apply Rmax_l. assert (My : Rabs (b2r y) <= M) by apply Rmax_r.
  assert (MB : M <= IZR (2 ^ 126)) by (apply Rmax_lub; assumption). assert (M0 : 0 <= M) by (pose proof (Rabs_pos (b2r x)); lra).
  change (IZR (2 ^ 126)) with (bpow radix2 126) in *. assert (B1 : bpow radix2 127 = 2 * bpow radix2 126) by (change 127%Z with (1 + 126)%Z; rewrite bpow_plus; reflexivity).
  assert (WX : within 126 x) by (split; assumption). assert (WY : within 126 y) by (split; assumption).
  assert (WT : within 0 t) by (split; [exact Ft|rewrite Rabs_pos_eq by lra; exact (proj2 Ht)]).
  destruct (w_sub 126 126 127 y x WY WX) as [WD ED]; try lia.
  destruct (minus_rel y x) as [a [Ha Ea]]. set (d := Bminus mode_NE y x) in *.
  destruct (mult_ok t d Ft (w_fin _ _ WD)) as [Fp Ep].
  { apply Rle_lt_trans with (bpow radix2 127); [|apply bpow_lt; lia]. apply rnd_abs_le; [apply fmt_bpow; lia|]. rewrite Rabs_mult, (Rabs_pos_eq (b2r t)) by lra.
    pose proof (proj2 WD) as K. pose proof (Rabs_pos (b2r d)). nra. }
  destruct (rnd_dec (b2r t * b2r d)) as [b [h [Hb [Hh Eb]]]]. rewrite Eb in Ep.
  assert (EDv : b2r d = (b2r y - b2r x) * (1 + a)) by (destruct (minus_ok y x Fy Fx) as [_ K]; [rewrite <- ED; apply Rabs_def1; apply b2r_lt_big|unfold d; rewrite K; exact Ea]).
  set (p := Bmult mode_NE t d) in *. set (D := b2r y - b2r x) in *. set (E := b2r x + b2r t * D) in *.
  assert (DB : Rabs D <= 2 * M) by (unfold D, Rminus; eapply Rle_trans; [apply Rabs_triang|rewrite Rabs_Ropp; lra]).
  assert (EB : Rabs E <= M). { unfold E, D. apply Rabs_bound in Mx, My. apply Rabs_le. split; nra. }
  assert (PV : Rabs (b2r p - b2r t * D) <= (4 + / 100) * u * M + tiny).
  { rewrite Ep, EDv. replace (b2r t * (D * (1 + a)) * (1 + b) + h - b2r t * D) with (b2r t * D * (a + b + a * b) + h) by ring.
    eapply Rle_trans; [apply Rabs_triang|]. rewrite !Rabs_mult, (Rabs_pos_eq (b2r t)) by lra.
    assert (K : Rabs (a + b + a * b) <= (2 + / 1000) * u) by (apply Rabs_bound in Ha, Hb; apply Rabs_le; split; nra).
    assert (K2 : b2r t * Rabs D <= 2 * M) by (pose proof (Rabs_pos D); nra).
    assert (b2r t * Rabs D * Rabs (a + b + a * b) <= 2 * M * ((2 + / 1000) * u)) by (apply Rmult_le_compat; try apply Rabs_pos; try lra; apply Rmult_le_pos; [lra|apply Rabs_pos]). nra. }
  assert (XP : Rabs (b2r x + b2r p - E) <= (4 + / 100) * u * M + tiny) by (unfold E; replace (b2r x + b2r p - (b2r x + b2r t * D)) with (b2r p - b2r t * D) by ring; exact PV).
  assert (XB : Rabs (b2r x + b2r p) <= M + (4 + / 100) * u * M + tiny) by (replace (b2r x + b2r p) with (E + (b2r x + b2r p - E)) by ring; eapply Rle_trans; [apply Rabs_triang|lra]).
  destruct (rnd_plus_error x p) as [c [Hc Ec]]. change u32 with u in Hc.
  assert (P126 : 1 <= bpow radix2 126) by (change 1 with (bpow radix2 0); apply bpow_le; lia).
  destruct (plus_ok x p Fx Fp) as [Fs Es].
  { apply Rle_lt_trans with (bpow radix2 127); [|apply bpow_lt; lia]. apply rnd_abs_le; [apply fmt_bpow; lia|]. rewrite B1. nra. }
  split; [exact Fs|]. rewrite Es, Ec. replace ((b2r x + b2r p) * (1 + c) - E) with ((b2r x + b2r p - E) + (b2r x + b2r p) * c) by ring.
  eapply Rle_trans; [apply Rabs_triang|]. rewrite Rabs_mult. change ulp_half with u.
  assert (Rabs (b2r x + b2r p) * Rabs c <= (M + (4 + / 100) * u * M + tiny) * u) by (apply Rmult_le_compat; try apply Rabs_pos; lra).
  assert (0 <= u * M) by nra. assert (u * (u * M) <= / 1000 * (u * M)) by nra. nra.
Qed.

(** ** fract and mod *)
(** C95: fract is the correctly rounded fractional part, to half an ulp of itself ... *)
Lemma C95_fract_pf : forall (L : Libm) (x : f32), finite x -> rel_close 1 (fract_f (F32 L) x) (b2r x - IZR (Zfloor (b2r x))).
Proof.
  intros L x F. destruct (fract_val L x F) as [F1 [E _]]. destruct (nearby_ok mode_DN x F) as [H1 H2]. cbn [round_mode] in H2.
  destruct (minus_rel x (Bnearbyint mode_DN x)) as [a [Ha Ea]]. rewrite H2 in Ea. apply rel_factor; [lra|]. split; [exact F1|]. exists a. rewrite E. change ulp_half with u. split; [lra|exact Ea].
Qed.
(** ... and mod is within 2.1 * 2^-24 (|x| + |y|) of the floored remainder or, when that is as close to y, of the same
    point past the wrap-around; y is not zero and |x/y| <= 2^23. *)
Lemma C95_mod_pf : forall (L : Libm) (x y : f32), finite x -> finite y -> b2r y <> 0 -> Rabs (b2r x) <= IZR (2 ^ 126) -> Rabs (b2r y) <= IZR (2 ^ 126) ->
  Rabs (b2r x) <= IZR (2 ^ 23) * Rabs (b2r y) ->
  let m := floored (b2r x) (b2r y) in let e := 21/10 * ulp_half * (Rabs (b2r x) + Rabs (b2r y)) + 2 * tiny in
  finite (mod_f (F32 L) x y) /\
  (Rabs (b2r (mod_f (F32 L) x y) - m) <= e \/ Rabs (b2r (mod_f (F32 L) x y) - (m - b2r y)) <= e /\ Rabs (m - b2r y) <= e).
Proof.
  intros L x y Fx Fy Ny Bx By Bq m e. pose proof u_val as Hu. pose proof tiny_u as Ti. unfold mod_f, floor_f. cbn [ssub smul sdiv sfloor F32].
  assert (Py : 0 < Rabs (b2r y)) by (now apply Rabs_pos_lt). set (q := b2r x / b2r y).
  assert (Aq : Rabs q * Rabs (b2r y) = Rabs (b2r x)) by (rewrite <- Rabs_mult; f_equal; unfold q; field; exact Ny).
  assert (Hq : Rabs q <= IZR (2 ^ 23)) by (apply Rmult_le_reg_r with (Rabs (b2r y)); [exact Py|]; lra).
  assert (HQ : Rabs (rnd q) <= IZR (2 ^ 23)) by (apply rnd_abs_le; [apply fmt_Z; cbn; lia|exact Hq]).
  destruct (div_ok x y Fx Fy Ny) as [Fq Eq]; [fold q; eapply Rle_lt_trans; [exact HQ|]; change (IZR (2 ^ 23)) with (bpow radix2 23); apply bpow_lt; lia|]. fold q in Eq.
  destruct (nearby_ok mode_DN _ Fq) as [Ff Ef]. cbn [round_mode] in Ef. rewrite Eq in Ef. set (N := Zfloor (rnd q)) in *. set (N0 := Zfloor q).
  pose proof (Zfloor_lb q) as L0. pose proof (Zfloor_ub q) as U0. fold N0 in L0, U0. change (IZR (2 ^ 23)) with 8388608 in *.
  assert (B0 : (- 8388609 <= N0 <= 8388608)%Z). { apply Rabs_bound in Hq. split; apply le_IZR || (apply Z.lt_succ_r, lt_IZR; rewrite succ_IZR); lra. }
  assert (R0 : IZR N0 <= rnd q <= IZR N0 + 1).
  { split; [apply rnd_ge_fmt; [apply fmt_Z; lia|exact L0]|]. rewrite <- plus_IZR. apply rnd_le_fmt; [apply fmt_Z; lia|rewrite plus_IZR; lra]. }
  assert (K : N = N0 \/ N = (N0 + 1)%Z /\ rnd q = IZR N0 + 1).
  { destruct (Rle_or_lt (IZR N0 + 1) (rnd q)) as [C|C]; [right|left].
    - assert (E : rnd q = IZR (N0 + 1)) by (rewrite plus_IZR; lra). split; [unfold N; rewrite E; apply Zfloor_IZR|lra].
    - unfold N. apply Zfloor_imp. rewrite plus_IZR. lra. }
  assert (D : Rabs (q - IZR N) <= 1) by (destruct K as [->|[-> _]]; [|rewrite plus_IZR]; apply Rabs_le; lra).
  set (P := b2r y * IZR N). assert (XP : b2r x - P = b2r y * (q - IZR N)) by (unfold P, q; field; exact Ny).
  assert (AXP : Rabs (b2r x - P) <= Rabs (b2r y)) by (rewrite XP, Rabs_mult; nra).
  assert (AP : Rabs P <= Rabs (b2r x) + Rabs (b2r y)). { replace P with (b2r x - (b2r x - P)) by ring. unfold Rminus at 1. eapply Rle_trans; [apply Rabs_triang|]. rewrite Rabs_Ropp. lra. }
  change (IZR (2 ^ 126)) with (bpow radix2 126) in *. assert (B1 : bpow radix2 127 = 2 * bpow radix2 126) by (change 127%Z with (1 + 126)%Z; rewrite bpow_plus; reflexivity).
  assert (P126 : 1 <= bpow radix2 126) by (change 1 with (bpow radix2 0); apply bpow_le; lia).
  destruct (mult_ok y (Bnearbyint mode_DN (Bdiv mode_NE x y)) Fy Ff) as [Fp Ep].
  { rewrite Ef. fold P. apply Rle_lt_trans with (bpow radix2 127); [|apply bpow_lt; lia]. apply rnd_abs_le; [apply fmt_bpow; lia|lra]. }
  rewrite Ef in Ep. fold P in Ep. destruct (rnd_dec P) as [a [h [Ha [Hh Ea]]]]. rewrite Ea in Ep. set (p := Bmult mode_NE y _) in *.
  assert (PP : Rabs (b2r p - P) <= u * (Rabs (b2r x) + Rabs (b2r y)) + tiny).
  { rewrite Ep. replace (P * (1 + a) + h - P) with (P * a + h) by ring. eapply Rle_trans; [apply Rabs_triang|]. rewrite Rabs_mult.
    assert (Rabs P * Rabs a <= (Rabs (b2r x) + Rabs (b2r y)) * u) by (apply Rmult_le_compat; try apply Rabs_pos; assumption). lra. }
  set (Z := Rabs (b2r x) + Rabs (b2r y)) in *. assert (Z0 : 0 <= Z) by (pose proof (Rabs_pos P); lra). assert (YZ : Rabs (b2r y) <= Z) by (unfold Z; pose proof (Rabs_pos (b2r x)); lra).
  assert (XB : Rabs (b2r x - b2r p) <= Rabs (b2r y) + (u * Z + tiny)).
  { replace (b2r x - b2r p) with ((b2r x - P) + (- (b2r p - P))) by ring. eapply Rle_trans; [apply Rabs_triang|]. rewrite Rabs_Ropp. lra. }
  destruct (minus_rel x p) as [c [Hc Ec]].
  destruct (minus_ok x p Fx Fp) as [Fs Es].
  { apply Rle_lt_trans with (bpow radix2 127); [|apply bpow_lt; lia]. apply rnd_abs_le; [apply fmt_bpow; lia|]. rewrite B1. unfold Z in XB. nra. }
  split; [exact Fs|].
  assert (R : Rabs (b2r (Bminus mode_NE x p) - (b2r x - P)) <= e).
  { rewrite Es, Ec. replace ((b2r x - b2r p) * (1 + c) - (b2r x - P)) with ((b2r x - b2r p) * c + - (b2r p - P)) by ring. eapply Rle_trans; [apply Rabs_triang|]. rewrite Rabs_Ropp, Rabs_mult.
    assert (Rabs (b2r x - b2r p) * Rabs c <= (Rabs (b2r y) + (u * Z + tiny)) * u) by (apply Rmult_le_compat; try apply Rabs_pos; assumption).
    unfold e. change ulp_half with u. fold Z. assert (UZ : 0 <= u * Z) by (apply Rmult_le_pos; lra). assert (u * (u * Z) <= / 1000 * (u * Z)) by (apply Rmult_le_compat_r; lra).
    assert (Rabs (b2r y) * u <= Z * u) by (apply Rmult_le_compat_r; lra). assert (tiny * u <= tiny * 1) by (apply Rmult_le_compat_l; lra). lra. }
  destruct K as [K|[K KQ]].
  - left. replace m with (b2r x - P); [exact R|]. unfold m, floored, P. fold q. fold N0. now rewrite K.
  - right. assert (E : m - b2r y = b2r x - P) by (unfold m, floored, P; fold q; fold N0; rewrite K, plus_IZR; ring). rewrite E. split; [exact R|].
    rewrite XP, Rabs_mult, K, plus_IZR, <- KQ. destruct (rnd_dec q) as [g [k [Hg [Hk ->]]]]. replace (q - (q * (1 + g) + k)) with (- (q * g + k)) by ring. rewrite Rabs_Ropp.
    assert (Rabs (q * g + k) <= Rabs q * u + tiny) by (eapply Rle_trans; [apply Rabs_triang|]; rewrite Rabs_mult; pose proof (Rabs_pos q); nra).
    unfold e. change ulp_half with u. fold Z. pose proof (Rabs_pos q). assert (XZ : Rabs (b2r x) <= Z) by (unfold Z; lra).
    apply Rle_trans with (Rabs (b2r y) * (Rabs q * u + tiny)); [apply Rmult_le_compat_l; lra|]. replace (Rabs (b2r y) * (Rabs q * u + tiny)) with (Rabs q * Rabs (b2r y) * u + Rabs (b2r y) * tiny) by ring. rewrite Aq. nra.
Qed.
(*PROPS
(** the wrap-around happens: 0.7f / 0.1f is below 7 and rounds to 7, so mod(0.7f, 0.1f) is 0 while the exact remainder is
    just below 0.1 *)
Example C95_wrap_case : let x := f32_lit 7 (-1) in let y := f32_lit 1 (-1) in
  Rabs (b2r x) <= IZR (2 ^ 23) * Rabs (b2r y) /\ mod_f (F32 L0) x y = f32_lit 0 0 /\ 999/10000 < floored (b2r x) (b2r y) < b2r y.
Proof.
  intros x y. assert (Ex : b2r x = 11744051 / 16777216) by (unfold x, f32_lit; vm_compute; lra). assert (Ey : b2r y = 13421773 / 134217728) by (unfold y, f32_lit; vm_compute; lra).
  split; [rewrite Ex, Ey, !Rabs_pos_eq by lra; lra|]. split; [apply f32_by_sf; vm_compute; reflexivity|].
  assert (F : Zfloor (b2r x / b2r y) = 6%Z) by (apply Zfloor_imp; rewrite Ex, Ey; cbn; lra). unfold floored. rewrite F, Ex, Ey. lra.
Qed.
(** edges and argument meeting the hypotheses; a third of the way up the ramp *)
Example C95_ramp_case : ieee_lt (f32_lit 0 0) (f32_lit 3 0) /\ finite (@ssub (F32 L0) (f32_lit 3 0) (f32_lit 0 0)) /\ ramp 0 3 1 = 7/27.
Proof.
  split; [apply Bltb_ieee; vm_compute; reflexivity|]. split; [reflexivity|]. unfold ramp. cbv zeta. rewrite Rmax_left, Rmin_left by lra. field.
Qed.
PROPS*)
