(** * Monotonicity of rounded arithmetic *)
From Coq Require Import ZArith Bool Reals List Lra Lia Psatz.
From Flocq Require Import Core IEEE754.BinarySingleNaN.
From Verif Require Import Scalar IEEE32 RealInst FloatBasics FloatOps FloatAlg SpecF32 SpecErr NumLib ErrExpr ErrLib OvfLib SpecGrid GridLib LenLib ScaleLib SpecOrd F32Tac.
Import ListNotations.
Local Open Scope R_scope.

(** ** Positive expressions *)
Section POS.
  Variable L : Libm.
  Variables rho rho' : nat -> f32.
  Hypothesis HF : forall n, finite (rho n).
  Hypothesis HR : forall n, 0 <= b2r (rho n) <= b2r (rho' n).
  Lemma positive_monotone e : lits_ok e = true -> positive_expr e = true -> finite (eval (F32 L) rho' e) ->
    finite (eval (F32 L) rho e) /\ 0 <= b2r (eval (F32 L) rho e) <= b2r (eval (F32 L) rho' e).
  Proof.
    induction e as [n|m|m| |a IHa b IHb|a IHa b IHb|a IHa b IHb|a IHa]; intros Hl H F; cbn [lits_ok positive_expr] in *; try discriminate H.
    - cbn [eval] in *. auto.
    - cbn [eval] in *. split; [exact F|]. assert (E : b2r (@slit (F32 L) m 0) = IZR m) by exact (lit_exact m Hl). rewrite E. apply Z.leb_le, IZR_le in H. lra.
    - cbn [eval] in *. split; [exact F|]. assert (E : b2r (@sofZ (F32 L) m) = IZR m) by exact (ofZ_exact m Hl). rewrite E. apply Z.leb_le, IZR_le in H. lra.
    - cbn [eval] in *. split; [exact F|]. assert (E : b2r (@slit (F32 L) 5 (-1)) = / 2) by exact b2r_lit_half. rewrite E. lra.
    - apply andb_prop in Hl as [La Lb]. apply andb_prop in H as [Ha Hb]. cbn [eval] in *. pose proof F as F0. apply plus_inv in F as (Fa & Fb & E).
      destruct (IHa La Ha Fa) as (A & Ra). destruct (IHb Lb Hb Fb) as (B & Rb).
      assert (M : rnd (b2r (eval (F32 L) rho a) + b2r (eval (F32 L) rho b)) <= rnd (b2r (eval (F32 L) rho' a) + b2r (eval (F32 L) rho' b))) by (apply rnd_mono; lra).
      assert (P : 0 <= rnd (b2r (eval (F32 L) rho a) + b2r (eval (F32 L) rho b))) by (rewrite <- rnd_0; apply rnd_mono; lra).
      destruct (plus_ok _ _ A B) as [G1 G2].
      + rewrite Rabs_pos_eq by exact P. eapply Rle_lt_trans; [exact M|]. rewrite <- E. apply b2r_lt_big.
      + split; [exact G1|]. change (b2r (Bplus mode_NE (eval (F32 L) rho a) (eval (F32 L) rho b)) = rnd (b2r (eval (F32 L) rho a) + b2r (eval (F32 L) rho b))) in G2.
        change (0 <= b2r (Bplus mode_NE (eval (F32 L) rho a) (eval (F32 L) rho b)) <= b2r (Bplus mode_NE (eval (F32 L) rho' a) (eval (F32 L) rho' b))). rewrite G2, E. split; [exact P|exact M].
    - apply andb_prop in Hl as [La Lb]. apply andb_prop in H as [Ha Hb]. cbn [eval] in *. apply mult_inv in F as (Fa & Fb & E).
      destruct (IHa La Ha Fa) as (A & Ra). destruct (IHb Lb Hb Fb) as (B & Rb).
      assert (M : rnd (b2r (eval (F32 L) rho a) * b2r (eval (F32 L) rho b)) <= rnd (b2r (eval (F32 L) rho' a) * b2r (eval (F32 L) rho' b))) by (apply rnd_mono; apply Rmult_le_compat; lra).
      assert (P : 0 <= rnd (b2r (eval (F32 L) rho a) * b2r (eval (F32 L) rho b))) by (rewrite <- rnd_0; apply rnd_mono; apply Rmult_le_pos; lra).
      destruct (mult_ok _ _ A B) as [G1 G2].
      + rewrite Rabs_pos_eq by exact P. eapply Rle_lt_trans; [exact M|]. rewrite <- E. apply b2r_lt_big.
      + split; [exact G1|].
        change (0 <= b2r (Bmult mode_NE (eval (F32 L) rho a) (eval (F32 L) rho b)) <= b2r (Bmult mode_NE (eval (F32 L) rho' a) (eval (F32 L) rho' b))).
        change (b2r (Bmult mode_NE (eval (F32 L) rho a) (eval (F32 L) rho b)) = rnd (b2r (eval (F32 L) rho a) * b2r (eval (F32 L) rho b))) in G2. rewrite G2, E. split; [exact P|exact M].
  Qed.
End POS.
Lemma fin_env (l : list f32) : all_finite l -> forall n, finite (env (B754_zero false : f32) l n).
Proof. intros H. induction H as [|x l Hx H IH]; intros [|n]; [reflexivity|reflexivity|exact Hx|apply (IH n)]. Qed.
Lemma grown_env l l' : grown l l' -> forall n, 0 <= b2r (env (B754_zero false : f32) l n) <= b2r (env (B754_zero false : f32) l' n).
Proof. intros H. induction H as [|x y l l' Hx H IH]; intros [|n]; [cbn; lra|cbn; lra|exact Hx|apply (IH n)]. Qed.
Lemma exprs_increase L l l' es : forallb (fun e => lits_ok e && positive_expr e) es = true ->
  increases l l' (map (eval (F32 L) (env (B754_zero false) l)) es) (map (eval (F32 L) (env (B754_zero false) l')) es).
Proof.
  intros S Fl G F. induction es as [|e es IH]; [split; [apply Forall_nil|apply Forall2_nil]|]. cbn [map forallb] in *.
  apply andb_prop in S as [S1 S2]. apply Forall_cons_iff in F as [F1 F2]. destruct (IH S2 F2) as [A B]. apply andb_prop in S1 as [Sl Sp].
  destruct (positive_monotone L _ _ (fin_env l Fl) (grown_env l l' G) e Sl Sp F1) as [C D]. split; [now apply Forall_cons|now apply Forall2_cons].
Qed.

(** ** Nonnegative extended values *)
Definition nonneg (x : f32) : Prop := is_nan x = false /\ 0 <= xr x.
Lemma rnd_big_fmt : fmt big. Proof. apply fmt_bpow. lia. Qed.
Lemma rnd_pos r : 0 <= r -> 0 <= rnd r. Proof. intros H. rewrite <- rnd_0. now apply rnd_mono. Qed.
Lemma clip_pos r : 0 <= r -> 0 <= clip r. Proof. intros H. apply clip_ge; [apply fmt_0|exact H|rewrite Rabs_R0; apply big_pos]. Qed.
Lemma nn_inf (x : f32) : nonneg x -> finite x \/ x = B754_infinity false.
Proof. intros [A B]. destruct x as [s|s| |s m e H]; try (left; reflexivity); [|discriminate A]. destruct s; [|now right]. exfalso. cbn in B. pose proof big_pos. lra. Qed.
Lemma nn_add (x y : f32) : nonneg x -> nonneg y -> nonneg (Bplus mode_NE x y) /\ xr (Bplus mode_NE x y) = clip (rnd (xr x + xr y)).
Proof.
  intros Hx Hy. destruct (nn_inf x Hx) as [Fx|Ex]; destruct (nn_inf y Hy) as [Fy|Ey].
  - destruct (plus_xr x y Fx Fy) as [B A]. rewrite (xr_finite x Fx), (xr_finite y Fy). split; [|exact B]. split; [exact A|]. rewrite B. apply clip_pos, rnd_pos.
    destruct Hx as [_ Hx], Hy as [_ Hy]. rewrite (xr_finite x Fx) in Hx. rewrite (xr_finite y Fy) in Hy. lra.
  - subst y. assert (E : Bplus mode_NE x (B754_infinity false) = B754_infinity false) by (destruct x as [[]|[]| |[] m e H]; try discriminate Fx; reflexivity). rewrite E.
    split; [exact Hy|]. cbn [xr]. symmetry. apply clip_hi. apply rnd_ge_fmt; [apply rnd_big_fmt|]. destruct Hx as [_ Hx]. lra.
  - subst x. assert (E : Bplus mode_NE (B754_infinity false) y = B754_infinity false) by (destruct y as [[]|[]| |[] m e H]; try discriminate Fy; reflexivity). rewrite E.
    split; [exact Hx|]. cbn [xr]. symmetry. apply clip_hi. apply rnd_ge_fmt; [apply rnd_big_fmt|]. destruct Hy as [_ Hy]. lra.
  - subst x y. change (Bplus mode_NE (B754_infinity false) (B754_infinity false)) with (B754_infinity false : f32). split; [exact Hx|]. cbn [xr]. symmetry. apply clip_hi. apply rnd_ge_fmt; [apply rnd_big_fmt|]. pose proof big_pos. lra.
Qed.
Lemma big_sq : big <= big * big. Proof. assert (1 <= big) by (change 1 with (bpow radix2 0); apply bpow_le; lia). nra. Qed.
Lemma nn_sq (x : f32) : is_nan x = false -> nonneg (Bmult mode_NE x x) /\ xr (Bmult mode_NE x x) = clip (rnd (Rabs (xr x) * Rabs (xr x))).
Proof.
  intros N. assert (Q : Rabs (xr x) * Rabs (xr x) = xr x * xr x) by (rewrite <- Rabs_mult, Rabs_pos_eq by nra; reflexivity). rewrite Q.
  destruct (fin_cases x) as [[F|[s ->]]|K]; [| |congruence].
  - destruct (mult_xr x x F F) as [B A]. rewrite (xr_finite x F). split; [|exact B]. split; [exact A|]. rewrite B. apply clip_pos, rnd_pos. nra.
  - assert (E : Bmult mode_NE (B754_infinity s) (B754_infinity s) = (B754_infinity false : f32)) by (destruct s; reflexivity). rewrite E. pose proof big_pos.
    split; [split; [reflexivity|cbn; lra]|]. cbn [xr]. symmetry. apply clip_hi. apply rnd_ge_fmt; [apply rnd_big_fmt|]. pose proof big_sq. destruct s; lra.
Qed.
Lemma nn_sqrt (x y : f32) : nonneg x -> nonneg y -> xr x <= xr y -> ieee_le (Bsqrt mode_NE x) (Bsqrt mode_NE y).
Proof.
  intros Hx Hy H. assert (P : forall z : f32, nonneg z -> finite z -> is_nan (Bsqrt mode_NE z) = false /\ xr (Bsqrt mode_NE z) = rnd (sqrt (xr z))).
  { intros z [Nz Pz] Fz. rewrite (xr_finite z Fz) in Pz |- *. destruct (finite_sqrt z Fz Pz) as [F _]. split; [now apply finite_nn|]. rewrite (xr_finite _ F). apply b2r_sqrt. }
  destruct (nn_inf x Hx) as [Fx|Ex]; destruct (nn_inf y Hy) as [Fy|Ey].
  - destruct (P x Hx Fx) as [A B]. destruct (P y Hy Fy) as [C D]. split; [exact A|]. split; [exact C|]. rewrite B, D. apply rnd_mono. now apply sqrt_le_1_alt.
  - subst y. destruct (P x Hx Fx) as [A B]. split; [exact A|]. split; [reflexivity|]. apply xr_bounds.
  - subst x. exfalso. cbn [xr] in H. rewrite (xr_finite y Fy) in H. pose proof (b2r_lt_big y). lra.
  - subst x y. split; [reflexivity|]. split; [reflexivity|]. lra.
Qed.

(** ** The square root of a rounded square *)
Lemma flx_half_ulp r e : r <> 0 -> (mag radix2 r <= e)%Z -> Rabs (flx r - r) <= / 2 * bpow radix2 (e - 24).
Proof.
  intros N H. eapply Rle_trans; [apply error_le_half_ulp; apply FLX_exp_valid; reflexivity|]. rewrite ulp_neq_0 by exact N. apply Rmult_le_compat_l; [lra|].
  apply bpow_le. unfold cexp, FLX_exp. lia.
Qed.
Lemma mag_le r e : r <> 0 -> Rabs r < bpow radix2 e -> (mag radix2 r <= e)%Z.
Proof. intros N H. now apply mag_le_bpow. Qed.
Lemma sqrt_sq_unit z : 1 <= z < 2 -> generic_format radix2 (FLX_exp 24) z -> flx (sqrt (flx (z * z))) = z.
Proof.
  intros [H1 H2] F.
  assert (M : (mag radix2 z : Z) = 1%Z) by (apply mag_unique; rewrite Rabs_pos_eq by lra; cbn; lra).
  assert (Z1 : exists m : Z, z = IZR m * bpow radix2 (-23)).
  { exists (Ztrunc (scaled_mantissa radix2 (FLX_exp 24) z)). rewrite F at 1. unfold F2R. cbn [Fnum Fexp]. f_equal. unfold cexp, FLX_exp. now rewrite M. }
  destruct Z1 as [m Em].
  assert (Z2 : z <= 2 - bpow radix2 (-23)).
  { assert (IZR m <= 2 ^ 24 - 1).
    { rewrite (pow_IZR 2 24), <- minus_IZR. apply IZR_le. assert (IZR m < IZR (2 ^ 24)); [|apply lt_IZR in H; cbn in *; lia].
      change (IZR (2 ^ 24)) with (bpow radix2 24). replace (IZR m) with (z * bpow radix2 23).
      - apply Rlt_le_trans with (2 * bpow radix2 23); [apply Rmult_lt_compat_r; [apply bpow_gt_0|lra]|]. cbn. lra.
      - rewrite Em, Rmult_assoc, <- bpow_plus. cbn. ring. }
    rewrite Em. cbn. cbn in H. lra. }
  set (y := flx (z * z)).
  assert (Y1 : 1 <= y).
  { apply (round_ge_generic radix2 (FLX_exp 24) ZnearestE); [|nra]. change 1 with (bpow radix2 0). apply generic_format_bpow. unfold FLX_exp. lia. }
  assert (K : Rabs (sqrt y - z) < bpow radix2 (-24) /\ sqrt y < 2).
  { assert (C : sqrt y - z = (y - z * z) / (sqrt y + z)).
    { assert (0 <= sqrt y) by apply sqrt_pos. field_simplify_eq; [|lra]. change (sqrt y ^ 2) with (sqrt y * (sqrt y * 1)). rewrite Rmult_1_r, sqrt_sqrt by lra. ring. }
    assert (S1 : 1 <= sqrt y) by (rewrite <- sqrt_1; apply sqrt_le_1_alt; exact Y1).
    assert (Q : Rabs (sqrt y - z) < bpow radix2 (-24)).
    { rewrite C. unfold Rdiv. rewrite Rabs_mult, (Rabs_pos_eq (/ _)) by (left; apply Rinv_0_lt_compat; lra).
      apply Rmult_lt_reg_r with (sqrt y + z); [lra|]. rewrite Rmult_assoc, Rinv_l, Rmult_1_r by lra.
      destruct (Rlt_or_le (z * z) 2) as [S|S].
      - apply Rle_lt_trans with (/ 2 * bpow radix2 (1 - 24)); [apply flx_half_ulp; [nra|apply mag_le; [nra|rewrite Rabs_pos_eq by nra; cbn; lra]]|]. cbn. lra.
      - assert (S2 : 14 / 10 <= z) by nra.
        apply Rle_lt_trans with (/ 2 * bpow radix2 (2 - 24)); [apply flx_half_ulp; [nra|apply mag_le; [nra|rewrite Rabs_pos_eq by nra; cbn; nra]]|].
        cbn. lra. }
    split; [exact Q|]. cbn in Q, Z2. unfold Rabs in Q. destruct Rcase_abs; lra. }
  destruct K as [K1 K2].
  assert (S1 : 1 <= sqrt y) by (rewrite <- sqrt_1; apply sqrt_le_1_alt; exact Y1).
  assert (Mw : (mag radix2 (sqrt y) : Z) = 1%Z) by (apply mag_unique; rewrite Rabs_pos_eq by lra; cbn; lra).
  unfold round, F2R. cbn [Fnum Fexp]. unfold scaled_mantissa, cexp, FLX_exp. rewrite Mw. change (1 - 24)%Z with (-23)%Z. change (- (-23))%Z with 23%Z.
  rewrite (Znearest_imp _ _ m); [symmetry; exact Em|].
  replace (sqrt y * bpow radix2 23 - IZR m) with ((sqrt y - z) * bpow radix2 23).
  - rewrite Rabs_mult, (Rabs_pos_eq (bpow _ _)) by apply bpow_ge_0. apply Rlt_le_trans with (bpow radix2 (-24) * bpow radix2 23).
    + apply Rmult_lt_compat_r; [apply bpow_gt_0|exact K1].
    + rewrite <- bpow_plus. cbn. lra.
  - rewrite Em. rewrite Rmult_minus_distr_r, Rmult_assoc, <- bpow_plus. cbn. ring.
Qed.
Lemma sqrt_sq_flx x : 0 < x -> generic_format radix2 (FLX_exp 24) x -> flx (sqrt (flx (x * x))) = x.
Proof.
  intros P F. destruct (mag radix2 x) as [e He]. specialize (He (Rgt_not_eq _ _ P)). rewrite Rabs_pos_eq in He by lra.
  set (z := x * bpow radix2 (- (e - 1))).
  assert (Ex : x = z * bpow radix2 (e - 1)). { unfold z. rewrite Rmult_assoc, <- bpow_plus. replace (- (e - 1) + (e - 1))%Z with 0%Z by lia. cbn. ring. }
  assert (Hz : 1 <= z < 2).
  { pose proof (bpow_gt_0 radix2 (e - 1)) as B. destruct He as [H1 H2]. replace e with (e - 1 + 1)%Z in H2 by lia. rewrite bpow_plus in H2. change (bpow radix2 1) with 2 in H2. rewrite Ex in H1, H2. split.
    - apply Rmult_le_reg_r with (bpow radix2 (e - 1)); [exact B|]. rewrite Rmult_1_l. exact H1.
    - apply Rmult_lt_reg_r with (bpow radix2 (e - 1)); [exact B|]. lra. }
  assert (Fz : generic_format radix2 (FLX_exp 24) z). { replace z with (flx z); [apply generic_format_round; [apply FLX_exp_valid; reflexivity|apply valid_rnd_N]|]. unfold z. rewrite flx_scale. f_equal. apply round_generic; [apply valid_rnd_N|exact F]. }
  replace (x * x) with (z * z * bpow radix2 (2 * (e - 1))).
  - rewrite flx_scale, sqrt_bpow2, flx_scale, (sqrt_sq_unit z Hz Fz). symmetry. exact Ex.
  - rewrite Ex. replace (2 * (e - 1))%Z with ((e - 1) + (e - 1))%Z by lia. rewrite bpow_plus. ring.
Qed.
(** radix 2: the rounded square root of the rounded square is the number itself *)
Lemma sqrt_sq x : 0 <= x -> fmt x -> x = 0 \/ bpow radix2 (-63) <= x -> rnd (sqrt (rnd (x * x))) = x.
Proof.
  intros P F [->|H]; [rewrite Rmult_0_l, rnd_0, sqrt_0, rnd_0; reflexivity|]. pose proof (bpow_gt_0 radix2 (-63)) as B.
  assert (N : bpow radix2 (-126) <= x * x) by (change (-126)%Z with (-63 + -63)%Z; rewrite bpow_plus; nra).
  rewrite (rnd_flx_normal (x * x)) by (rewrite Rabs_pos_eq by nra; exact N).
  assert (Q : bpow radix2 (-126) <= flx (x * x)).
  { apply (round_ge_generic radix2 (FLX_exp 24) ZnearestE); [|exact N]. apply generic_format_bpow. unfold FLX_exp. lia. }
  rewrite rnd_flx_normal.
  - apply sqrt_sq_flx; [lra|]. apply (generic_format_FLX_FLT radix2 (-149) 24). exact F.
  - rewrite Rabs_pos_eq by apply sqrt_pos. apply Rle_trans with (bpow radix2 (-63)); [apply bpow_le; lia|].
    rewrite <- (sqrt_Rsqr (bpow radix2 (-63))) by apply bpow_ge_0. apply sqrt_le_1_alt. unfold Rsqr. rewrite <- bpow_plus. exact Q.
Qed.
(** a component is at most the rounded square root of a sum that includes its rounded square *)
Lemma below_sqrt x d : fmt x -> bpow radix2 (-126) <= d -> rnd (x * x) <= d -> Rabs x <= rnd (sqrt d).
Proof.
  intros F N H. assert (FA : fmt (Rabs x)) by (unfold fmt; apply generic_format_abs; exact F).
  assert (S : bpow radix2 (-63) <= sqrt d) by (rewrite <- (sqrt_Rsqr (bpow radix2 (-63))) by apply bpow_ge_0; apply sqrt_le_1_alt; unfold Rsqr; rewrite <- bpow_plus; exact N).
  destruct (Rle_or_lt (bpow radix2 (-63)) (Rabs x)) as [A|A].
  - rewrite <- (sqrt_sq (Rabs x) (Rabs_pos x) FA (or_intror A)). apply rnd_mono. apply sqrt_le_1_alt.
    rewrite <- Rabs_mult, Rabs_pos_eq by nra. exact H.
  - apply Rle_trans with (bpow radix2 (-63)); [lra|]. apply rnd_ge_fmt; [apply fmt_bpow; lia|exact S].
Qed.
(** 1 + 2^-24 rounds to 1 *)
Lemma rnd_tie : rnd (1 + bpow radix2 (-24)) = 1.
Proof.
  set (h := Bldexp mode_NE (f32_lit 1 0) (-24) : f32).
  assert (Eh : b2r h = bpow radix2 (-24)) by (unfold h, f32_lit; vm_compute; lra).
  assert (F : finite h) by reflexivity.
  assert (E : Bplus mode_NE (f32_lit 1 0) h = f32_lit 1 0) by (apply f32_by_sf; vm_compute; reflexivity).
  pose proof (plus_inv (f32_lit 1 0) h) as P. rewrite E in P. destruct (P fin_lit1) as (_ & _ & Q). rewrite b2r_lit1, Eh in Q. symmetry. exact Q.
Qed.
(** times the rounded reciprocal of something at least as large: at most 1 *)
Lemma times_rcp x l : Rabs x <= l -> bpow radix2 (-75) <= l <= bpow radix2 64 -> Rabs (rnd (x * rnd (/ l))) <= 1.
Proof.
  intros H [A B]. pose proof (bpow_gt_0 radix2 (-75)) as P.
  assert (V : bpow radix2 (-64) <= / l) by (replace (bpow radix2 (-64)) with (/ bpow radix2 64) by (rewrite <- bpow_opp; reflexivity); apply Rinv_le_contravar; lra).
  assert (I : 0 < / l) by (apply Rinv_0_lt_compat; lra).
  destruct (rnd_rel (/ l)) as [eps [He Er]]; [rewrite Rabs_pos_eq by lra; eapply Rle_trans; [|exact V]; apply bpow_le; lia|].
  assert (U : u32 = bpow radix2 (-24)) by reflexivity. rewrite U in He.
  assert (W : Rabs (x * rnd (/ l)) <= 1 + bpow radix2 (-24)).
  { rewrite Rabs_mult, Er, Rabs_mult, (Rabs_pos_eq (/ l)) by lra. rewrite <- Rmult_assoc.
    assert (Rabs x * / l <= 1) by (apply Rmult_le_reg_r with l; [lra|]; rewrite Rmult_assoc, Rinv_l by lra; lra).
    assert (0 <= Rabs x * / l) by (apply Rmult_le_pos; [apply Rabs_pos|lra]).
    assert (Rabs (1 + eps) <= 1 + bpow radix2 (-24)) by (eapply Rle_trans; [apply Rabs_triang|]; rewrite Rabs_R1; lra).
    assert (0 <= Rabs (1 + eps)) by apply Rabs_pos. assert (0 < bpow radix2 (-24)) by apply bpow_gt_0. nra. }
  assert (W' : - (1 + bpow radix2 (-24)) <= x * rnd (/ l) <= 1 + bpow radix2 (-24)) by (unfold Rabs in W; destruct Rcase_abs in W; lra).
  apply Rabs_le. split.
  - apply Rle_trans with (rnd (- (1 + bpow radix2 (-24)))); [rewrite rnd_opp, rnd_tie; lra|apply rnd_mono; lra].
  - apply Rle_trans with (rnd (1 + bpow radix2 (-24))); [apply rnd_mono; lra|rewrite rnd_tie; lra].
Qed.
