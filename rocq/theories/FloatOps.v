(** * Binary32 operations as rounded real operations *)
From Coq Require Import ZArith Bool Reals List Lra Lia SpecFloat.
From Flocq Require Import Core IEEE754.BinarySingleNaN.
From Flocq Require Import Relative Sterbenz Plus_error.
From Verif Require Import Scalar IEEE32 FloatBasics SpecF32.
Local Open Scope R_scope.

Notation fx := (SpecFloat.fexp 24 128).
Notation fmt := (generic_format radix2 (SpecFloat.fexp 24 128)).

Global Instance fx_valid : Valid_exp fx.
Proof. change (Valid_exp (FLT_exp (-149) 24)). apply FLT_exp_valid. reflexivity. Qed.
Global Instance fx_mono : Monotone_exp fx.
Proof. change (Monotone_exp (FLT_exp (-149) 24)). apply FLT_exp_monotone. Qed.

Lemma rnd_mono a b : a <= b -> rnd a <= rnd b.
Proof. apply round_le; auto with typeclass_instances. Qed.
Lemma rnd_id a : fmt a -> rnd a = a.
Proof. apply round_generic; auto with typeclass_instances. Qed.
Lemma rnd_fmt a : fmt (rnd a).
Proof. apply generic_format_round; auto with typeclass_instances. Qed.
Lemma rnd_0 : rnd 0 = 0.
Proof. apply round_0; auto with typeclass_instances. Qed.
Lemma rnd_opp a : rnd (- a) = - rnd a.
Proof. unfold rnd. rewrite round_NE_opp. reflexivity. Qed.
Lemma rnd_b2r (x : f32) : rnd (b2r x) = b2r x.
Proof. apply rnd_id, generic_format_B2R. Qed.
Lemma fmt_b2r (x : f32) : fmt (b2r x).
Proof. apply generic_format_B2R. Qed.
Lemma rnd_le_fmt a b : fmt b -> a <= b -> rnd a <= b.
Proof. intros F H. rewrite <- (rnd_id b F). now apply rnd_mono. Qed.
Lemma rnd_ge_fmt a b : fmt b -> b <= a -> b <= rnd a.
Proof. intros F H. rewrite <- (rnd_id b F). now apply rnd_mono. Qed.
Lemma rnd_abs_le a b : fmt b -> Rabs a <= b -> Rabs (rnd a) <= b.
Proof.
  intros F H. apply Rabs_le_inv in H. apply Rabs_le. split.
  - apply rnd_ge_fmt; [now apply generic_format_opp|lra].
  - apply rnd_le_fmt; [assumption|lra].
Qed.
Lemma fmt_bpow e : (-149 <= e)%Z -> fmt (bpow radix2 e).
Proof. intros H. apply generic_format_bpow. unfold fexp, emin. lia. Qed.
Lemma fmt_Z n : (Z.abs n <= 2 ^ 24)%Z -> fmt (IZR n).
Proof.
  intros H. change fmt with (generic_format radix2 (FLT_exp (-149) 24)).
  destruct (Z.eq_dec (Z.abs n) (2 ^ 24)) as [E|E].
  - assert (C : IZR n = bpow radix2 24 \/ IZR n = - bpow radix2 24).
    { change (bpow radix2 24) with (IZR (2 ^ 24)). rewrite <- opp_IZR. destruct (Z.abs_spec n); [left|right]; f_equal; lia. }
    destruct C as [-> | ->]; [|apply generic_format_opp]; apply (fmt_bpow 24); lia.
  - apply generic_format_FLT. exists (Float radix2 n 0).
    + unfold F2R; cbn. ring.
    + cbn. lia.
    + cbn. lia.
Qed.
Lemma fmt_1 : fmt 1. Proof. apply (fmt_Z 1). cbn; lia. Qed.
Lemma fmt_0 : fmt 0. Proof. apply generic_format_0. Qed.

(** ** Results of finite operations *)
Definition clip (r : R) : R := Rmax (- big) (Rmin big r).

Lemma clip_in r : Rabs r < big -> clip r = r.
Proof. intros H. apply Rabs_def2 in H. unfold clip. rewrite Rmin_right, Rmax_right; lra. Qed.
Lemma clip_mono a b : a <= b -> clip a <= clip b.
Proof. intros H. unfold clip. apply Rle_max_compat_l. now apply Rle_min_compat_l. Qed.
Lemma clip_hi r : big <= r -> clip r = big.
Proof. pose proof big_pos. intros. unfold clip. rewrite Rmin_left, Rmax_right; lra. Qed.
Lemma clip_lo r : r <= - big -> clip r = - big.
Proof. pose proof big_pos. intros. unfold clip. rewrite Rmin_right, Rmax_left; lra. Qed.
Lemma clip_ge a r : fmt a -> a <= r -> Rabs a < big -> a <= clip r.
Proof. intros _ H Ha. rewrite <- (clip_in a Ha). now apply clip_mono. Qed.
Lemma clip_le a r : r <= a -> Rabs a < big -> clip r <= a.
Proof. intros H Ha. rewrite <- (clip_in a Ha). now apply clip_mono. Qed.

Lemma not_lt_big r : Rlt_bool (Rabs r) big = false -> r <= - big \/ big <= r.
Proof.
  intros H. destruct (Rlt_bool_spec (Rabs r) big); [discriminate|].
  unfold Rabs in *. destruct (Rcase_abs r); lra.
Qed.

Lemma sf_inf (x : f32) s : B2SF x = S754_infinity s -> x = B754_infinity s.
Proof. destruct x; cbn; intros H; try discriminate H. congruence. Qed.

Lemma Bsign_b2r (x : f32) : is_finite x = true -> (b2r x < 0 -> Bsign x = true) /\ (0 < b2r x -> Bsign x = false).
Proof.
  destruct x as [s| | |[] m e He]; cbn; intros H; try discriminate H; split; intros H1; try lra; try reflexivity.
  - pose proof (F2R_lt_0 radix2 (Float radix2 (Zneg m) e) eq_refl). lra.
  - pose proof (F2R_gt_0 radix2 (Float radix2 (Zpos m) e) eq_refl). lra.
Qed.

Lemma plus_xr (x y : f32) : finite x -> finite y ->
  xr (Bplus mode_NE x y) = clip (rnd (b2r x + b2r y)) /\ is_nan (Bplus mode_NE x y) = false.
Proof.
  intros Fx Fy. pose proof (Bplus_correct 24 128 _ _ mode_NE x y Fx Fy) as H.
  change (round radix2 fx (round_mode mode_NE)) with rnd in H.
  destruct (Rlt_bool (Rabs (rnd (b2r x + b2r y))) big) eqn:E.
  - destruct H as [H1 [H2 _]]. rewrite xr_finite, H1 by assumption. split.
    + rewrite clip_in; [reflexivity|]. now destruct (Rlt_bool_spec (Rabs (rnd (b2r x + b2r y))) big).
    + now destruct (Bplus mode_NE x y).
  - destruct H as [H1 H2]. cbn in H1. apply sf_inf in H1. rewrite H1. split; [|reflexivity]. cbn [xr].
    apply not_lt_big in E. pose proof big_pos as Hb.
    destruct (Bsign_b2r x Fx) as [Sx1 Sx2]. destruct (Bsign_b2r y Fy) as [Sy1 Sy2].
    destruct (Bsign x) eqn:S.
    + rewrite clip_lo; [reflexivity|]. destruct E as [E|E]; [assumption|exfalso].
      assert (b2r x <= 0) by (destruct (Rle_or_lt (b2r x) 0); [assumption|discriminate (Sx2 H)]).
      assert (b2r y <= 0) by (destruct (Rle_or_lt (b2r y) 0); [assumption|rewrite Sy2 in H2 by assumption; discriminate H2]).
      assert (rnd (b2r x + b2r y) <= 0) by (rewrite <- rnd_0; apply rnd_mono; lra). lra.
    + rewrite clip_hi; [reflexivity|]. destruct E as [E|E]; [exfalso|assumption].
      assert (0 <= b2r x) by (destruct (Rle_or_lt 0 (b2r x)); [assumption|discriminate (Sx1 H)]).
      assert (0 <= b2r y) by (destruct (Rle_or_lt 0 (b2r y)); [assumption|rewrite Sy1 in H2 by assumption; discriminate H2]).
      assert (0 <= rnd (b2r x + b2r y)) by (rewrite <- rnd_0; apply rnd_mono; lra). lra.
Qed.

Lemma Bopp_b2r (x : f32) : b2r (Bopp x) = - b2r x.
Proof. apply B2R_Bopp. Qed.
Lemma finite_opp (x : f32) : finite x -> finite (Bopp x).
Proof. unfold finite. now rewrite is_finite_Bopp. Qed.

Lemma minus_plus (x y : f32) : Bminus mode_NE x y = Bplus mode_NE x (Bopp y).
Proof. destruct x, y; try reflexivity. Qed.

Lemma minus_xr (x y : f32) : finite x -> finite y ->
  xr (Bminus mode_NE x y) = clip (rnd (b2r x - b2r y)) /\ is_nan (Bminus mode_NE x y) = false.
Proof.
  intros Fx Fy. rewrite minus_plus. unfold Rminus. rewrite <- Bopp_b2r.
  apply plus_xr; [assumption|now apply finite_opp].
Qed.

Lemma mult_xr (x y : f32) : finite x -> finite y ->
  xr (Bmult mode_NE x y) = clip (rnd (b2r x * b2r y)) /\ is_nan (Bmult mode_NE x y) = false.
Proof.
  intros Fx Fy. pose proof (Bmult_correct 24 128 _ _ mode_NE x y) as H.
  change (round radix2 fx (round_mode mode_NE)) with rnd in H.
  destruct (Rlt_bool (Rabs (rnd (b2r x * b2r y))) big) eqn:E.
  - destruct H as [H1 [H2 _]]. unfold finite in *. rewrite Fx, Fy in H2. rewrite xr_finite, H1 by assumption. split.
    + rewrite clip_in; [reflexivity|]. now destruct (Rlt_bool_spec (Rabs (rnd (b2r x * b2r y))) big).
    + now destruct (Bmult mode_NE x y).
  - cbn in H. apply sf_inf in H. rewrite H. split; [|reflexivity]. cbn [xr].
    apply not_lt_big in E. pose proof big_pos as Hb.
    destruct (Bsign_b2r x Fx) as [Sx1 Sx2]. destruct (Bsign_b2r y Fy) as [Sy1 Sy2].
    assert (Px : if Bsign x then b2r x <= 0 else 0 <= b2r x).
    { destruct (Bsign x); [destruct (Rle_or_lt (b2r x) 0)|destruct (Rle_or_lt 0 (b2r x))]; trivial;
        [discriminate (Sx2 H0)|discriminate (Sx1 H0)]. }
    assert (Py : if Bsign y then b2r y <= 0 else 0 <= b2r y).
    { destruct (Bsign y); [destruct (Rle_or_lt (b2r y) 0)|destruct (Rle_or_lt 0 (b2r y))]; trivial;
        [discriminate (Sy2 H0)|discriminate (Sy1 H0)]. }
    destruct (Bsign x), (Bsign y); cbn [xorb].
    1,4: rewrite clip_hi; [reflexivity|]; destruct E as [E|E]; [exfalso|assumption];
      assert (0 <= rnd (b2r x * b2r y)) by (rewrite <- rnd_0; apply rnd_mono; nra); lra.
    1,2: rewrite clip_lo; [reflexivity|]; destruct E as [E|E]; [assumption|exfalso];
      assert (rnd (b2r x * b2r y) <= 0) by (rewrite <- rnd_0; apply rnd_mono; nra); lra.
Qed.

Lemma div_xr (x y : f32) : finite x -> finite y -> b2r y <> 0 ->
  xr (Bdiv mode_NE x y) = clip (rnd (b2r x / b2r y)) /\ is_nan (Bdiv mode_NE x y) = false.
Proof.
  intros Fx Fy Hy. pose proof (Bdiv_correct 24 128 _ _ mode_NE x y Hy) as H.
  change (round radix2 fx (round_mode mode_NE)) with rnd in H.
  destruct (Rlt_bool (Rabs (rnd (b2r x / b2r y))) big) eqn:E.
  - destruct H as [H1 [H2 _]]. unfold finite in *. rewrite Fx in H2. rewrite xr_finite, H1 by assumption. split.
    + rewrite clip_in; [reflexivity|]. now destruct (Rlt_bool_spec (Rabs (rnd (b2r x / b2r y))) big).
    + now destruct (Bdiv mode_NE x y).
  - cbn in H. apply sf_inf in H. rewrite H. split; [|reflexivity]. cbn [xr].
    apply not_lt_big in E. pose proof big_pos as Hb.
    destruct (Bsign_b2r x Fx) as [Sx1 Sx2]. destruct (Bsign_b2r y Fy) as [Sy1 Sy2].
    assert (Px : if Bsign x then b2r x <= 0 else 0 <= b2r x).
    { destruct (Bsign x); [destruct (Rle_or_lt (b2r x) 0)|destruct (Rle_or_lt 0 (b2r x))]; trivial;
        [discriminate (Sx2 H0)|discriminate (Sx1 H0)]. }
    assert (Py : if Bsign y then / b2r y < 0 else 0 < / b2r y).
    { destruct (Bsign y).
      - apply Rinv_lt_0_compat. destruct (Rle_or_lt (b2r y) 0) as [H0|H0]; [lra|discriminate (Sy2 H0)].
      - apply Rinv_0_lt_compat. destruct (Rle_or_lt 0 (b2r y)) as [H0|H0]; [lra|discriminate (Sy1 H0)]. }
    unfold Rdiv in *.
    destruct (Bsign x), (Bsign y); cbn [xorb].
    1,4: rewrite clip_hi; [reflexivity|]; destruct E as [E|E]; [exfalso|assumption];
      assert (0 <= rnd (b2r x * / b2r y)) by (rewrite <- rnd_0; apply rnd_mono; nra); lra.
    1,2: rewrite clip_lo; [reflexivity|]; destruct E as [E|E]; [assumption|exfalso];
      assert (rnd (b2r x * / b2r y) <= 0) by (rewrite <- rnd_0; apply rnd_mono; nra); lra.
Qed.

(** When no overflow occurs. *)
Lemma finite_of_xr (x : f32) : is_nan x = false -> Rabs (xr x) < big -> finite x.
Proof.
  intros N H. pose proof big_pos. destruct x as [s|[]| |s m e He]; try reflexivity; cbn [xr] in H.
  - rewrite Rabs_left in H by lra. lra.
  - rewrite Rabs_right in H by lra. lra.
  - discriminate N.
Qed.

Lemma plus_ok (x y : f32) : finite x -> finite y -> Rabs (rnd (b2r x + b2r y)) < big ->
  finite (Bplus mode_NE x y) /\ b2r (Bplus mode_NE x y) = rnd (b2r x + b2r y).
Proof.
  intros Fx Fy H. destruct (plus_xr x y Fx Fy) as [E N]. rewrite clip_in in E by assumption.
  assert (F : finite (Bplus mode_NE x y)) by (apply finite_of_xr; [assumption|now rewrite E]).
  split; [assumption|]. now rewrite <- xr_finite.
Qed.
Lemma minus_ok (x y : f32) : finite x -> finite y -> Rabs (rnd (b2r x - b2r y)) < big ->
  finite (Bminus mode_NE x y) /\ b2r (Bminus mode_NE x y) = rnd (b2r x - b2r y).
Proof.
  intros Fx Fy H. destruct (minus_xr x y Fx Fy) as [E N]. rewrite clip_in in E by assumption.
  assert (F : finite (Bminus mode_NE x y)) by (apply finite_of_xr; [assumption|now rewrite E]).
  split; [assumption|]. now rewrite <- xr_finite.
Qed.
Lemma mult_ok (x y : f32) : finite x -> finite y -> Rabs (rnd (b2r x * b2r y)) < big ->
  finite (Bmult mode_NE x y) /\ b2r (Bmult mode_NE x y) = rnd (b2r x * b2r y).
Proof.
  intros Fx Fy H. destruct (mult_xr x y Fx Fy) as [E N]. rewrite clip_in in E by assumption.
  assert (F : finite (Bmult mode_NE x y)) by (apply finite_of_xr; [assumption|now rewrite E]).
  split; [assumption|]. now rewrite <- xr_finite.
Qed.
Lemma div_ok (x y : f32) : finite x -> finite y -> b2r y <> 0 -> Rabs (rnd (b2r x / b2r y)) < big ->
  finite (Bdiv mode_NE x y) /\ b2r (Bdiv mode_NE x y) = rnd (b2r x / b2r y).
Proof.
  intros Fx Fy Hy H. destruct (div_xr x y Fx Fy Hy) as [E N]. rewrite clip_in in E by assumption.
  assert (F : finite (Bdiv mode_NE x y)) by (apply finite_of_xr; [assumption|now rewrite E]).
  split; [assumption|]. now rewrite <- xr_finite.
Qed.

(** Conversely a finite result proves that the operands are finite and nothing
    overflowed. *)
Lemma plus_inv (x y : f32) : finite (Bplus mode_NE x y) ->
  finite x /\ finite y /\ b2r (Bplus mode_NE x y) = rnd (b2r x + b2r y).
Proof.
  intros F. assert (Fx : finite x) by (destruct x as [|[]| |], y as [|[]| |]; try discriminate F; reflexivity).
  assert (Fy : finite y) by (destruct x as [|[]| |], y as [|[]| |]; try discriminate F; reflexivity).
  split; [assumption|]. split; [assumption|].
  destruct (plus_xr x y Fx Fy) as [E N].
  rewrite xr_finite in E by exact F.
  assert (A : Rabs (clip (rnd (b2r x + b2r y))) < big) by (rewrite <- E; apply Rabs_def1; apply b2r_lt_big).
  rewrite E. destruct (Rlt_or_le (Rabs (rnd (b2r x + b2r y))) big) as [H|H]; [now apply clip_in|exfalso].
  pose proof big_pos. unfold Rabs in H at 1. destruct (Rcase_abs (rnd (b2r x + b2r y))).
  - rewrite clip_lo, Rabs_left in A; lra.
  - rewrite clip_hi, Rabs_right in A; lra.
Qed.
Lemma minus_inv (x y : f32) : finite (Bminus mode_NE x y) ->
  finite x /\ finite y /\ b2r (Bminus mode_NE x y) = rnd (b2r x - b2r y).
Proof.
  rewrite minus_plus. intros F. apply plus_inv in F as [Fx [Fy E]].
  rewrite Bopp_b2r in E. unfold finite in Fy. rewrite is_finite_Bopp in Fy. auto.
Qed.
Lemma mult_inv (x y : f32) : finite (Bmult mode_NE x y) ->
  finite x /\ finite y /\ b2r (Bmult mode_NE x y) = rnd (b2r x * b2r y).
Proof.
  intros F. assert (Fx : finite x) by (destruct x as [|[]| |], y as [|[]| |]; try discriminate F; reflexivity).
  assert (Fy : finite y) by (destruct x as [|[]| |], y as [|[]| |]; try discriminate F; reflexivity).
  split; [assumption|]. split; [assumption|].
  destruct (mult_xr x y Fx Fy) as [E N].
  rewrite xr_finite in E by exact F.
  assert (A : Rabs (clip (rnd (b2r x * b2r y))) < big) by (rewrite <- E; apply Rabs_def1; apply b2r_lt_big).
  rewrite E. destruct (Rlt_or_le (Rabs (rnd (b2r x * b2r y))) big) as [H|H]; [now apply clip_in|exfalso].
  pose proof big_pos. unfold Rabs in H at 1. destruct (Rcase_abs (rnd (b2r x * b2r y))).
  - rewrite clip_lo, Rabs_left in A; lra.
  - rewrite clip_hi, Rabs_right in A; lra.
Qed.

(** Two floats with the same value compare equal. *)
Lemma finite_eq (x y : f32) : finite x -> finite y -> b2r x = b2r y -> ieee_eq x y.
Proof.
  intros Fx Fy E. unfold ieee_eq. rewrite !xr_finite by assumption.
  destruct x, y; try discriminate; auto.
Qed.
Lemma finite_nn (x : f32) : finite x -> is_nan x = false.
Proof. now destruct x. Qed.

(** ** Literals *)
Lemma f32_lit_0 : f32_lit 0 0 = B754_zero false. Proof. reflexivity. Qed.
Lemma b2r_lit1 : b2r (f32_lit 1 0) = 1. Proof. unfold f32_lit; vm_compute; lra. Qed.
Lemma b2r_lit2 : b2r (f32_lit 2 0) = 2. Proof. unfold f32_lit; vm_compute; lra. Qed.
Lemma b2r_lit3 : b2r (f32_lit 3 0) = 3. Proof. unfold f32_lit; vm_compute; lra. Qed.
Lemma b2r_lit_half : b2r (f32_lit 5 (-1)) = / 2. Proof. unfold f32_lit; vm_compute; lra. Qed.
Lemma fin_lit1 : finite (f32_lit 1 0). Proof. reflexivity. Qed.
Lemma fin_lit2 : finite (f32_lit 2 0). Proof. reflexivity. Qed.
Lemma fin_lit3 : finite (f32_lit 3 0). Proof. reflexivity. Qed.
Lemma fin_lit_half : finite (f32_lit 5 (-1)). Proof. reflexivity. Qed.

(** ** Rounding error *)
Definition u32 : R := bpow radix2 (-24).
Definition eta32 : R := bpow radix2 (-150).

Lemma half_bpow e e' : (e - 1 = e')%Z -> / 2 * bpow radix2 e <= bpow radix2 e'.
Proof. intros <-. unfold Z.sub. rewrite bpow_plus, Rmult_comm. apply Rle_refl. Qed.

Lemma rnd_error x : exists eps eta, Rabs eps <= u32 /\ Rabs eta <= eta32 /\ eps * eta = 0 /\
  rnd x = x * (1 + eps) + eta.
Proof.
  destruct (error_N_FLT radix2 (-149) 24 eq_refl (fun t => negb (Z.even t)) x) as [eps [eta [H1 [H2 [H3 H4]]]]].
  exists eps, eta. split; [|split; [|split]]; trivial.
  - eapply Rle_trans; [exact H1|]. unfold u32. apply half_bpow; reflexivity.
  - eapply Rle_trans; [exact H2|]. unfold eta32. apply half_bpow; reflexivity.
Qed.

(** No underflow error in sums. *)
Lemma rnd_plus_error (x y : f32) : exists eps, Rabs eps <= u32 /\ rnd (b2r x + b2r y) = (b2r x + b2r y) * (1 + eps).
Proof.
  destruct (relative_error_N_FLX_ex radix2 24 eq_refl (fun t => negb (Z.even t)) (b2r x + b2r y)) as [eps [H1 H2]].
  destruct (Rlt_or_le (Rabs (b2r x + b2r y)) (bpow radix2 (-125))) as [Hs|Hl].
  - exists 0. split; [rewrite Rabs_R0; apply bpow_ge_0|]. rewrite Rplus_0_r, Rmult_1_r.
    apply rnd_id. apply (FLT_format_plus_small radix2 (-149) 24); try apply fmt_b2r.
    eapply Rlt_le. exact Hs.
  - exists eps. split.
    + eapply Rle_trans; [exact H1|]. unfold u32. apply half_bpow; reflexivity.
    + rewrite <- H2. unfold rnd. apply (round_FLT_FLX radix2 (-149) 24 (Znearest (fun t => negb (Z.even t)))).
      eapply Rle_trans; [|exact Hl]. apply bpow_le. lia.
Qed.
