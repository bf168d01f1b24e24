(** * Proofs: rounding functions, ramps and interpolation *)
From Coq Require Import ZArith Bool Reals List Lra Lia.
From Flocq Require Import Core IEEE754.BinarySingleNaN.
From Verif Require Import Scalar IEEE32 F32Tac RealInst FloatBasics Outcome Types Spec SpecF32 ModelVec ModelCommon.
Import ListNotations.
Local Open Scope R_scope.
(*HEADER END*)
From Flocq Require Import Sterbenz Plus_error Mult_error.
From Verif Require Import FloatOps PfOrder.

(** ** C18 *)
Lemma nearby_ok md (x : f32) : finite x ->
  finite (Bnearbyint md x) /\ b2r (Bnearbyint md x) = IZR (round_mode md (b2r x)).
Proof.
  intros F. destruct (Bnearbyint_correct 24 128 _ md x) as [H1 [H2 _]].
  split; [unfold finite; now rewrite H2|]. rewrite H1. apply round_FIX_IZR.
Qed.

Lemma Rabs_IZR_le_trunc x : Rabs (IZR (Ztrunc x)) <= Rabs x < Rabs (IZR (Ztrunc x)) + 1 /\ 0 <= IZR (Ztrunc x) * x.
Proof.
  destruct (Rle_or_lt 0 x) as [H|H].
  - rewrite Ztrunc_floor by assumption. assert (0 <= IZR (Zfloor x)) by (apply IZR_le, Zfloor_lub; assumption).
    rewrite !Rabs_pos_eq by assumption. pose proof (Zfloor_lb x). pose proof (Zfloor_ub x).
    split; [split; assumption|nra].
  - rewrite Ztrunc_ceil by lra. assert (IZR (Zceil x) <= 0) by (apply IZR_le, Zceil_glb; lra).
    rewrite !Rabs_left1 by lra. pose proof (Zceil_ub x). pose proof (Zceil_lb x).
    split; [split; lra|nra].
Qed.

(** C18: floor. *)
Lemma C18_floor_pf : forall (L : Libm) (x : f32), finite x ->
  exists n : Z, finite (floor_f (F32 L) x) /\ b2r (floor_f (F32 L) x) = IZR n /\ IZR n <= b2r x < IZR n + 1.
Proof.
  intros L x F. destruct (nearby_ok mode_DN x F) as [H1 H2]. exists (Zfloor (b2r x)).
  split; [exact H1|]. split; [exact H2|]. split; [apply Zfloor_lb|apply Zfloor_ub].
Qed.

(** C18: ceil. *)
Lemma C18_ceil_pf : forall (L : Libm) (x : f32), finite x ->
  exists n : Z, finite (ceil_f (F32 L) x) /\ b2r (ceil_f (F32 L) x) = IZR n /\ IZR n - 1 < b2r x <= IZR n.
Proof.
  intros L x F. destruct (nearby_ok mode_UP x F) as [H1 H2]. exists (Zceil (b2r x)).
  split; [exact H1|]. split; [exact H2|]. split; [pose proof (Zceil_lb (b2r x)); lra|apply Zceil_ub].
Qed.

(** C18: trunc. *)
Lemma C18_trunc_pf : forall (L : Libm) (x : f32), finite x ->
  exists n : Z, finite (trunc_f (F32 L) x) /\ b2r (trunc_f (F32 L) x) = IZR n /\
    Rabs (IZR n) <= Rabs (b2r x) < Rabs (IZR n) + 1 /\ 0 <= IZR n * b2r x.
Proof.
  intros L x F. destruct (nearby_ok mode_ZR x F) as [H1 H2]. exists (Ztrunc (b2r x)).
  split; [exact H1|]. split; [exact H2|]. apply Rabs_IZR_le_trunc.
Qed.

(** C18: round, ties away from zero. *)
Lemma C18_round_pf : forall (L : Libm) (x : f32), finite x ->
  exists n : Z, finite (round_f (F32 L) x) /\ b2r (round_f (F32 L) x) = IZR n /\
    Rabs (b2r x - IZR n) <= / 2 /\ (Rabs (b2r x - IZR n) = / 2 -> Rabs (b2r x) < Rabs (IZR n)).
Proof.
  intros L x F. destruct (nearby_ok mode_NA x F) as [H1 H2]. exists (ZnearestA (b2r x)).
  split; [exact H1|]. split; [exact H2|]. split; [apply Znearest_half|].
  generalize (b2r x). clear. intros x H.
  destruct (Req_dec (x - IZR (Zfloor x)) (/ 2)) as [E|E].
  - unfold Znearest in *. rewrite Rcompare_Eq in * by assumption.
    assert (x = IZR (Zfloor x) + / 2) as Ex by lra.
    destruct (Zle_bool 0 (Zfloor x)) eqn:Hf.
    + apply Zle_bool_imp_le, IZR_le in Hf. assert (Zceil x = Zfloor x + 1)%Z as -> by (apply Zceil_floor_neq; lra).
      rewrite plus_IZR, !Rabs_pos_eq; lra.
    + apply Z.leb_gt in Hf. assert (Zfloor x <= -1)%Z as Hf' by lia. apply IZR_le in Hf'. rewrite !Rabs_left; lra.
  - pose proof (Znearest_N_strict (Zle_bool 0) x E). lra.
Qed.

(** C18: infinities and NaN pass through all four. *)
Lemma C18_nonfinite_pf : forall (L : Libm) (x : f32), is_finite x = false ->
  floor_f (F32 L) x = x /\ ceil_f (F32 L) x = x /\ trunc_f (F32 L) x = x /\ round_f (F32 L) x = x.
Proof. intros L x F. destruct x; try discriminate F; repeat split. Qed.

(*PROPS
Example C18_ex : floor_f (F32 L0) (f32_lit (-15) (-1)) = f32_lit (-2) 0 /\ round_f (F32 L0) (f32_lit (-25) (-1)) = f32_lit (-3) 0
  /\ round_f (F32 L0) (f32_lit 5 (-1)) = f32_lit 1 0.
Proof. split; [|split]; f32_eq. Qed.

PROPS*)
(** ** C19 *)
Lemma one_lt_big : 1 < big.
Proof. change 1 with (bpow radix2 0). apply bpow_lt. reflexivity. Qed.

Lemma fract_val L (x : f32) : finite x ->
  finite (fract_f (F32 L) x) /\ b2r (fract_f (F32 L) x) = rnd (b2r x - IZR (Zfloor (b2r x))) /\
  0 <= b2r (fract_f (F32 L) x) <= 1.
Proof.
  intros F. destruct (nearby_ok mode_DN x F) as [H1 H2]. cbn [round_mode] in H2.
  pose proof (Zfloor_lb (b2r x)). pose proof (Zfloor_ub (b2r x)).
  assert (B : 0 <= rnd (b2r x - IZR (Zfloor (b2r x))) <= 1).
  { split; [apply rnd_ge_fmt; [apply fmt_0|lra]|apply rnd_le_fmt; [apply fmt_1|lra]]. }
  pose proof one_lt_big.
  destruct (minus_ok x (Bnearbyint mode_DN x) F H1) as [F3 E4].
  { rewrite H2, Rabs_pos_eq; lra. }
  rewrite H2 in E4. unfold fract_f, floor_f; cbn [ssub sfloor F32]. rewrite E4. auto.
Qed.

(** C19: fract is in [0,1] for every finite float. *)
Lemma C19_range_pf : forall (L : Libm) (x : f32), finite x ->
  finite (fract_f (F32 L) x) /\ 0 <= b2r (fract_f (F32 L) x) <= 1.
Proof. intros L x F. destruct (fract_val L x F). tauto. Qed.

Lemma fmt_floor (x : f32) : finite x -> fmt (IZR (Zfloor (b2r x))).
Proof. intros F. destruct (nearby_ok mode_DN x F) as [H1 H2]. cbn [round_mode] in H2. rewrite <- H2. apply fmt_b2r. Qed.

(** C19: it is exact, and below 1, for x >= 0 ... *)
Lemma C19_exact_nonneg_pf : forall (L : Libm) (x : f32), finite x -> 0 <= b2r x ->
  b2r (fract_f (F32 L) x) = b2r x - IZR (Zfloor (b2r x)) /\ b2r (fract_f (F32 L) x) < 1.
Proof.
  intros L x F Hx. destruct (fract_val L x F) as [_ [E _]].
  pose proof (Zfloor_lb (b2r x)). pose proof (Zfloor_ub (b2r x)).
  assert (b2r (fract_f (F32 L) x) = b2r x - IZR (Zfloor (b2r x))) as ->; [|split; lra].
  rewrite E. apply rnd_id.
  destruct (Rlt_or_le (b2r x) 1) as [H1|H1].
  - assert (Zfloor (b2r x) = 0)%Z as -> by (apply Zfloor_imp; cbn; lra). rewrite Rminus_0_r. apply fmt_b2r.
  - apply sterbenz; auto with typeclass_instances; [apply fmt_b2r|now apply fmt_floor|].
    assert (1 <= IZR (Zfloor (b2r x))) by (apply IZR_le, Zfloor_lub; cbn; lra). lra.
Qed.

(** ... and 0 exactly on the integers, for x of either sign. *)
Lemma C19_zero_pf : forall (L : Libm) (x : f32), finite x ->
  (b2r (fract_f (F32 L) x) = 0 <-> exists n : Z, b2r x = IZR n).
Proof.
  intros L x F. destruct (fract_val L x F) as [_ [-> _]]. split.
  - intros E. exists (Zfloor (b2r x)).
    destruct (Req_dec (b2r x - IZR (Zfloor (b2r x))) 0) as [H|H]; [lra|exfalso].
    revert E. unfold Rminus. apply (round_plus_neq_0 radix2 fx ZnearestE); trivial; [apply fmt_b2r|].
    apply generic_format_opp. now apply fmt_floor.
  - intros [n E]. rewrite E, Zfloor_IZR, Rminus_diag_eq by reflexivity. apply rnd_0.
Qed.

(** C19: in exact arithmetic fract is below 1, x minus fract is an integer. *)
Lemma C19_real_pf : forall x : R, 0 <= fract_f RS x < 1 /\ exists n : Z, x = IZR n + fract_f RS x.
Proof.
  intros x. unfold fract_f, floor_f; cbn [ssub sfloor RS].
  pose proof (Zfloor_lb x). pose proof (Zfloor_ub x). split; [lra|]. exists (Zfloor x). ring.
Qed.

(** C19: the bound is attained in binary32: fract(-1e-10) is 1. *)
Lemma C19_below_one_refuted_pf : exists x : f32, finite x /\ fract_f (F32 L0) x = f32_lit 1 0.
Proof. exists (f32_lit (-1) (-10)). split; [reflexivity|f32_eq]. Qed.

(** ** C20 *)
(** C20: mod over the reals. *)
Lemma C20_real_pf : forall x y : R, y <> 0 ->
  (0 < y -> 0 <= mod_f RS x y < y) /\ (y < 0 -> y < mod_f RS x y <= 0) /\ exists n : Z, x = y * IZR n + mod_f RS x y.
Proof.
  intros x y Hy. unfold mod_f, floor_f; cbn [ssub smul sdiv sfloor RS].
  pose proof (Zfloor_lb (x / y)) as H1. pose proof (Zfloor_ub (x / y)) as H2.
  set (n := IZR (Zfloor (x / y))) in *.
  assert (E : x = y * (x / y)) by (field; assumption).
  set (q := x / y) in *. split; [|split].
  - intros. rewrite E. nra.
  - intros. rewrite E. nra.
  - exists (Zfloor q). fold n. ring.
Qed.

(** C20: in binary32 the remainder can leave [0,y) at either end. *)
Lemma C20_range_refuted_pf :
  (exists x y : f32, ieee_lt (f32_lit 0 0) y /\ finite x /\ finite y /\ ieee_lt (mod_f (F32 L0) x y) (f32_lit 0 0)) /\
  (exists x y : f32, ieee_lt (f32_lit 0 0) y /\ finite x /\ finite y /\ mod_f (F32 L0) x y = y).
Proof.
  split.
  - exists (f32_lit 38797242641448975 (-16)), (f32_lit 7759448885917664 (-16)).
    split; [apply Bltb_ieee; vm_compute; reflexivity|]. split; [reflexivity|]. split; [reflexivity|].
    apply Bltb_ieee. vm_compute. reflexivity.
  - exists (f32_lit (-1) (-10)), (f32_lit 1 0).
    split; [apply Bltb_ieee; vm_compute; reflexivity|]. split; [reflexivity|]. split; [reflexivity|]. f32_eq.
Qed.

(** ** C21 *)
Lemma fmt_double a : fmt a -> fmt (a * 2).
Proof. intros F. change 2 with (bpow radix2 1). apply (mult_bpow_pos_exact_FLT radix2 (-149) 24); [exact F|lia]. Qed.
Lemma fmt_half a : fmt a -> bpow radix2 (-125) <= Rabs a -> fmt (a * / 2).
Proof.
  intros F H. change (/ 2) with (bpow radix2 (-1)). apply (mult_bpow_exact_FLT radix2 (-149) 24); [exact F|].
  assert (-124 <= mag radix2 a)%Z; [|lia]. apply mag_ge_bpow. exact H.
Qed.
Lemma fmt_quarter : fmt (/ 4).
Proof. replace (/ 4) with (bpow radix2 (-2)); [apply fmt_bpow; lia|cbn; lra]. Qed.

Lemma ZnearestE_small y : Rabs y <= / 4 -> ZnearestE y = 0%Z.
Proof. intros H. apply Znearest_imp. cbn. rewrite Rminus_0_r. lra. Qed.

Lemma roundEven_val L (x : f32) : finite x ->
  finite (roundEven_f (F32 L) x) /\ b2r (roundEven_f (F32 L) x) = IZR (2 * ZnearestE (b2r x * / 2)).
Proof.
  intros F. unfold roundEven_f; cbn [smul snearbyint slit F32].
  pose proof (b2r_lt_big x) as Hx. pose proof one_lt_big as H1.
  destruct (mult_ok x (f32_lit 5 (-1)) F fin_lit_half) as [F1 E1].
  { rewrite b2r_lit_half.
    apply Rle_lt_trans with (Rabs (b2r x)); [|now apply Rabs_def1].
    apply rnd_abs_le; [rewrite <- B2R_Babs; apply fmt_b2r|].
    rewrite Rabs_mult, (Rabs_pos_eq (/ 2)) by lra. pose proof (Rabs_pos (b2r x)). lra. }
  rewrite b2r_lit_half in E1.
  destruct (nearby_ok mode_NE _ F1) as [F2 E2]. cbn [round_mode] in E2.
  assert (EN : ZnearestE (b2r (Bmult mode_NE x (f32_lit 5 (-1)))) = ZnearestE (b2r x * / 2)).
  { rewrite E1. destruct (Rlt_or_le (Rabs (b2r x)) (/ 2)) as [Hs|Hl].
    - rewrite !ZnearestE_small; trivial.
      + rewrite Rabs_mult, (Rabs_pos_eq (/ 2)) by lra. lra.
      + apply rnd_abs_le; [apply fmt_quarter|]. rewrite Rabs_mult, (Rabs_pos_eq (/ 2)) by lra. lra.
    - f_equal. apply rnd_id, fmt_half; [apply fmt_b2r|]. eapply Rle_trans; [|exact Hl].
      change (/ 2) with (bpow radix2 (-1)). apply bpow_le. lia. }
  rewrite EN in E2.
  set (y := Bnearbyint mode_NE (Bmult mode_NE x (f32_lit 5 (-1)))) in *.
  assert (FM : fmt (b2r y * 2)) by (apply fmt_double, fmt_b2r).
  destruct (mult_ok y (f32_lit 2 0) F2 fin_lit2) as [F3 E3].
  { rewrite b2r_lit2, rnd_id by exact FM. rewrite E2.
    pose proof (Znearest_half (fun t => negb (Z.even t)) (b2r x * / 2)) as Hh.
    pose proof (abs_B2R_le_emax_minus_prec 24 128 _ x) as Hm.
    assert (H2 : 1 < bpow radix2 (128 - 24)) by (change 1 with (bpow radix2 0); apply bpow_lt; reflexivity).
    apply Rabs_le_inv in Hh. apply Rabs_le_inv in Hm. apply Rabs_def1; lra. }
  split; [exact F3|]. rewrite E3, b2r_lit2, rnd_id by exact FM. rewrite E2, mult_IZR. ring.
Qed.

(** C21: roundEven returns an even integer at distance at most 1. *)
Lemma C21_even_pf : forall (L : Libm) (x : f32), finite x ->
  exists n : Z, finite (roundEven_f (F32 L) x) /\ b2r (roundEven_f (F32 L) x) = IZR (2 * n) /\ Rabs (b2r x - IZR (2 * n)) <= 1.
Proof.
  intros L x F. destruct (roundEven_val L x F) as [H1 H2]. eexists; split; [exact H1|]. split; [exact H2|].
  pose proof (Znearest_half (fun t => negb (Z.even t)) (b2r x * / 2)) as Hh. rewrite mult_IZR.
  apply Rabs_le_inv in Hh. apply Rabs_le. lra.
Qed.

(** C21: it agrees with the nearest integer (ties to even) exactly when some even integer is within 1/2. *)
Lemma C21_agreement_pf : forall (L : Libm) (x : f32), finite x ->
  (b2r (roundEven_f (F32 L) x) = IZR (ZnearestE (b2r x)) <-> exists k : Z, Rabs (b2r x - IZR (2 * k)) <= / 2).
Proof.
  intros L x F. destruct (roundEven_val L x F) as [_ ->]. split.
  - intros E. exists (ZnearestE (b2r x * / 2)). rewrite E. apply Znearest_half.
  - intros [k Hk]. rewrite mult_IZR in Hk. f_equal.
    assert (ZnearestE (b2r x * / 2) = k) as ->.
    { apply Znearest_imp. apply Rabs_le_inv in Hk. apply Rabs_def1; lra. }
    symmetry. destruct (Rle_lt_or_eq_dec _ _ Hk) as [Hlt|Heq].
    + apply Znearest_imp. now rewrite mult_IZR.
    + unfold Znearest. assert (Hc : b2r x = IZR (2 * k) + / 2 \/ b2r x = IZR (2 * k - 1) + / 2).
      { rewrite minus_IZR, !mult_IZR. unfold Rabs in Heq. destruct (Rcase_abs (b2r x - 2 * IZR k)); [right|left]; lra. }
      destruct Hc as [Hc|Hc]; rewrite Hc.
      * assert (Zfloor (IZR (2 * k) + / 2) = 2 * k)%Z as E by (apply Zfloor_imp; rewrite plus_IZR; lra).
        rewrite E, Rcompare_Eq by lra. now rewrite Z.even_mul.
      * assert (Zfloor (IZR (2 * k - 1) + / 2) = 2 * k - 1)%Z as E by (apply Zfloor_imp; rewrite plus_IZR; lra).
        rewrite E, Rcompare_Eq by lra. rewrite Z.even_sub, Z.even_mul. cbn [Z.even orb eqb negb].
        apply Zceil_imp. replace (2 * k - 1)%Z with (2 * k - 1)%Z by lia. rewrite minus_IZR. lra.
Qed.

(** C21: on every odd integer the result differs from the argument. *)
Lemma C21_odd_integers_pf : forall (L : Libm) (x : f32) (k : Z), finite x -> b2r x = IZR (2 * k + 1) ->
  Rabs (b2r (roundEven_f (F32 L) x) - b2r x) = 1.
Proof.
  intros L x k F E. destruct (C21_even_pf L x F) as [n [_ [-> H]]]. rewrite E in *.
  rewrite <- minus_IZR, <- abs_IZR in *. apply le_IZR in H. f_equal. lia.
Qed.

(*PROPS
Example C21_ex : roundEven_f (F32 L0) (f32_lit 1 0) = f32_lit 0 0 /\ roundEven_f (F32 L0) (f32_lit 3 0) = f32_lit 4 0
  /\ roundEven_f (F32 L0) (f32_lit 25 (-1)) = f32_lit 2 0.
Proof. split; [|split]; f32_eq. Qed.

PROPS*)
(** ** C22 *)
(** C22: step. *)
Lemma C22_step_pf : forall (L : Libm) (edge x : f32),
  (ieee_lt x edge -> step_f (F32 L) edge x = f32_lit 0 0) /\ (~ ieee_lt x edge -> step_f (F32 L) edge x = f32_lit 1 0).
Proof.
  intros L edge x. unfold step_f; cbn [slt slit F32]. rewrite <- Bltb_ieee.
  destruct (Bltb x edge); intuition congruence.
Qed.

Lemma u32_val : u32 = / 16777216. Proof. unfold u32. cbn. lra. Qed.

Definition ss_poly (t : f32) : f32 :=
  Bmult mode_NE (Bmult mode_NE t t) (Bminus mode_NE (f32_lit 3 0) (Bmult mode_NE (f32_lit 2 0) t)).

Lemma ss_poly_val (t : f32) : finite t -> 0 <= b2r t <= 1 ->
  finite (ss_poly t) /\ b2r (ss_poly t) = rnd (rnd (b2r t * b2r t) * rnd (3 - b2r t * 2)) /\ 0 <= b2r (ss_poly t) <= 1.
Proof.
  intros F H. pose proof one_lt_big as Hb.
  assert (Hb3 : 3 < big). { apply Rlt_trans with (bpow radix2 2); [cbn; lra|apply bpow_lt; reflexivity]. }
  set (a := b2r t) in *.
  assert (Ba : 0 <= rnd (a * a) <= 1) by (split; [apply rnd_ge_fmt; [apply fmt_0|nra]|apply rnd_le_fmt; [apply fmt_1|nra]]).
  destruct (mult_ok t t F F) as [F1 E1]; [fold a; rewrite Rabs_pos_eq; lra|]. fold a in E1.
  assert (F2a : fmt (2 * a)) by (rewrite Rmult_comm; apply fmt_double, fmt_b2r).
  destruct (mult_ok (f32_lit 2 0) t fin_lit2 F) as [F2 E2].
  { rewrite b2r_lit2. fold a. rewrite rnd_id, Rabs_pos_eq by (trivial; lra). lra. }
  rewrite b2r_lit2 in E2. fold a in E2. rewrite rnd_id in E2 by exact F2a. rewrite Rmult_comm in E2.
  assert (Bc : 1 <= rnd (3 - a * 2) <= 3).
  { split; [apply rnd_ge_fmt; [apply fmt_1|lra]|apply rnd_le_fmt; [apply (fmt_Z 3); cbn; lia|lra]]. }
  destruct (minus_ok (f32_lit 3 0) (Bmult mode_NE (f32_lit 2 0) t) fin_lit3 F2) as [F3 E3].
  { rewrite b2r_lit3, E2, Rabs_pos_eq; lra. }
  rewrite b2r_lit3, E2 in E3.
  assert (P : rnd (a * a) * rnd (3 - a * 2) <= 1).
  { destruct (Rlt_or_le a (3 / 4)) as [Hs|Hl].
    - destruct (rnd_error (a * a)) as [e1 [n1 [A1 [A2 [_ A3]]]]].
      destruct (rnd_error (3 - a * 2)) as [e2 [n2 [C1 [C2 [_ C3]]]]].
      assert (Hn : eta32 <= u32) by (apply bpow_le; lia). rewrite u32_val in *.
      apply Rabs_le_inv in A1. apply Rabs_le_inv in A2. apply Rabs_le_inv in C1. apply Rabs_le_inv in C2.
      assert (U1 : rnd (a * a) <= a * a + 2 * / 16777216) by (rewrite A3; nra).
      assert (U2 : rnd (3 - a * 2) <= 3 - 2 * a + 4 * / 16777216) by (rewrite C3; nra).
      apply Rle_trans with ((a * a + 2 * / 16777216) * (3 - 2 * a + 4 * / 16777216)).
      { apply Rmult_le_compat; lra. }
      assert (Q : a * a * (3 - 2 * a) <= 27 / 32).
      { replace (27 / 32 - a * a * (3 - 2 * a)) with ((3 / 4 - a) * (9 / 8 + (3 / 2) * a - 2 * a * a)) by field.
        assert (0 <= (3 / 4 - a) * (9 / 8 + (3 / 2) * a - 2 * a * a)); [|lra].
        apply Rmult_le_pos; nra. }
      nra.
    - assert (G1 : fmt (2 * a - 1)).
      { apply sterbenz; auto with typeclass_instances; [apply fmt_1|lra]. }
      assert (G2 : fmt (3 - a * 2)).
      { apply sterbenz; auto with typeclass_instances; [apply (fmt_Z 3); cbn; lia|rewrite Rmult_comm; exact F2a|lra]. }
      rewrite (rnd_id _ G2).
      destruct (round_N_pt radix2 fx (fun z => negb (Z.even z)) (a * a)) as [_ HN].
      specialize (HN _ G1). change (round radix2 fx ZnearestE (a * a)) with (rnd (a * a)) in HN.
      assert (E : Rabs (2 * a - 1 - a * a) = (1 - a) * (1 - a)).
      { replace (2 * a - 1 - a * a) with (- ((1 - a) * (1 - a))) by ring. rewrite Rabs_Ropp, Rabs_pos_eq; [ring|nra]. }
      rewrite E in HN. apply Rabs_le_inv in HN.
      assert (rnd (a * a) <= a * a + (1 - a) * (1 - a)) by lra.
      apply Rle_trans with ((a * a + (1 - a) * (1 - a)) * (3 - a * 2)); [apply Rmult_le_compat_r; lra|].
      assert (1 - (a * a + (1 - a) * (1 - a)) * (3 - a * 2) = (1 - a) * (1 - a) * (4 * a - 2)) as E' by ring.
      assert (0 <= (1 - a) * (1 - a) * (4 * a - 2)) by (apply Rmult_le_pos; nra). lra. }
  assert (B : 0 <= rnd (rnd (a * a) * rnd (3 - a * 2)) <= 1).
  { split; [apply rnd_ge_fmt; [apply fmt_0|nra]|apply rnd_le_fmt; [apply fmt_1|exact P]]. }
  destruct (mult_ok _ _ F1 F3) as [F4 E4]; [rewrite E1, E3, Rabs_pos_eq; lra|].
  rewrite E1, E3 in E4. unfold ss_poly. rewrite E4. auto.
Qed.

(** The clamped ratio. *)
Lemma ss_clamp L (q : f32) : is_nan q = false ->
  let t := clamp_f (F32 L) q (f32_lit 0 0) (f32_lit 1 0) in
  finite t /\ 0 <= b2r t <= 1 /\ (xr q <= 0 -> b2r t = 0) /\ (1 <= xr q -> b2r t = 1).
Proof.
  intros N t. destruct (C16_clamp_pf L q (f32_lit 0 0) (f32_lit 1 0)) as [H1 [_ _]].
  { repeat split; trivial. rewrite xr_0, xr_1. lra. }
  destruct (H1 N) as [[_ [Nt A]] [_ [_ B]]]. fold t in A, B, Nt. rewrite xr_0 in A. rewrite xr_1 in B.
  pose proof one_lt_big.
  assert (F : finite t) by (apply finite_of_xr; [exact Nt|]; rewrite Rabs_pos_eq; lra).
  rewrite <- (xr_finite t F). split; [exact F|]. split; [split; assumption|].
  unfold t, clamp_f. rewrite xr_min, xr_max, xr_0, xr_1 by (trivial; now apply max_f_nn).
  split; intros Hq.
  - rewrite Rmax_right, Rmin_left; lra.
  - rewrite Rmax_left, Rmin_right; lra.
Qed.

Lemma ss_ratio (e0 e1 x : f32) : finite e0 -> finite e1 -> ieee_lt e0 e1 -> is_nan x = false ->
  finite (Bminus mode_NE e1 e0) ->
  let q := Bdiv mode_NE (Bminus mode_NE x e0) (Bminus mode_NE e1 e0) in
  is_nan q = false /\ (ieee_le x e0 -> xr q <= 0) /\ (ieee_le e1 x -> 1 <= xr q).
Proof.
  intros F0 F1 [_ [_ Hlt]] Nx Fd q. rewrite !xr_finite in Hlt by assumption.
  destruct (minus_inv _ _ Fd) as [_ [_ Ed]].
  set (d := Bminus mode_NE e1 e0) in *.
  assert (Pd : 0 < b2r d).
  { assert (0 <= b2r d) by (rewrite Ed; apply rnd_ge_fmt; [apply fmt_0|lra]).
    assert (b2r d <> 0); [|lra]. rewrite Ed. unfold Rminus.
    apply (round_plus_neq_0 radix2 fx ZnearestE); [apply fmt_b2r|apply generic_format_opp, fmt_b2r|lra]. }
  pose proof big_pos as Hb. pose proof one_lt_big as Hb1.
  assert (Hn : is_nan (Bminus mode_NE x e0) = false /\ (ieee_le x e0 -> xr (Bminus mode_NE x e0) <= 0) /\
               (ieee_le e1 x -> b2r d <= xr (Bminus mode_NE x e0))).
  { destruct (is_finite x) eqn:Fx.
    - destruct (minus_xr x e0 Fx F0) as [En Nn]. split; [exact Nn|]. rewrite En. split.
      + intros [_ [_ H]]. rewrite !xr_finite in H by assumption.
        apply clip_le; [apply rnd_le_fmt; [apply fmt_0|lra]|rewrite Rabs_R0; lra].
      + intros [_ [_ H]]. rewrite !xr_finite in H by assumption.
        apply clip_ge; [apply fmt_b2r| |apply Rabs_def1; apply b2r_lt_big].
        rewrite Ed. apply rnd_mono. lra.
    - assert (Hx : exists s, x = B754_infinity s) by (destruct x; try discriminate; eauto).
      destruct Hx as [s ->].
      assert (E : Bminus mode_NE (B754_infinity s) e0 = B754_infinity s) by (destruct e0; try discriminate F0; reflexivity).
      rewrite E. split; [reflexivity|]. pose proof (b2r_lt_big e0). pose proof (b2r_lt_big e1). pose proof (b2r_lt_big d).
      destruct s; cbn [xr]; split; intros [_ [_ H']].
      + lra.
      + rewrite (xr_finite e1 F1) in H'. cbn [xr] in H'. lra.
      + rewrite (xr_finite e0 F0) in H'. cbn [xr] in H'. lra.
      + lra. }
  destruct Hn as [Nn [Hlo Hhi]]. set (n := Bminus mode_NE x e0) in *.
  destruct (is_finite n) eqn:Fn.
  - destruct (div_xr n d Fn Fd) as [Eq Nq]; [lra|]. fold q in Eq, Nq. split; [exact Nq|]. rewrite Eq.
    rewrite (xr_finite n Fn) in *. split; intros H.
    + apply clip_le; [|rewrite Rabs_R0; lra]. apply rnd_le_fmt; [apply fmt_0|]. specialize (Hlo H).
      unfold Rdiv. pose proof (Rinv_0_lt_compat _ Pd). nra.
    + apply clip_ge; [apply fmt_1| |rewrite Rabs_pos_eq; lra]. apply rnd_ge_fmt; [apply fmt_1|]. specialize (Hhi H).
      apply Rmult_le_reg_r with (b2r d); [exact Pd|]. unfold Rdiv. rewrite Rmult_assoc, Rinv_l by lra. lra.
  - assert (Hx : exists s, n = B754_infinity s) by (destruct n; try discriminate; eauto).
    destruct Hx as [s En].
    assert (Ds : Bsign d = false) by (apply Bsign_b2r; assumption).
    assert (E : q = B754_infinity s).
    { unfold q. rewrite En. destruct d as [sd| | |sd md ed Hd]; try discriminate Fd.
      - cbn in Pd. lra.
      - cbn in Ds. rewrite Ds. now destruct s. }
    rewrite En in *. rewrite E. split; [reflexivity|]. split; intros H.
    + specialize (Hlo H). destruct s; cbn [xr] in *; lra.
    + specialize (Hhi H). destruct s; cbn [xr] in *; lra.
Qed.

(** C22: smoothstep stays in [0,1], is 0 at and below the lower edge and 1 at and above the upper
    edge, for all finite edges whose difference does not overflow and every x that is not NaN. *)
Lemma C22_smoothstep_pf : forall (L : Libm) (e0 e1 x : f32), finite e0 -> finite e1 -> ieee_lt e0 e1 -> is_nan x = false ->
  finite (@ssub (F32 L) e1 e0) ->
  finite (smoothstep_f (F32 L) e0 e1 x) /\ 0 <= b2r (smoothstep_f (F32 L) e0 e1 x) <= 1 /\
  (ieee_le x e0 -> b2r (smoothstep_f (F32 L) e0 e1 x) = 0) /\
  (ieee_le e1 x -> b2r (smoothstep_f (F32 L) e0 e1 x) = 1).
Proof.
  intros L e0 e1 x F0 F1 Hlt Nx Fd. cbn [ssub F32] in Fd.
  destruct (ss_ratio e0 e1 x F0 F1 Hlt Nx Fd) as [Nq [Q0 Q1]].
  destruct (ss_clamp L _ Nq) as [Ft [Bt [T0 T1]]].
  unfold smoothstep_f; cbn [ssub smul sdiv slit F32]. cbv zeta.
  set (t := clamp_f _ _ _ _) in *.
  destruct (ss_poly_val t Ft Bt) as [F [E B]]. unfold ss_poly in *. split; [exact F|]. split; [exact B|].
  split; intros H; rewrite E.
  - rewrite T0 by auto. rewrite !Rmult_0_l, rnd_0, Rmult_0_l. apply rnd_0.
  - rewrite T1 by auto. rewrite Rmult_1_l, (rnd_id 1) by apply fmt_1.
    replace (3 - 1 * 2) with 1 by ring. rewrite (rnd_id 1), Rmult_1_l by apply fmt_1. apply rnd_id, fmt_1.
Qed.

(** C22: over the reals smoothstep is monotone. *)
Lemma C22_monotone_pf : forall e0 e1 x y : R, e0 < e1 -> x <= y -> smoothstep_f RS e0 e1 x <= smoothstep_f RS e0 e1 y.
Proof.
  intros e0 e1 x y He Hxy. unfold smoothstep_f, clamp_f, max_f, min_f; cbn [ssub smul sdiv slit slt RS]; cbn [Rlit].
  assert (Hq : (x - e0) / (e1 - e0) <= (y - e0) / (e1 - e0)).
  { unfold Rdiv. apply Rmult_le_compat_r; [|lra]. left. apply Rinv_0_lt_compat. lra. }
  set (q := (x - e0) / (e1 - e0)) in *. set (r := (y - e0) / (e1 - e0)) in *.
  assert (M : forall a b, 0 <= a -> a <= b -> b <= 1 -> a * a * (3 - 2 * a) <= b * b * (3 - 2 * b)).
  { intros a b Ha Hab Hb.
    replace (b * b * (3 - 2 * b)) with (a * a * (3 - 2 * a) + (b - a) * (3 * (a + b) - 2 * (a * a + a * b + b * b))) by ring.
    assert (0 <= (b - a) * (3 * (a + b) - 2 * (a * a + a * b + b * b))); [|lra].
    apply Rmult_le_pos; nra. }
  assert (C : forall q, (if Rlt_bool 1 (if Rlt_bool q 0 then 0 else q) then 1 else (if Rlt_bool q 0 then 0 else q)) = Rmin (Rmax q 0) 1).
  { intros z. unfold Rmin, Rmax. destruct (Rlt_bool_spec z 0), (Rle_dec z 0); try lra; destruct (Rle_dec 0 1); try lra.
    - rewrite Rlt_bool_false; lra.
    - assert (z = 0) as -> by lra. rewrite Rlt_bool_false; lra.
    - destruct (Rlt_bool_spec 1 z), (Rle_dec z 1); lra. }
  rewrite !C. apply M.
  - apply Rmin_glb; [apply Rmax_r|lra].
  - apply Rle_min_compat_r, Rle_max_compat_r, Hq.
  - apply Rmin_r.
Qed.

(*PROPS
Example C22_ex : ieee_lt (f32_lit 0 0) (f32_lit 2 0) /\ finite (@ssub (F32 L0) (f32_lit 2 0) (f32_lit 0 0))
  /\ smoothstep_f (F32 L0) (f32_lit 0 0) (f32_lit 2 0) (f32_lit 1 0) = f32_lit 5 (-1).
Proof. split; [apply PfOrder.Bltb_ieee; vm_compute; reflexivity|]. split; [reflexivity|f32_eq]. Qed.

PROPS*)
(** ** C23 *)
Lemma plus_zero (x z : f32) : finite x -> finite z -> b2r z = 0 ->
  finite (Bplus mode_NE x z) /\ b2r (Bplus mode_NE x z) = b2r x.
Proof.
  intros Fx Fz Hz. destruct (plus_ok x z Fx Fz) as [F E].
  - rewrite Hz, Rplus_0_r, rnd_b2r. apply Rabs_def1; apply b2r_lt_big.
  - split; [exact F|]. rewrite E, Hz, Rplus_0_r. apply rnd_b2r.
Qed.
Lemma mult_zero_l (x z : f32) : finite x -> finite z -> b2r z = 0 -> finite (Bmult mode_NE z x) /\ b2r (Bmult mode_NE z x) = 0.
Proof.
  intros Fx Fz Hz. destruct (mult_ok z x Fz Fx) as [F E].
  - rewrite Hz, Rmult_0_l, rnd_0, Rabs_R0. apply big_pos.
  - split; [exact F|]. rewrite E, Hz, Rmult_0_l. apply rnd_0.
Qed.
Lemma mult_zero_r (x z : f32) : finite x -> finite z -> b2r z = 0 -> finite (Bmult mode_NE x z) /\ b2r (Bmult mode_NE x z) = 0.
Proof.
  intros Fx Fz Hz. destruct (mult_ok x z Fx Fz) as [F E].
  - rewrite Hz, Rmult_0_r, rnd_0, Rabs_R0. apply big_pos.
  - split; [exact F|]. rewrite E, Hz, Rmult_0_r. apply rnd_0.
Qed.

(** C23: at t = 0 mix returns x (under ==) whenever y - x does not overflow; it returns x for all
    finite t when x and y are equal. *)
Lemma C23_start_pf : forall (L : Libm) (x y t : f32), finite x -> finite y -> finite t ->
  (b2r t = 0 -> finite (@ssub (F32 L) y x) -> ieee_eq (mix_f (F32 L) x y t) x) /\
  (ieee_eq x y -> ieee_eq (mix_f (F32 L) x y t) x).
Proof.
  intros L x y t Fx Fy Ft. unfold mix_f; cbn [sadd ssub smul F32]. split.
  - intros Ht Fd. destruct (mult_zero_l (Bminus mode_NE y x) t Fd Ft Ht) as [F1 E1].
    destruct (plus_zero x _ Fx F1 E1) as [F2 E2]. now apply finite_eq.
  - intros [_ [_ E]]. rewrite !xr_finite in E by assumption.
    destruct (minus_ok y x Fy Fx) as [F0 E0].
    { rewrite E, Rminus_diag_eq, rnd_0, Rabs_R0 by reflexivity. apply big_pos. }
    rewrite E, Rminus_diag_eq, rnd_0 in E0 by reflexivity.
    destruct (mult_zero_r t _ Ft F0 E0) as [F1 E1].
    destruct (plus_zero x _ Fx F1 E1) as [F2 E2]. now apply finite_eq.
Qed.

(** C23: over the reals. *)
Lemma C23_real_pf : forall x y t : R,
  mix_f RS x y 0 = x /\ mix_f RS x y 1 = y /\
  (0 <= t <= 1 -> x <= y -> x <= mix_f RS x y t <= y) /\ (0 <= t <= 1 -> y <= x -> y <= mix_f RS x y t <= x).
Proof.
  intros x y t. unfold mix_f; cbn [sadd ssub smul RS]. repeat split; try (intros; nra); ring.
Qed.

(** C23: in binary32 mix(x,y,1) need not be y: mix(1e8,1,1) is 0. *)
Lemma C23_end_refuted_pf : exists x y : f32, finite x /\ finite y /\
  mix_f (F32 L0) x y (f32_lit 1 0) = f32_lit 0 0 /\ ~ ieee_eq (f32_lit 0 0) y.
Proof.
  exists (f32_lit 1 8), (f32_lit 1 0). split; [reflexivity|]. split; [reflexivity|]. split; [f32_eq|]. intros [_ [_ H]]. rewrite xr_0, xr_1 in H. lra.
Qed.

(** C23: the boolean forms select. *)
Lemma C23_select_pf : forall (S : Scalar),
  (forall (x y : S) (t : bool), mix_b S x y t = if t then y else x) /\
  (forall x y t, l2 (mix2_b S x y t) = zip3 (fun a b (c : bool) => if c then b else a) (l2 x) (l2 y) (l2 t)) /\
  (forall x y t, l3 (mix3_b S x y t) = zip3 (fun a b (c : bool) => if c then b else a) (l3 x) (l3 y) (l3 t)) /\
  (forall x y t, l4 (mix4_b S x y t) = zip3 (fun a b (c : bool) => if c then b else a) (l4 x) (l4 y) (l4 t)).
Proof. intros S; repeat split. Qed.

(*PROPS
Example C23_ex : mix_f (F32 L0) (f32_lit 2 0) (f32_lit 4 0) (f32_lit 5 (-1)) = f32_lit 3 0.
Proof. f32_eq. Qed.
PROPS*)
