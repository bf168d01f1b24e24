(** * Order facts about binary32

    [xr] embeds the non-NaN floats into the reals, infinities at plus or minus
    [2^128], so that the IEEE comparisons become real comparisons. *)
From Coq Require Import ZArith Bool Reals Lra Lia SpecFloat.
From Flocq Require Import Core IEEE754.BinarySingleNaN.
From Verif Require Import Scalar IEEE32.
Local Open Scope R_scope.

Notation b2r := (@B2R 24 128).
Notation big := (bpow radix2 128).

Definition xr (x : f32) : R :=
  match x with
  | B754_infinity s => if s then - big else big
  | _ => B2R x
  end.

Definition nan (x : f32) : bool := is_nan x.
Definition iszero (x : f32) : bool := match x with B754_zero _ => true | _ => false end.

Lemma big_pos : 0 < big.
Proof. apply bpow_gt_0. Qed.

Lemma b2r_lt_big (x : f32) : - big < B2R x < big.
Proof. pose proof (abs_B2R_lt_emax 24 128 x) as H. apply Rabs_def2 in H. lra. Qed.

Lemma xr_finite (x : f32) : is_finite x = true -> xr x = B2R x.
Proof. destruct x; cbn; intros; try discriminate; reflexivity. Qed.

Lemma xr_bounds (x : f32) : - big <= xr x <= big.
Proof.
  pose proof big_pos. destruct x as [s|[]| |s m e He]; unfold xr; try (cbn; lra).
  pose proof (b2r_lt_big (B754_finite s m e He)). lra.
Qed.

Lemma Bcompare_xr (x y : f32) : is_nan x = false -> is_nan y = false ->
  Bcompare x y = Some (Rcompare (xr x) (xr y)).
Proof.
  intros Hx Hy. pose proof big_pos.
  destruct (is_finite x) eqn:Fx, (is_finite y) eqn:Fy.
  - rewrite Bcompare_correct by assumption. now rewrite !xr_finite.
  - pose proof (b2r_lt_big x). rewrite (xr_finite x Fx).
    destruct y as [|s| |]; try discriminate. cbn [xr].
    destruct x as [|s'| |s' m e He]; try discriminate; destruct s; cbn [Bcompare SFcompare B2SF] in *;
      unfold Bcompare; cbn [SFcompare B2SF].
    all: f_equal; symmetry; first [apply Rcompare_Lt; lra | apply Rcompare_Gt; lra].
  - pose proof (b2r_lt_big y). rewrite (xr_finite y Fy).
    destruct x as [|s| |]; try discriminate. cbn [xr].
    destruct y as [|s'| |s' m e He]; try discriminate; destruct s;
      unfold Bcompare; cbn [SFcompare B2SF].
    all: f_equal; symmetry; first [apply Rcompare_Lt; lra | apply Rcompare_Gt; lra].
  - destruct x as [|s| |]; try discriminate. destruct y as [|s'| |]; try discriminate.
    destruct s, s'; unfold Bcompare; cbn [SFcompare B2SF xr]; f_equal; symmetry;
      first [apply Rcompare_Eq; lra | apply Rcompare_Lt; lra | apply Rcompare_Gt; lra].
Qed.

Lemma Bltb_xr (x y : f32) : is_nan x = false -> is_nan y = false ->
  Bltb x y = Rlt_bool (xr x) (xr y).
Proof.
  intros Hx Hy. pose proof (Bcompare_xr x y Hx Hy) as H. unfold Bcompare in H.
  unfold Bltb, SFltb. rewrite H. unfold Rlt_bool. destruct (Rcompare (xr x) (xr y)); reflexivity.
Qed.
Lemma Bleb_xr (x y : f32) : is_nan x = false -> is_nan y = false ->
  Bleb x y = Rle_bool (xr x) (xr y).
Proof.
  intros Hx Hy. pose proof (Bcompare_xr x y Hx Hy) as H. unfold Bcompare in H.
  unfold Bleb, SFleb. rewrite H. unfold Rle_bool. destruct (Rcompare (xr x) (xr y)); reflexivity.
Qed.
Lemma Beqb_xr (x y : f32) : is_nan x = false -> is_nan y = false ->
  Beqb x y = Req_bool (xr x) (xr y).
Proof.
  intros Hx Hy. pose proof (Bcompare_xr x y Hx Hy) as H. unfold Bcompare in H.
  unfold Beqb, SFeqb. rewrite H. unfold Req_bool. destruct (Rcompare (xr x) (xr y)); reflexivity.
Qed.

Lemma Bltb_nan_l (x y : f32) : is_nan x = true -> Bltb x y = false.
Proof. now destruct x. Qed.
Lemma Bltb_nan_r (x y : f32) : is_nan y = true -> Bltb x y = false.
Proof. destruct y; try discriminate. now destruct x. Qed.
Lemma Bleb_nan_l (x y : f32) : is_nan x = true -> Bleb x y = false.
Proof. now destruct x. Qed.
Lemma Bleb_nan_r (x y : f32) : is_nan y = true -> Bleb x y = false.
Proof. destruct y; try discriminate. now destruct x. Qed.
Lemma Beqb_nan_l (x y : f32) : is_nan x = true -> Beqb x y = false.
Proof. now destruct x. Qed.
Lemma Beqb_nan_r (x y : f32) : is_nan y = true -> Beqb x y = false.
Proof. destruct y; try discriminate. now destruct x. Qed.

Lemma xr_eq_cases (x y : f32) : is_nan x = false -> is_nan y = false -> xr x = xr y ->
  x = y \/ (iszero x = true /\ iszero y = true).
Proof.
  intros Hx Hy E. pose proof big_pos.
  destruct (is_finite x) eqn:Fx, (is_finite y) eqn:Fy.
  - rewrite !xr_finite in E by assumption.
    destruct x as [sx| | |sx mx ex Hex] eqn:Ex; try discriminate;
    destruct y as [sy| | |sy my ey Hey] eqn:Ey; try discriminate.
    + right; split; reflexivity.
    + exfalso. cbn in E. symmetry in E. apply eq_0_F2R in E. destruct sy; discriminate.
    + exfalso. cbn in E. apply eq_0_F2R in E. destruct sx; discriminate.
    + left. apply B2R_inj; trivial; reflexivity.
  - pose proof (b2r_lt_big x). rewrite (xr_finite x Fx) in E.
    destruct y as [|[]| |]; try discriminate; cbn [xr] in E; lra.
  - pose proof (b2r_lt_big y). rewrite (xr_finite y Fy) in E.
    destruct x as [|[]| |]; try discriminate; cbn [xr] in E; lra.
  - destruct x as [|[]| |]; try discriminate; destruct y as [|[]| |]; try discriminate; cbn [xr] in E;
      try (left; reflexivity); lra.
Qed.

Lemma iszero_xr (x : f32) : iszero x = true -> xr x = 0 /\ is_nan x = false.
Proof. destruct x; try discriminate; cbn; auto. Qed.

Lemma Beqb_cases (x y : f32) :
  Beqb x y = true <-> (is_nan x = false /\ x = y) \/ (iszero x = true /\ iszero y = true).
Proof.
  split.
  - intros H.
    destruct (is_nan x) eqn:Nx; [rewrite Beqb_nan_l in H; [discriminate|assumption]|].
    destruct (is_nan y) eqn:Ny; [rewrite Beqb_nan_r in H; [discriminate|assumption]|].
    rewrite Beqb_xr in H by assumption.
    assert (E : xr x = xr y) by (destruct (Req_bool_spec (xr x) (xr y)); [assumption|discriminate]).
    destruct (xr_eq_cases x y Nx Ny E); auto.
  - intros [[Nx <-]|[Zx Zy]].
    + rewrite Beqb_xr by assumption. now apply Req_bool_true.
    + destruct (iszero_xr x Zx) as [Ex Nx], (iszero_xr y Zy) as [Ey Ny].
      rewrite Beqb_xr by assumption. apply Req_bool_true. congruence.
Qed.

Lemma Beqb_sym (x y : f32) : Beqb x y = Beqb y x.
Proof.
  apply eq_true_iff_eq. rewrite !Beqb_cases. intuition (subst; auto).
Qed.
Lemma Beqb_refl (x : f32) : Beqb x x = negb (is_nan x).
Proof.
  destruct (is_nan x) eqn:N; [now apply Beqb_nan_l|]. apply Beqb_cases. auto.
Qed.
Lemma Beqb_trans (x y z : f32) : Beqb x y = true -> Beqb y z = true -> Beqb x z = true.
Proof.
  rewrite !Beqb_cases. intros [[? <-]|[? ?]] [[? <-]|[? ?]]; auto.
Qed.
