(** * Proofs: sRGB conversions against the standard curves *)
From Coq Require Import ZArith Bool Reals List Lra Lia.
From Flocq Require Import Core.
From Verif Require Import Scalar RealInst Types Spec SpecColor ModelVec ModelCommon ModelExp ModelColor.
Import ListNotations.
Local Open Scope R_scope.
(*HEADER END*)
From Verif Require Import RealTac PfExp PolyLib.

Lemma clamp_dec x : exists c, unit_clamp x = c /\ 0 <= c <= 1.
Proof. exists (unit_clamp x). split; [reflexivity|]. unfold unit_clamp, Rmin, Rmax. destruct (Rle_dec x 0); destruct Rle_dec; lra. Qed.

(** convertLinearToSRGB(c, 1/2.4) is the standard encoding of the colour clamped to [0,1]; convertSRGBToLinear(c) is
    the standard decoding up to 10^-28, the error of its two literal reciprocals. *)
Lemma C73_standard_pf : forall (v : vec3 R) (i : nat), (i < 3)%nat ->
  let ch (u : vec3 R) := nth i (l3 u) 0 in
  ch (linearToSRGB3_g RS v (/ 2.4)) = srgb_encode (Rmin (Rmax (ch v) 0) 1) /\
  (0 <= ch v <= 1 -> Rabs (ch (sRGBToLinear3 RS v) - srgb_decode (ch v)) <= / 10 ^ 28).
Proof.
  intros v i Hi ch. assert (L : forall u : vec3 R, (i < length (l3 u))%nat) by (intros [? ? ?]; exact Hi). split.
  - unfold ch. etransitivity; [apply (f_equal (fun l => nth i l 0) (toS_model v (/ 2.4)))|].
    etransitivity; [apply (nth_map_R (fun s => toS s (/ 2.4))), L|]. change (nth i (l3 v) 0) with (ch v). unfold toS.
    change (Rmin (Rmax (ch v) 0) 1) with (unit_clamp (ch v)). destruct (clamp_dec (ch v)) as [c [-> C]]. unfold srgb_encode. cbv zeta.
    replace 0.0031308 with (31308 / 10000000) by lra. destruct (Rlt_bool_spec c (31308 / 10000000)) as [H|H]; [lra|].
    rewrite Rpow_pos by lra. lra.
  - intros S. set (s := ch v) in *.
    assert (G : (slit 24%Z (-1)%Z : RS) = g24) by (cbn; unfold Rlit, g24; cbn; lra).
    assert (E : ch (sRGBToLinear3 RS v) = toL s g24).
    { unfold sRGBToLinear3. rewrite G. unfold ch, s. etransitivity; [apply (f_equal (fun l => nth i l 0) (toL_model v g24))|]. apply (nth_map_R (fun s => toL s g24)), L. }
    rewrite E. unfold toL, srgb_decode. replace 0.04045 with (4045 / 100000) by lra.
    assert (T : / 10 ^ 28 = / 10000000000000000000000000000) by (f_equal; cbn; lra). rewrite T.
    destruct (Rle_bool_spec s (4045 / 100000)) as [H|H].
    + apply Rabs_le. unfold K2. lra.
    + rewrite Rpow_pos by (unfold K1; lra). set (x := (s + 55 / 1000) * K1). set (y := (s + 0.055) / 1.055).
      assert (XY : y <= x <= y * (1 + / 10000000000000000000000000000000)) by (unfold x, y, K1; lra).
      assert (Y : 0 < y <= 1) by (unfold y; lra).
      replace 2.4 with g24 by (unfold g24; lra). assert (A : Rpower y g24 <= Rpower x g24) by (apply Rle_Rpower_l; unfold g24; lra).
      assert (Bd : Rpower x g24 <= Rpower y g24 * (1 + / 10000000000000000000000000000000) ^ 3).
      { apply Rle_trans with (Rpower (y * (1 + / 10000000000000000000000000000000)) g24); [apply Rle_Rpower_l; [unfold g24; lra|lra]|].
        rewrite <- Rpower_mult_distr by lra. apply Rmult_le_compat_l; [left; apply exp_pos|].
        rewrite <- (Rpower_pow 3) by lra. apply Rle_Rpower; [lra|]. unfold g24. cbn. lra. }
      assert (C : Rpower y g24 <= 1) by (apply Rpower_le_1; [lra|unfold g24; lra]). set (p := Rpower x g24) in *. set (q := Rpower y g24) in *.
      assert (P : 0 < q) by apply exp_pos. set (t := (1 + / 10000000000000000000000000000000) ^ 3) in *.
      assert (T3 : 1 <= t <= 1 + / 10000000000000000000000000000) by (unfold t; cbn; lra). apply Rabs_le. nra.
Qed.

(** the polynomial approximation, per channel *)
Definition approx (x : R) : R :=
  662002687 / 1000000000 * sqrt x + 684122060 / 1000000000 * sqrt (sqrt x) - 323583601 / 1000000000 * sqrt (sqrt (sqrt x)) - 225411470 / 10000000000 * x.
Definition approx_t (t : R) : R := 0.662002687 * t ^ 4 + 0.684122060 * t ^ 2 - 0.323583601 * t - 0.0225411470 * t ^ 8.
Lemma approx_model (v : vec3 R) : l3 (linearToSRGB3 RS v) = map approx (l3 v).
Proof. destruct v as [a b c]. reflexivity. Qed.
Lemma root8 x : 0 <= x -> let t := sqrt (sqrt (sqrt x)) in 0 <= t /\ x = t ^ 8 /\ approx x = approx_t t.
Proof.
  intros H t. assert (T : 0 <= t) by apply sqrt_pos. split; [exact T|].
  assert (T2 : sqrt (sqrt x) = t * t) by (symmetry; apply sqrt_sqrt, sqrt_pos).
  assert (T4 : sqrt x = t * t * (t * t)) by (rewrite <- T2; symmetry; apply sqrt_sqrt, sqrt_pos).
  assert (T8 : x = t * t * (t * t) * (t * t * (t * t))) by (rewrite <- T4; symmetry; now apply sqrt_sqrt).
  split; [rewrite T8 at 1; ring|]. unfold approx, approx_t. fold t. clearbody t. rewrite T2, T4. rewrite T8 at 1. lra.
Qed.
Lemma root8_pos x : 0 < x -> 0 < sqrt (sqrt (sqrt x)).
Proof. intros H. now do 3 apply sqrt_lt_R0. Qed.
Definition Ppow : list Z := [550000000; 0; 0; -3235836010; 0; 0; 6841220600; 0; 0; 0; -10550000000; 0; 6620026870; 0; 0; 0; 0; 0; 0; 0; 0; 0; 0; 0; -225411470]%Z.
Definition Ptoe : list Z := [0; -3235836010; 6841220600; 0; 6620026870; 0; 0; 0; -129425411470]%Z.
Lemma Ppow_check : pcover Ppow 10000000 256 201 ([223] ++ [256])%Z = true.
Proof. vm_compute. reflexivity. Qed.
Lemma Ptoe_check : pcover Ptoe 370000000 64 0 ([7; 11; 13; 15; 17; 21] ++ [32])%Z = true.
Proof. vm_compute. reflexivity. Qed.

Lemma pow_le_inv a b n : (0 < n)%nat -> 0 <= b -> a ^ n <= b ^ n -> a <= b.
Proof.
  intros Hn Hb H. destruct (Rle_or_lt a b) as [C|C]; [exact C|]. exfalso.
  assert (b ^ n < a ^ n); [|lra]. clear H. induction n as [|n IH]; [lia|]. destruct n as [|n]; [cbn; lra|].
  specialize (IH ltac:(lia)). change (b * b ^ S n < a * a ^ S n). assert (0 <= b ^ S n) by now apply pow_le. nra.
Qed.
Lemma root_ge (a d : Z) (num den : Z) n r x : (0 < n)%nat -> (0 < d)%Z -> (0 < den)%Z -> 0 <= r -> x = r ^ n -> IZR num / IZR den <= x ->
  (a ^ Z.of_nat n * den <=? num * d ^ Z.of_nat n)%Z = true -> IZR a / IZR d <= r.
Proof.
  intros Hn Hd Hde Pr E H C. apply Z.leb_le, IZR_le in C. rewrite !mult_IZR, <- !pow_IZR in C. apply IZR_lt in Hd, Hde.
  apply Rmult_le_reg_r with (IZR d); [lra|]. unfold Rdiv. rewrite Rmult_assoc, Rinv_l, Rmult_1_r by lra.
  apply (pow_le_inv _ _ n Hn); [nra|]. rewrite Rpow_mult_distr, <- E. assert (0 < IZR d ^ n) by now apply pow_lt.
  apply Rmult_le_reg_r with (IZR den); [lra|]. apply Rle_trans with (IZR num * IZR d ^ n); [exact C|].
  assert (IZR num <= x * IZR den). { apply Rmult_le_compat_r with (r := IZR den) in H; [|lra]. unfold Rdiv in H. rewrite Rmult_assoc, Rinv_l, Rmult_1_r in H by lra. exact H. }
  nra.
Qed.
Lemma root_le (a d : Z) (num den : Z) n r x : (0 < n)%nat -> (0 <= a)%Z -> (0 < d)%Z -> (0 < den)%Z -> 0 <= r -> x = r ^ n -> x <= IZR num / IZR den ->
  (num * d ^ Z.of_nat n <=? a ^ Z.of_nat n * den)%Z = true -> r <= IZR a / IZR d.
Proof.
  intros Hn Ha Hd Hde Pr E H C. apply Z.leb_le, IZR_le in C. rewrite !mult_IZR, <- !pow_IZR in C. apply IZR_lt in Hd, Hde. apply IZR_le in Ha.
  apply Rmult_le_reg_r with (IZR d); [lra|]. unfold Rdiv. rewrite Rmult_assoc, Rinv_l, Rmult_1_r by lra.
  apply (pow_le_inv _ _ n Hn); [exact Ha|]. rewrite Rpow_mult_distr, <- E. assert (0 < IZR d ^ n) by now apply pow_lt.
  apply Rmult_le_reg_r with (IZR den); [lra|]. apply Rle_trans with (IZR num * IZR d ^ n); [|exact C].
  assert (x * IZR den <= IZR num). { apply Rmult_le_compat_r with (r := IZR den) in H; [|lra]. unfold Rdiv in H. rewrite Rmult_assoc, Rinv_l, Rmult_1_r in H by lra. exact H. }
  nra.
Qed.
Lemma root24 x : 0 < x -> exists r, 0 < r /\ x = r ^ 24 /\ sqrt (sqrt (sqrt x)) = r ^ 3 /\ Rpower x (/ 2.4) = r ^ 10.
Proof.
  intros H. exists (Rpower x (/ 24)). assert (P : 0 < Rpower x (/ 24)) by apply exp_pos. split; [exact P|].
  assert (Q : forall n, Rpower x (/ 24) ^ n = Rpower x (INR n / 24)).
  { intros n. rewrite <- Rpower_pow by exact P. rewrite Rpower_mult. f_equal. field. }
  split; [|split].
  - rewrite Q. replace (INR 24 / 24) with 1 by (cbn; lra). now rewrite Rpower_1.
  - rewrite Q, <- (Rpower_sqrt x H), <- (Rpower_sqrt (Rpower x (/ 2)) (exp_pos _)).
    rewrite <- (Rpower_sqrt (Rpower (Rpower x (/ 2)) (/ 2)) (exp_pos _)), !Rpower_mult. f_equal. cbn. lra.
  - rewrite Q. f_equal. cbn. lra.
Qed.
Lemma approx_power x : 0.0031308 <= x <= 1 -> Rabs (approx x - (1.055 * Rpower x (/ 2.4) - 0.055)) <= 0.001.
Proof.
  intros H. destruct (root24 x ltac:(lra)) as (r & Pr & E & E3 & E10). destruct (root8 x ltac:(lra)) as (_ & _ & A). rewrite E3 in A. rewrite A, E10.
  pose proof (pcover_ok _ _ 256 _ _ _ eq_refl Ppow_check r) as Q.
  assert (R1 : r <= 1) by (apply (pow_le_inv r 1 24); [lia|lra|rewrite pow1; lra]).
  assert (R0 : 78641593 / 100000000 <= r) by (apply (root_ge 78641593 100000000 31308 10000000 24 r x); [lia|lia|lia|lra|exact E|lra|vm_compute; reflexivity]).
  specialize (Q ltac:(lra)). replace (approx_t (r ^ 3) - (1.055 * r ^ 10 - 0.055)) with (evalR Ppow r * / 10000000000) by (unfold approx_t, Ppow; cbn [evalR]; lra).
  rewrite Rabs_mult, (Rabs_pos_eq (/ 10000000000)) by lra. lra.
Qed.
Lemma approx_toe x : 0 <= x <= 0.0031308 -> Rabs (approx x - 12.92 * x) <= 0.037.
Proof.
  intros H. destruct (root8 x ltac:(lra)) as (P & E & A). set (t := sqrt (sqrt (sqrt x))) in *. clearbody t. rewrite A, E.
  pose proof (pcover_ok _ _ 64 _ _ _ eq_refl Ptoe_check t) as Q.
  assert (T1 : t <= 4864 / 10000) by (apply (root_le 4864 10000 31308 10000000 8 t x); [lia|lia|lia|lia|lra|exact E|lra|vm_compute; reflexivity]).
  specialize (Q ltac:(lra)). replace (approx_t t - 12.92 * t ^ 8) with (evalR Ptoe t * / 10000000000) by (unfold approx_t, Ptoe; cbn [evalR]; lra).
  rewrite Rabs_mult, (Rabs_pos_eq (/ 10000000000)) by lra. lra.
Qed.
Lemma approx_neg x : 0 < x <= 0.00075 -> approx x < 0.
Proof.
  intros H. destruct (root8 x ltac:(lra)) as (_ & E & A). pose proof (root8_pos x ltac:(lra)) as P. set (t := sqrt (sqrt (sqrt x))) in *. clearbody t. rewrite A.
  assert (T1 : t <= 407 / 1000) by (apply (root_le 407 1000 75 100000 8 t x); [lia|lia|lia|lia|lra|exact E|lra|vm_compute; reflexivity]).
  unfold approx_t. assert (0 < t ^ 8) by now apply pow_lt. assert (T2 : t * t <= 0.407 * 0.407) by nra. assert (T3 : t * (t * t) <= 0.407 * (0.407 * 0.407)) by nra.
  replace (0.662002687 * t ^ 4 + 0.684122060 * t ^ 2 - 0.323583601 * t - 0.0225411470 * t ^ 8)
    with (t * (0.662002687 * (t * (t * t)) + 0.684122060 * t - 0.323583601) - 0.0225411470 * t ^ 8) by ring.
  assert (t * (0.662002687 * (t * (t * t)) + 0.684122060 * t - 0.323583601) < 0) by nra. lra.
Qed.
Lemma approx_range x : 0 <= x <= 1 -> - 0.039 <= approx x < 1.
Proof.
  intros H. destruct (root8 x ltac:(lra)) as (P & E & A). set (t := sqrt (sqrt (sqrt x))) in *. clearbody t. rewrite A. unfold approx_t.
  assert (T1 : t <= 1) by (apply (pow_le_inv t _ 8); [lia|lra|rewrite <- E, pow1; lra]).
  assert (T4 : 0 <= t ^ 4) by now apply pow_le. assert (T8 : t ^ 8 <= t ^ 4).
  { replace (t ^ 8) with (t ^ 4 * t ^ 4) by ring. assert (t ^ 4 <= 1) by (rewrite <- (pow1 4); apply pow_incr; lra). nra. }
  split.
  - assert (0 <= (0.684122060 * t - 0.1617918005) ^ 2) by apply pow2_ge_0. nra.
  - assert (T9 : 0 <= t ^ 8) by now apply pow_le. assert (S2 : t ^ 4 <= t) by (assert (t ^ 3 <= 1) by (rewrite <- (pow1 3); apply pow_incr; lra); replace (t ^ 4) with (t * t ^ 3) by ring; nra).
    assert (S3 : t ^ 2 <= t) by nra.
    destruct (Rle_or_lt t 0.97) as [C|C]; [nra|]. 
    assert (S8 : 0.97 ^ 8 <= t ^ 8) by (apply pow_incr; lra). cbn in S8. nra.
Qed.
Lemma approx_mono x y : 0.000016 <= x < y -> y <= 1 -> approx x < approx y.
Proof.
  intros H H1. destruct (root8 x ltac:(lra)) as (P & E & A). destruct (root8 y ltac:(lra)) as (P' & E' & A').
  set (t := sqrt (sqrt (sqrt x))) in *. set (s := sqrt (sqrt (sqrt y))) in *. clearbody t s. rewrite A, A'.
  assert (T0 : 1 / 4 <= t) by (apply (root_ge 1 4 16 1000000 8 t x); [lia|lia|lia|lra|exact E|lra|vm_compute; reflexivity]).
  assert (T1 : s <= 1) by (apply (pow_le_inv s _ 8); [lia|lra|rewrite <- E', pow1; lra]).
  assert (TS : t < s). { destruct (Rlt_or_le t s) as [C|C]; [exact C|]. exfalso. assert (s ^ 8 <= t ^ 8) by (apply pow_incr; lra). lra. }
  unfold approx_t.
  replace (0.662002687 * s ^ 4 + 0.684122060 * s ^ 2 - 0.323583601 * s - 0.0225411470 * s ^ 8)
    with (0.662002687 * t ^ 4 + 0.684122060 * t ^ 2 - 0.323583601 * t - 0.0225411470 * t ^ 8 + (s - t) *
      ((s ^ 2 + t ^ 2) * (s + t) * (0.662002687 - 0.0225411470 * (s ^ 4 + t ^ 4)) + 0.684122060 * (s + t) - 0.323583601)) by ring.
  assert (S4 : s ^ 4 <= 1) by (rewrite <- (pow1 4); apply pow_incr; lra). assert (T4 : t ^ 4 <= 1) by (rewrite <- (pow1 4); apply pow_incr; lra).
  assert (0 <= (s ^ 2 + t ^ 2) * (s + t) * (0.662002687 - 0.0225411470 * (s ^ 4 + t ^ 4))).
  { apply Rmult_le_pos; [apply Rmult_le_pos; [pose proof (pow2_ge_0 s); pose proof (pow2_ge_0 t); lra|lra]|lra]. }
  assert (0 < (s - t) * ((s ^ 2 + t ^ 2) * (s + t) * (0.662002687 - 0.0225411470 * (s ^ 4 + t ^ 4)) + 0.684122060 * (s + t) - 0.323583601)) by (apply Rmult_lt_0_compat; lra).
  lra.
Qed.
(** convertLinearToSRGB without exponent approximates the standard curve: within 0.001 on the power segment, within
    0.037 on all of [0,1]; it is strictly increasing from 0.000016 upwards and stays between -0.039 and 1. *)
Lemma C73_approximation_pf : forall (v : vec3 R) (i : nat), (i < 3)%nat ->
  let ch (u : vec3 R) := nth i (l3 u) 0 in let x := ch v in let y := ch (linearToSRGB3 RS v) in
  (0.0031308 <= x <= 1 -> Rabs (y - srgb_encode x) <= 0.001) /\
  (0 <= x <= 1 -> Rabs (y - srgb_encode x) <= 0.037 /\ - 0.039 <= y < 1) /\
  (forall u, 0.000016 <= x < ch u -> ch u <= 1 -> y < ch (linearToSRGB3 RS u)).
Proof.
  intros v i Hi ch x y. assert (L : forall u : vec3 R, (i < length (l3 u))%nat) by (intros [? ? ?]; exact Hi).
  assert (E : forall u, ch (linearToSRGB3 RS u) = approx (ch u)).
  { intros u. unfold ch. etransitivity; [apply (f_equal (fun l => nth i l 0) (approx_model u))|]. apply (nth_map_R approx), L. }
  assert (HP : 0.0031308 <= x <= 1 -> Rabs (y - srgb_encode x) <= 0.001).
  { intros H. unfold y. rewrite E. unfold srgb_encode. rewrite Rlt_bool_false by (fold x; lra). now apply approx_power. }
  split; [exact HP|]. split.
  - intros H. split; [|unfold y; rewrite E; now apply approx_range]. destruct (Rle_or_lt 0.0031308 x) as [C|C].
    + assert (Rabs (y - srgb_encode x) <= 0.001) by (apply HP; lra). lra.
    + unfold y. rewrite E. unfold srgb_encode. rewrite Rlt_bool_true by exact C. apply approx_toe. fold x. lra.
  - intros u H H1. unfold y. rewrite !E. apply approx_mono; trivial.
Qed.
(** ... but it is negative for every dark channel in (0, 0.00075], so in-range colours are encoded out of range. *)
Lemma C73_dark_refuted_pf : forall (v : vec3 R) (i : nat), (i < 3)%nat ->
  0 < nth i (l3 v) 0 <= 0.00075 -> nth i (l3 (linearToSRGB3 RS v)) 0 < 0.
Proof.
  intros v i Hi H. assert (L : (i < length (l3 v))%nat) by (destruct v; exact Hi).
  assert (E : nth i (l3 (linearToSRGB3 RS v)) 0 = approx (nth i (l3 v) 0)).
  { etransitivity; [apply (f_equal (fun l => nth i l 0) (approx_model v))|]. now apply (nth_map_R approx). }
  apply (Rle_lt_trans _ (approx (nth i (l3 v) 0))); [right; exact E|now apply approx_neg].
Qed.
(*PROPS
(** mid-grey is on the power segment, 0.0005 is a dark channel *)
Example C73_case : let v := V3 0.2 0.0005 1 in 0.0031308 <= nth 0 (l3 v) 0 <= 1 /\ 0 < nth 1 (l3 v) 0 <= 0.00075.
Proof. cbn. lra. Qed.
PROPS*)
