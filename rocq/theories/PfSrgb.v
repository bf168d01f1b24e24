(** * Proofs: sRGB conversions in binary32 *)
From Coq Require Import ZArith Bool Reals List Lra Lia.
From Flocq Require Import Core IEEE754.BinarySingleNaN.
From Verif Require Import Scalar IEEE32 RealInst Types Outcome Spec SpecR SpecF32 SpecErr SpecOrd SpecDom SpecAcc SpecProj SpecColor SpecSrgb FloatBasics FloatOps
  ModelVec ModelCommon ModelExp ModelColor F32Tac RealTac NumLib PfSlerp.
Import ListNotations.
Local Open Scope R_scope.
(*HEADER END*)
From Coq Require Import Psatz.
From Verif Require Import FloatAlg ErrLib OvfLib LenLib RelLib ScaleLib MonoLib DomLib PfErr PfOvf PfLen PfDomain PfQuatAcc PfOctAcc PfExp PfColor VecErrLib AbsLib PfRound.

(** ** Powers and small changes of base and exponent *)
Lemma ln_upper x : 0 < x -> ln x <= x - 1.
Proof. intros H. pose proof (exp_ineq1_le (ln x)) as E. rewrite exp_ln in E by exact H. lra. Qed.
Lemma ln_lower x : 0 < x -> 1 - / x <= ln x.
Proof. intros H. pose proof (ln_upper (/ x) (Rinv_0_lt_compat _ H)) as E. rewrite ln_Rinv in E by exact H. lra. Qed.
Lemma exp_near x : Rabs x <= / 200 -> Rabs (exp x - 1) <= 1006/1000 * Rabs x.
Proof.
  intros H. apply Rabs_le_inv in H. pose proof (exp_ineq1_le x) as E1. pose proof (exp_ineq1_le (- x)) as E2. pose proof (exp_pos x) as P.
  rewrite exp_Ropp in E2. assert (Q : exp x * / exp x = 1) by (apply Rinv_r; lra). pose proof (Rinv_0_lt_compat _ P) as P2.
  assert (U : exp x * (1 - x) <= 1) by nra. unfold Rabs. destruct (Rcase_abs x); destruct Rcase_abs; nra.
Qed.
Lemma pow_base d g : Rabs d <= / 1000 -> 0 <= g <= 3 -> Rabs (Rpower (1 + d) g - 1) <= 101/100 * (g * Rabs d).
Proof.
  intros Hd Hg. assert (Hd' := Rabs_le_inv _ _ Hd). unfold Rpower. set (l := ln (1 + d)).
  assert (K : Rabs l <= 1002/1000 * Rabs d).
  { pose proof (ln_upper (1 + d) ltac:(lra)) as A. pose proof (ln_lower (1 + d) ltac:(lra)) as B. fold l in A, B.
    replace (1 - / (1 + d)) with (d / (1 + d)) in B by (field; lra).
    assert (C : (d / (1 + d)) * (1 + d) = d) by (field; lra). unfold Rabs at 1 2. destruct (Rcase_abs l); destruct (Rcase_abs d); nra. }
  assert (M : Rabs (g * l) <= 1002/1000 * (g * Rabs d)) by (rewrite Rabs_mult, (Rabs_pos_eq g) by lra; nra).
  assert (N : g * Rabs d <= 3 / 1000) by (pose proof (Rabs_pos d); nra). eapply Rle_trans; [apply exp_near; lra|]. pose proof (Rabs_pos d). assert (0 <= g * Rabs d) by (apply Rmult_le_pos; lra). lra.
Qed.
Lemma factors a b i j : 0 <= i <= 64 -> 0 <= j <= 64 -> Rabs a <= i * u -> Rabs b <= j * u -> Rabs ((1 + a) * (1 + b) - 1) <= (i + j + / 1000) * u.
Proof.
  intros Hi Hj Ha Hb. pose proof u_val as Hu. replace ((1 + a) * (1 + b) - 1) with (a + b + a * b) by ring. eapply Rle_trans; [apply Rabs_triang|].
  pose proof (Rabs_triang a b). rewrite Rabs_mult. pose proof (Rabs_pos a). pose proof (Rabs_pos b). assert (Rabs a * Rabs b <= (i * u) * (j * u)) by (apply Rmult_le_compat; lra).
  assert (i * u * (j * u) <= 64 * 64 * (u * u)). { replace (i * u * (j * u)) with (i * j * (u * u)) by ring. apply Rmult_le_compat_r; nra. }
  assert (64 * 64 * (u * u) <= / 1000 * u) by nra. lra.
Qed.
(** ** The two thresholds: no binary32 number lies between the decimal and its float *)
Lemma lit_at m e : (e <= 0)%Z -> Rabs (Rlit m e) <= 1000 -> finite (f32_lit m e) /\ b2r (f32_lit m e) = rnd (Rlit m e).
Proof.
  intros He H. apply lit_rnd; [exact He|]. apply Rle_lt_trans with 1001; [|unfold big; apply (IZR_lt 1001 (2 ^ 128)); reflexivity].
  pose proof (rnd_err_t _ _ H) as E. pose proof u_val. pose proof tiny_small. replace (rnd (Rlit m e)) with (Rlit m e + (rnd (Rlit m e) - Rlit m e)) by ring. eapply Rle_trans; [apply Rabs_triang|]. lra.
Qed.
Lemma le_lit (s : f32) m e : finite s -> (e <= 0)%Z -> Rabs (Rlit m e) <= 1000 -> b2r (f32_lit m e) <= Rlit m e -> Bleb s (f32_lit m e) = Rle_bool (b2r s) (Rlit m e).
Proof.
  intros F He H L. destruct (lit_at m e He H) as [Fl El]. rewrite bleb_b2r by assumption. destruct (Rle_bool_spec (b2r s) (Rlit m e)) as [K|K].
  - apply Rle_bool_true. rewrite El, <- (rnd_b2r s). now apply rnd_mono.
  - apply Rle_bool_false. lra.
Qed.
Lemma lt_lit (s : f32) m e : finite s -> (e <= 0)%Z -> Rabs (Rlit m e) <= 1000 -> Rlit m e <= b2r (f32_lit m e) -> Bltb s (f32_lit m e) = Rlt_bool (b2r s) (Rlit m e).
Proof.
  intros F He H L. destruct (lit_at m e He H) as [Fl El]. rewrite bltb_b2r by assumption. destruct (Rlt_bool_spec (b2r s) (Rlit m e)) as [K|K].
  - apply Rlt_bool_true. lra.
  - apply Rlt_bool_false. rewrite El, <- (rnd_b2r s). now apply rnd_mono.
Qed.
(** ** Decoding *)
Definition da : f32 := f32_lit 55 (-3).
Definition dk1 : f32 := f32_lit 94786729857819905213270142180095 (-32).
Definition dk2 : f32 := f32_lit 7739938080495356037151702786378 (-32).
Definition dg : f32 := f32_lit 24 (-1).
Definition dec1 (L : Libm) (s : f32) : f32 := if Bleb s (f32_lit 4045 (-5)) then Bmult mode_NE s dk2 else l_pow L (Bmult mode_NE (Bplus mode_NE s da) dk1) dg.
Lemma dec_shape L v : l3 (sRGBToLinear3 (F32 L) v) = map (dec1 L) (l3 v).
Proof. destruct v as [a b c]. reflexivity. Qed.
Lemma v_da : b2r da = 7381975/134217728. Proof. unfold da, f32_lit. vm_compute. lra. Qed.
Lemma v_dk1 : b2r dk1 = 7951287/8388608. Proof. unfold dk1, f32_lit. vm_compute. lra. Qed.
Lemma v_dk2 : b2r dk2 = 10388369/134217728. Proof. unfold dk2, f32_lit. vm_compute. lra. Qed.
Lemma v_dg : b2r dg = 5033165/2097152. Proof. unfold dg, f32_lit. vm_compute. lra. Qed.
Lemma f_da : finite da. Proof. reflexivity. Qed.
Lemma f_dk1 : finite dk1. Proof. reflexivity. Qed.
Lemma f_dk2 : finite dk2. Proof. reflexivity. Qed.
Lemma f_dg : finite dg. Proof. reflexivity. Qed.
Global Opaque da dk1 dk2 dg.
Lemma u_eq : u = / 16777216. Proof. reflexivity. Qed.
Lemma ln_dark y : 9047/100000 <= y <= 1 -> - (282/100) <= ln y <= 0.
Proof.
  intros H. split; [|pose proof (ln_upper y ltac:(lra)); lra]. destruct (Rle_or_lt (- (282/100)) (ln y)) as [K|K]; [exact K|exfalso].
  apply exp_increasing in K. rewrite exp_ln in K by lra. rewrite exp_Ropp in K.
  assert (E : exp (282/100) = exp (3525/10000) ^ 8) by (rewrite <- Rpower_pow by apply exp_pos; unfold Rpower; rewrite ln_exp; f_equal; cbn; lra).
  pose proof (exp_ineq1_le (3525/10000)) as X. assert (P : (1 + 3525/10000) ^ 8 <= exp (282/100)) by (rewrite E; apply pow_incr; lra).
  assert (P2 : 1119/100 <= exp (282/100)) by lra. assert (/ exp (282/100) <= / (1119/100)) by (apply Rinv_le_contravar; lra). lra.
Qed.
Lemma moderate_range x : / 1000 <= x <= 1000 -> in_range x.
Proof. intros H. right. rewrite Rabs_pos_eq by lra. split; [apply Rle_trans with (/ 1000); [|lra]; apply Rinv_le_contravar; [lra|]|apply Rle_trans with 1000; [lra|]]; apply IZR_le; discriminate. Qed.
Lemma dec_power L k s : 0 <= k <= 16 -> pow_accurate L k -> finite s -> 4045/100000 < b2r s <= 1 ->
  rel_close (k + 11) (l_pow L (Bmult mode_NE (Bplus mode_NE s da) dk1) dg) (Rpower ((b2r s + 0.055) / 1.055) 2.4).
Proof.
  intros Hk HL Fs Hs. pose proof u_val as Hu. pose proof u_eq as UE. set (S := b2r s) in *. set (y := (S + 0.055) / 1.055).
  assert (Hy : 9047/100000 <= y <= 1) by (unfold y; lra). 
  assert (BIG : 1000 <= IZR (2 ^ 120)) by (apply IZR_le; discriminate).
  assert (A : rel_close (1 + 53/1000 + / 1000) (Bplus mode_NE s da) (S + 0.055)).
  { pose proof (rel_plus s da Fs f_da ltac:(fold S; rewrite Rabs_pos_eq; lra) ltac:(rewrite v_da, Rabs_pos_eq; lra)) as R. apply rel_factor in R as [F [d [Hd E]]]; [|lra].
    apply rel_factor; [lra|]. split; [exact F|]. exists ((1 + d) * (1 + (b2r da - 0.055) / (S + 0.055)) - 1). split.
    - apply factors; [lra|lra|lra|]. unfold Rdiv. rewrite Rabs_mult, (Rabs_pos_eq (/ _)) by (left; apply Rinv_0_lt_compat; lra).
      apply (Rmult_le_reg_r (S + 0.055)); [lra|]. rewrite Rmult_assoc, Rinv_l, Rmult_1_r by lra. rewrite v_da. rewrite Rabs_left by lra. rewrite UE. lra.
    - rewrite E. fold S. field. lra. }
  assert (B : rel_close (44/100) dk1 (/ 1.055)). { split; [exact f_dk1|]. rewrite v_dk1, UE. rewrite (Rabs_pos_eq (/ 1.055)) by lra. apply Rabs_le. lra. }
  pose proof (rel_mul (1 + 53/1000 + / 1000) (44/100) _ _ (S + 0.055) (/ 1.055) ltac:(lra) ltac:(lra) A B ltac:(apply moderate_range; lra)) as M. change ((S + 0.055) * / 1.055) with y in M.
  apply (rel_weaken _ (2515/1000)) in M; [|lra]. set (b := Bmult mode_NE (Bplus mode_NE s da) dk1) in *. clearbody b. clear A B.
  apply rel_factor in M as [Fb [d [Hd Eb]]]; [|lra]. assert (Hd' := Rabs_le_inv _ _ Hd).
  assert (R : between (/ 1024) 2 b) by (split; [exact Fb|rewrite Eb; nra]). assert (RG : between (/ 4) 4 dg) by (split; [exact f_dg|rewrite v_dg; lra]).
  pose proof (HL b dg R RG) as P. apply rel_factor in P as [Fp [d2 [Hd2 Ep]]]; [|lra]. apply rel_factor; [lra|]. split; [exact Fp|].
  set (e := b2r dg - 2.4). assert (He : e = 16/10 * u) by (unfold e; rewrite v_dg, UE; lra).
  assert (EG : Rpower (b2r b) (b2r dg) = Rpower y 2.4 * (exp (e * ln y) * Rpower (1 + d) (b2r dg))).
  { rewrite Eb, <- Rpower_mult_distr by lra. replace (b2r dg) with (2.4 + e) at 1 by (unfold e; ring). rewrite Rpower_plus. unfold Rpower at 2. ring. }
  set (w1 := exp (e * ln y)) in *. set (w2 := Rpower (1 + d) (b2r dg)) in *.
  assert (K1 : Rabs (w1 - 1) <= 454/100 * u).
  { pose proof (ln_dark y Hy) as LN. assert (X : Rabs (e * ln y) <= 4512/1000 * u) by (rewrite He; rewrite Rabs_mult, (Rabs_pos_eq (_ * u)) by lra; rewrite Rabs_left1 by lra; nra).
    eapply Rle_trans; [apply exp_near; lra|lra]. }
  assert (K2 : Rabs (w2 - 1) <= 611/100 * u).
  { eapply Rle_trans; [apply pow_base; [lra|rewrite v_dg; lra]|]. rewrite v_dg. lra. }
  pose proof (factors (w1 - 1) (w2 - 1) (454/100) (611/100) ltac:(lra) ltac:(lra) K1 K2) as K3. pose proof (factors d2 _ k (454/100 + 611/100 + / 1000) ltac:(lra) ltac:(lra) Hd2 K3) as K4.
  eexists. split; [|rewrite Ep, EG; instantiate (1 := (1 + d2) * (1 + ((1 + (w1 - 1)) * (1 + (w2 - 1)) - 1)) - 1); ring].
  eapply Rle_trans; [exact K4|]. apply Rmult_le_compat_r; lra.
Qed.
Lemma dec_toe s : finite s -> 0 <= b2r s <= 4045/100000 -> finite (Bmult mode_NE s dk2) /\ Rabs (b2r (Bmult mode_NE s dk2) - b2r s / 12.92) <= 2 * u * (b2r s / 12.92) + tiny.
Proof.
  intros Fs Hs. pose proof u_eq as UE. assert (W1 : within 1 s) by (split; [exact Fs|rewrite Rabs_pos_eq by lra; cbn; lra]). assert (W2 : within 1 dk2) by (split; [exact f_dk2|rewrite v_dk2, Rabs_pos_eq by lra; cbn; lra]).
  destruct (w_mul 1 1 2 _ _ W1 W2) as [[F _] E]; try lia. split; [exact F|]. rewrite E. set (S := b2r s) in *.
  pose proof (rnd_err_t (S * b2r dk2) (S * b2r dk2) ltac:(rewrite Rabs_pos_eq; [lra|rewrite v_dk2; lra])) as R. apply Rabs_le_inv in R. rewrite v_dk2, UE in *. apply Rabs_le. lra.
Qed.
Lemma v_toe : b2r (f32_lit 4045 (-5)) = 5429107/134217728. Proof. unfold f32_lit. vm_compute. lra. Qed.
Lemma v_knee : b2r (f32_lit 31308 (-7)) = 3361671/1073741824. Proof. unfold f32_lit. vm_compute. lra. Qed.
Lemma lit_toe : Rlit 4045 (-5) = 4045/100000. Proof. unfold Rlit. cbn. lra. Qed.
Lemma lit_knee : Rlit 31308 (-7) = 31308/10000000. Proof. unfold Rlit. cbn. lra. Qed.
Lemma decode_pos s : 0 <= s -> 0 <= srgb_decode s.
Proof. intros H. unfold srgb_decode. destruct Rle_bool; [lra|left; apply exp_pos]. Qed.
Lemma dec_near L k s : 0 <= k <= 16 -> pow_accurate L k -> decoded k s (dec1 L s).
Proof.
  intros Hk HL [Fs Hs]. pose proof u_val as Hu. pose proof tiny_small as Ht. unfold dec1. rewrite le_lit; [|exact Fs|lia|rewrite lit_toe, Rabs_pos_eq; lra|rewrite lit_toe, v_toe; lra]. rewrite lit_toe.
  unfold srgb_decode. replace 0.04045 with (4045/100000) by lra. destruct (Rle_bool_spec (b2r s) (4045/100000)) as [H|H].
  - destruct (dec_toe s Fs ltac:(lra)) as [F E]. split; [exact F|]. assert (2 * u * (b2r s / 12.92) <= (k + 11) * u * (b2r s / 12.92)) by (apply Rmult_le_compat_r; nra). lra.
  - destruct (dec_power L k s Hk HL Fs ltac:(lra)) as [F E]. split; [exact F|]. rewrite (Rabs_pos_eq (Rpower _ _)) in E by (left; apply exp_pos). lra.
Qed.
(** ** Encoding *)
Definition ea : f32 := f32_lit 1055 (-3).
Definition es : f32 := f32_lit 1292 (-2).
Lemma v_ea : b2r ea = 8849981/8388608. Proof. unfold ea, f32_lit. vm_compute. lra. Qed.
Lemma v_es : b2r es = 6773801/524288. Proof. unfold es, f32_lit. vm_compute. lra. Qed.
Lemma f_ea : finite ea. Proof. reflexivity. Qed.
Lemma f_es : finite es. Proof. reflexivity. Qed.
Global Opaque ea es.
Definition unitc (L : Libm) (x : f32) : f32 := clamp_f (F32 L) x (f32_ofZ 0) (f32_ofZ 1).
Definition enc1 (L : Libm) (g x : f32) : f32 := let c := unitc L x in
  if Bltb c (f32_lit 31308 (-7)) then Bmult mode_NE c es else Bminus mode_NE (Bmult mode_NE (l_pow L c g) ea) da.
Lemma enc_shape L v g : l3 (linearToSRGB3_g (F32 L) v g) = map (enc1 L g) (l3 v).
Proof. destruct v as [a b c]. reflexivity. Qed.
Lemma unitc_val L x : finite x -> finite (unitc L x) /\ b2r (unitc L x) = unit_clamp (b2r x).
Proof.
  intros F. assert (V1 : b2r (f32_ofZ 1) = 1) by (apply (ofZ_exact 1); reflexivity). assert (V0 : b2r (f32_ofZ 0) = 0) by reflexivity.
  assert (F1 : finite (f32_ofZ 1)) by reflexivity. assert (F0 : finite (f32_ofZ 0)) by reflexivity.
  change (unitc L x) with (let m := if Bltb x (f32_ofZ 0) then f32_ofZ 0 else x in if Bltb (f32_ofZ 1) m then f32_ofZ 1 else m). cbv zeta.
  revert V1 V0 F1 F0. generalize (f32_ofZ 1) (f32_ofZ 0). intros p z V1 V0 F1 F0. unfold unit_clamp. rewrite (bltb_b2r x z) by assumption. rewrite V0. case Rlt_bool_spec; intros A.
  - rewrite (bltb_b2r p z), V0, V1 by assumption. rewrite Rlt_bool_false by lra. split; [exact F0|]. rewrite V0, Rmax_right, Rmin_left by lra. reflexivity.
  - rewrite (bltb_b2r p x), V1 by assumption. rewrite Rmax_left by lra. case Rlt_bool_spec; intros B; (split; [assumption|]).
    + rewrite Rmin_right by lra. exact V1.
    + rewrite Rmin_left by lra. reflexivity.
Qed.
Lemma ln_times_pow c g : 0 < c <= 1 -> 0 < g -> - (/ 2) <= g * ln c * Rpower c g <= 0.
Proof.
  intros Hc Hg. pose proof (ln_upper c ltac:(lra)) as LN. set (s := - (g * ln c)). assert (Ps : 0 <= s) by (unfold s; nra).
  unfold Rpower. replace (g * ln c) with (- s) by (unfold s; ring). rewrite exp_Ropp. pose proof (exp_pos s) as P. pose proof (Rinv_0_lt_compat _ P) as P'.
  assert (E : exp s = exp (s / 2) * exp (s / 2)) by (rewrite <- exp_plus; f_equal; lra). pose proof (exp_ineq1_le (s / 2)) as X.
  assert (Q : 2 * s <= exp s). { rewrite E. assert ((1 + s / 2) * (1 + s / 2) <= exp (s / 2) * exp (s / 2)) by (apply Rmult_le_compat; lra). pose proof (Rle_0_sqr (1 - s / 2)) as Z. unfold Rsqr in Z. lra. }
  assert (I : exp s * / exp s = 1) by (apply Rinv_r; lra). assert (2 * s * / exp s <= 1) by (rewrite <- I; apply Rmult_le_compat_r; lra). assert (0 <= s * / exp s) by (apply Rmult_le_pos; lra). lra.
Qed.
Lemma ln_dim c : 31308/10000000 <= c <= 1 -> - 320 <= ln c <= 0.
Proof.
  intros H. pose proof (ln_upper c ltac:(lra)). pose proof (ln_lower c ltac:(lra)). assert (/ c <= / (31308/10000000)) by (apply Rinv_le_contravar; lra). lra.
Qed.
Lemma enc_power L k g c : 0 <= k <= 16 -> pow_accurate L k -> encoding_exponent g -> finite c -> 31308/10000000 <= b2r c <= 1 ->
  ab ((11/10 * k + 5) * u) (Bminus mode_NE (Bmult mode_NE (l_pow L c g) ea) da) (1.055 * Rpower (b2r c) (/ 2.4) - 0.055).
Proof.
  intros Hk HL [Fg Hg] Fc Hc. pose proof u_val as Hu. pose proof u_eq as UE. pose proof tiny_small as Ht. assert (Hg' := Rabs_le_inv _ _ Hg).
  destruct (HL c g ltac:(split; [exact Fc|lra]) ltac:(split; [exact Fg|lra])) as [Fp Kp]. set (C := b2r c) in *. set (q := Rpower C (/ 2.4)).
  assert (Pq : 0 < q) by apply exp_pos. assert (Lq : q <= 1) by (apply Rpower_le_1; lra). set (e := b2r g - / 2.4) in *.
  assert (W : Rpower C (b2r g) = q * exp (e * ln C)) by (unfold q; replace (b2r g) with (/ 2.4 + e) by (unfold e; ring); rewrite Rpower_plus; reflexivity).
  pose proof (ln_dim C Hc) as LD. pose proof (ln_times_pow C (/ 2.4) ltac:(lra) ltac:(lra)) as LP. fold q in LP.
  assert (X : Rabs (e * ln C) <= 320 * u) by (rewrite Rabs_mult, (Rabs_left1 (ln C)) by lra; pose proof (Rabs_pos e); nra).
  pose proof (exp_near (e * ln C) ltac:(lra)) as Y. 
  assert (Z : Rabs (Rpower C (b2r g) - q) <= 1209/1000 * u).
  { rewrite W. replace (q * exp (e * ln C) - q) with (q * (exp (e * ln C) - 1)) by ring. rewrite Rabs_mult, (Rabs_pos_eq q) by lra.
    apply Rle_trans with (q * (1006/1000 * Rabs (e * ln C))); [apply Rmult_le_compat_l; lra|]. rewrite Rabs_mult, (Rabs_left1 (ln C)) by lra.
    replace (q * (1006 / 1000 * (Rabs e * - ln C))) with (1006/1000 * Rabs e * (- (/ 2.4 * ln C * q)) * 2.4) by lra. pose proof (Rabs_pos e). set (t := - (/ 2.4 * ln C * q)) in *. assert (0 <= t <= / 2) by (unfold t; lra). nra. }
  apply Rabs_le_inv in Z. rewrite (Rabs_pos_eq (Rpower _ _)) in Kp by (left; apply exp_pos).
  assert (AP : ab ((k + 121/100) * u) (l_pow L c g) q).
  { split; [exact Fp|]. assert (k * u * Rpower C (b2r g) <= (k + / 1000) * u).  { assert (Rpower C (b2r g) <= 1 + 2 * u) by lra. assert (k * u * Rpower C (b2r g) <= k * u * (1 + 2 * u)) by (apply Rmult_le_compat_l; nra). nra. }
    apply Rabs_le_inv in Kp. apply Rabs_le. lra. }
  assert (AE : ab (8801/10000 * u) ea 1.055) by (split; [exact f_ea|rewrite v_ea, UE; apply Rabs_le; lra]).
  assert (AD : ab (6/1000 * u) da 0.055) by (split; [exact f_da|rewrite v_da, UE; apply Rabs_le; lra]).
  assert (AM : ab ((1055/1000 * k + 2159/1000) * u + u * (1056/1000) + tiny) (Bmult mode_NE (l_pow L c g) ea) (q * 1.055)).
  { apply (ab_mul _ _ _ _ _ _ _ _ AP AE); try (rewrite !Rabs_pos_eq by lra); try (rewrite ?Rabs_pos_eq by lra; nra); try nra. }
  assert (AS : ab ((1055/1000 * k + 2159/1000) * u + u * (1056/1000) + tiny + 6/1000 * u + u * (1001/1000) + tiny) (Bminus mode_NE (Bmult mode_NE (l_pow L c g) ea) da) (q * 1.055 - 0.055)).
  { apply (ab_sub _ _ _ _ _ _ _ AM AD); try (rewrite Rabs_pos_eq by lra; nra); try nra. assert (Rabs (q * 1.055 - 0.055) <= 1) by (apply Rabs_le; lra). nra. }
  replace (1.055 * q - 0.055) with (q * 1.055 - 0.055) by ring. eapply ab_weak; [|exact AS]. nra.
Qed.
Lemma enc_toe c : finite c -> 0 <= b2r c < 31308/10000000 -> ab u (Bmult mode_NE c es) (12.92 * b2r c).
Proof.
  intros Fc Hc. pose proof u_eq as UE. pose proof tiny_small as Ht. assert (W1 : within 1 c) by (split; [exact Fc|rewrite Rabs_pos_eq by lra; cbn; lra]). assert (W2 : within 4 es) by (split; [exact f_es|rewrite v_es, Rabs_pos_eq by lra; cbn; lra]).
  destruct (w_mul 1 4 5 _ _ W1 W2) as [[F _] E]; try lia. split; [exact F|]. rewrite E.
  pose proof (rnd_err_t (b2r c * b2r es) (5/100) ltac:(rewrite v_es, Rabs_pos_eq; lra)) as R. apply Rabs_le_inv in R. rewrite v_es, UE in *. apply Rabs_le. lra.
Qed.
Lemma enc_near L k g x : 0 <= k <= 16 -> pow_accurate L k -> encoding_exponent g -> encoded k x (enc1 L g x).
Proof.
  intros Hk HL Hg Fx. pose proof u_val as Hu. destruct (unitc_val L x Fx) as [Fc Ec]. change (Rmin (Rmax (b2r x) 0) 1) with (unit_clamp (b2r x)). destruct (clamp_dec (b2r x)) as [C [EC HC]]. rewrite EC in *.
  unfold enc1. set (c := unitc L x) in *. clearbody c. cbv zeta. rewrite lt_lit; [|exact Fc|lia|rewrite lit_knee, Rabs_pos_eq; lra|rewrite lit_knee, v_knee; lra]. rewrite lit_knee, Ec.
  unfold srgb_encode. replace 0.0031308 with (31308/10000000) by lra. destruct (Rlt_bool_spec C (31308/10000000)) as [H|H].
  - destruct (enc_toe c Fc ltac:(lra)) as [F E]. split; [exact F|]. rewrite Ec in E. assert (u <= (11 / 10 * k + 5) * u) by nra. lra.
  - pose proof (enc_power L k g c Hk HL Hg Fc ltac:(lra)) as K. rewrite Ec in K. exact K.
Qed.
(** ** There and back *)
Lemma decode_low s : 4045/100000 < s -> 3130807/1000000000 <= Rpower ((s + 0.055) / 1.055) 2.4.
Proof.
  intros H. set (b := (s + 0.055) / 1.055). assert (B : 9047393364/100000000000 <= b) by (unfold b; lra). replace 2.4 with g24 by (unfold g24; lra).
  apply (PfExp.pow_le_inv _ _ 4); [apply exp_pos|lra|]. rewrite g24_eq, Rpower_ratio by (lra || lia). apply Rle_trans with ((9047393364 / 100000000000) ^ 12); [lra|apply pow_incr; lra].
Qed.
Lemma knee_curve l : 31308/10000000 <= l <= 313081/100000000 -> 404499/10000000 <= 1.055 * Rpower l (/ 2.4) - 0.055 <= 404501/10000000.
Proof.
  intros H. replace (/ 2.4) with (INR 5 / INR 12) by (cbn; lra). set (y := Rpower l (INR 5 / INR 12)). assert (Y : 0 < y) by apply exp_pos.
  assert (E : y ^ 12 = l ^ 5) by (apply Rpower_ratio; [lra|lia]).
  assert (A : l ^ 5 <= (313081/100000000) ^ 5) by (apply pow_incr; lra). assert (B : (31308/10000000) ^ 5 <= l ^ 5) by (apply pow_incr; lra).
  assert (y <= (404501/10000000 + 55/1000) * (1000/1055)) by (apply (PfExp.pow_le_inv _ _ 11); [lra|exact Y|]; rewrite E; lra).
  assert ((404499/10000000 + 55/1000) * (1000/1055) <= y) by (apply (PfExp.pow_le_inv _ _ 11); [exact Y|lra|]; rewrite E; lra). lra.
Qed.
Lemma back_near L k g s : 0 <= k <= 16 -> pow_accurate L k -> encoding_exponent g -> returned k s (enc1 L g (dec1 L s)).
Proof.
  intros Hk HL Hg [Fs Hs]. pose proof u_val as Hu. pose proof u_eq as UE. pose proof tiny_small as Ht. set (l := dec1 L s). set (S := b2r s) in *.
  assert (Q : finite l /\ Rabs (srgb_encode (unit_clamp (b2r l)) - S) <= (5/10 * k + 5) * u).
  { unfold l, dec1. rewrite le_lit; [|exact Fs|lia|rewrite lit_toe, Rabs_pos_eq; lra|rewrite lit_toe, v_toe; lra]. rewrite lit_toe. fold S. destruct (Rle_bool_spec S (4045/100000)) as [H|H].
    - destruct (dec_toe s Fs ltac:(fold S; lra)) as [F E]. fold S in E. split; [exact F|]. set (m := b2r (Bmult mode_NE s dk2)) in *. apply Rabs_le_inv in E.
      assert (R1 : 2 * u * (S / 12.92) <= u / 100) by nra. assert (5 * u <= (5/10 * k + 5) * u) by nra.
      assert (E0 : 0 <= m). { unfold m. destruct (w_mul 1 1 2 s dk2) as [_ EM]; try lia; [split; [exact Fs|fold S; rewrite Rabs_pos_eq by lra; cbn; lra]|split; [exact f_dk2|rewrite v_dk2, Rabs_pos_eq by lra; cbn; lra]|]. rewrite EM. apply rnd_pos. rewrite v_dk2. fold S. nra. }
      rewrite unit_clamp_in by lra. unfold srgb_encode. replace 0.0031308 with (31308/10000000) by lra. destruct (Rlt_bool_spec m (31308/10000000)) as [K|K].
      + apply Rabs_le. lra.
      + pose proof (knee_curve m) as KC. apply Rabs_le. rewrite UE in *. lra.
    - destruct (dec_power L k s Hk HL Fs ltac:(fold S; lra)) as [F E]. fold S in E. split; [exact F|]. set (m := b2r (l_pow L _ dg)) in *. clearbody m. set (b := (S + 0.055) / 1.055) in *.
      assert (Hb : 9/100 <= b <= 1) by (unfold b; lra). set (D := Rpower b 2.4) in *. assert (DL : 3130807/1000000000 <= D) by (now apply decode_low). assert (D1 : D <= 1) by (apply Rpower_le_1; lra).
      rewrite (Rabs_pos_eq D) in E by lra. apply Rabs_le_inv in E. assert (KU : 0 <= (k + 11) * u <= 27 * u) by nra.
      assert (X : exists d, Rabs d <= (k + 11) * u /\ unit_clamp m = D * (1 + d)).
      { exists ((unit_clamp m - D) / D). split; [|field; lra]. unfold Rdiv. rewrite Rabs_mult, (Rabs_pos_eq (/ D)) by (left; apply Rinv_0_lt_compat; lra).
        apply (Rmult_le_reg_r D); [lra|]. rewrite Rmult_assoc, Rinv_l, Rmult_1_r by lra. apply Rabs_le.
        destruct (Rle_or_lt m 1) as [M1|M1]; [rewrite unit_clamp_in by (split; [nra|lra]); lra|rewrite unit_clamp_hi by lra; lra]. }
      destruct X as (d & Hd & EX). assert (Hd' := Rabs_le_inv _ _ Hd). rewrite EX. unfold srgb_encode. rewrite Rlt_bool_false by (rewrite UE in *; nra).
      rewrite <- Rpower_mult_distr by lra. unfold D. rewrite Rpower_mult. replace (2.4 * / 2.4) with 1 by lra. rewrite Rpower_1 by lra.
      pose proof (pow_base d (/ 2.4) ltac:(lra) ltac:(lra)) as PB. set (w := Rpower (1 + d) (/ 2.4)) in *. apply Rabs_le_inv in PB. pose proof (Rabs_pos d) as P0.
      replace (1.055 * (b * w) - 0.055 - S) with (1.055 * (b * (w - 1))) by (unfold b; lra).
      assert (W1 : Rabs (w - 1) <= 421/1000 * Rabs d) by (apply Rabs_le; lra). rewrite Rabs_mult, (Rabs_pos_eq 1.055), Rabs_mult, (Rabs_pos_eq b) by lra. pose proof (Rabs_pos (w - 1)). nra. }
  destruct Q as [Fl Q]. destruct (enc_near L k g l Hk HL Hg Fl) as [F E]. split; [exact F|]. change (Rmin (Rmax (b2r l) 0) 1) with (unit_clamp (b2r l)) in E. fold S.
  replace (b2r (enc1 L g l) - S) with ((b2r (enc1 L g l) - srgb_encode (unit_clamp (b2r l))) + (srgb_encode (unit_clamp (b2r l)) - S)) by ring. eapply Rle_trans; [apply Rabs_triang|]. lra.
Qed.
(** ** Quantized channels *)
Lemma level_near a m : (1 <= m <= 65535)%Z -> (0 <= a <= m)%Z -> let s := Bdiv mode_NE (f32_ofZ a) (f32_ofZ m) in between 0 1 s /\ Rabs (b2r s - IZR a / IZR m) <= u + tiny.
Proof.
  intros Hm Ha s. assert (FA : finite (f32_ofZ a)) by (rewrite ofZ_lit; apply lit_finite, Z.leb_le; lia). assert (FM : finite (f32_ofZ m)) by (rewrite ofZ_lit; apply lit_finite, Z.leb_le; lia).
  assert (VA : b2r (f32_ofZ a) = IZR a) by (apply ofZ_exact, Z.leb_le; lia). assert (VM : b2r (f32_ofZ m) = IZR m) by (apply ofZ_exact, Z.leb_le; lia).
  pose proof (IZR_le _ _ (proj1 Hm)) as M1. pose proof (IZR_le _ _ (proj1 Ha)) as A0. pose proof (IZR_le _ _ (proj2 Ha)) as A1.
  assert (Q : 0 <= IZR a / IZR m <= 1). { split; [apply Rmult_le_pos; [lra|left; apply Rinv_0_lt_compat; lra]|]. apply (Rmult_le_reg_r (IZR m)); [lra|]. unfold Rdiv. rewrite Rmult_assoc, Rinv_l by lra. lra. }
  assert (R : 0 <= rnd (IZR a / IZR m) <= 1) by (split; [apply rnd_pos; lra|apply rnd_le_fmt; [apply fmt_1|lra]]).
  destruct (div_ok (f32_ofZ a) (f32_ofZ m) FA FM) as [F E]; rewrite ?VA, ?VM; [lra|rewrite Rabs_pos_eq by lra; apply Rle_lt_trans with 1; [lra|change 1 with (p2 0); apply big_p2; lia]|].
  rewrite VA, VM in E. fold s in F, E. split; [split; [exact F|rewrite E; exact R]|]. rewrite E. pose proof (rnd_err_t (IZR a / IZR m) 1 ltac:(rewrite Rabs_pos_eq; lra)). lra.
Qed.
Lemma level_back L k g a m : 0 <= k <= 16 -> pow_accurate L k -> encoding_exponent g -> (1 <= m <= 65535)%Z -> (0 <= a <= m)%Z ->
  b2r (round_f (F32 L) (Bmult mode_NE (enc1 L g (dec1 L (Bdiv mode_NE (f32_ofZ a) (f32_ofZ m)))) (f32_ofZ m))) = IZR a.
Proof.
  intros Hk HL Hg Hm Ha. destruct (level_near a m Hm Ha) as [Hs Es]. set (s := Bdiv mode_NE (f32_ofZ a) (f32_ofZ m)) in *. destruct (back_near L k g s Hk HL Hg Hs) as [Fr Er].
  set (r := enc1 L g (dec1 L s)) in *. clearbody r. pose proof u_val as Hu. pose proof u_eq as UE. pose proof tiny_small as Ht. destruct Hs as [Fs Hs].
  assert (FM : finite (f32_ofZ m)) by (rewrite ofZ_lit; apply lit_finite, Z.leb_le; lia). assert (VM : b2r (f32_ofZ m) = IZR m) by (apply ofZ_exact, Z.leb_le; lia).
  pose proof (IZR_le _ _ (proj1 Hm)) as M1. pose proof (IZR_le _ _ (proj2 Hm)) as M2. assert (K36 : (16/10 * k + 10) * u <= 36 * u) by nra.
  apply Rabs_le_inv in Er, Es. assert (BR : - 1 <= b2r r <= 2) by lra.
  assert (WR : within 1 r) by (split; [exact Fr|apply Rabs_le; cbn; lra]). assert (WM : within 16 (f32_ofZ m)) by (split; [exact FM|rewrite VM, Rabs_pos_eq by lra; cbn; lra]).
  destruct (w_mul 1 16 17 _ _ WR WM) as [[F _] E]; try lia. destruct (C18_round_pf L _ F) as (n & _ & En & Kn & _). rewrite En. f_equal. rewrite E, VM in Kn.
  pose proof (rnd_err_t (b2r r * IZR m) (2 * 65535) ltac:(apply Rabs_le; nra)) as R. apply Rabs_le_inv in R, Kn.
  assert (A : - (38 * u) * 65535 <= b2r r * IZR m - IZR a <= 38 * u * 65535).
  { replace (b2r r * IZR m - IZR a) with ((b2r r - IZR a / IZR m) * IZR m) by (field; lra). assert (X : - (38 * u) <= b2r r - IZR a / IZR m <= 38 * u) by lra. nra. }
  rewrite UE in *. assert (P : -1 < IZR (n - a) < 1) by (rewrite minus_IZR; lra). destruct P as [P1 P2]. apply lt_IZR in P1, P2. lia.
Qed.
(** ** The polynomial in square roots *)
Definition fast1 (x : f32) : f32 := let s1 := Bsqrt mode_NE x in let s2 := Bsqrt mode_NE s1 in let s3 := Bsqrt mode_NE s2 in
  Bminus mode_NE (Bminus mode_NE (Bplus mode_NE (Bmult mode_NE (f32_lit 662002687 (-9)) s1) (Bmult mode_NE (f32_lit 684122060 (-9)) s2)) (Bmult mode_NE (f32_lit 323583601 (-9)) s3)) (Bmult mode_NE (f32_lit 225411470 (-10)) x).
Lemma fast_shape L v : l3 (linearToSRGB3 (F32 L) v) = map fast1 (l3 v).
Proof. destruct v as [a b c]. reflexivity. Qed.
Lemma root_near i x X : 0 <= i <= 8 -> finite x -> 0 <= X <= 1 -> (exists d, Rabs d <= i * u /\ b2r x = X * (1 + d)) ->
  finite (Bsqrt mode_NE x) /\ exists d, Rabs d <= (i + 101/100) * u /\ b2r (Bsqrt mode_NE x) = sqrt X * (1 + d).
Proof.
  intros Hi Fx HX (d & Hd & E). pose proof u_val as Hu. assert (Hd' := Rabs_le_inv _ _ Hd). assert (KU : i * u <= 8 * u) by nra.
  destruct (finite_sqrt x Fx ltac:(rewrite E; nra)) as [F (e & He & Es)]. split; [exact F|]. rewrite u32_u in He. exists ((1 + (sqrt (1 + d) - 1)) * (1 + e) - 1). split.
  - replace (i + 101/100) with (i + 1 + / 100) by lra. eapply Rle_trans; [apply (factors _ _ i 1); [lra|lra| |lra]|nra].
    eapply Rle_trans; [|exact Hd]. pose proof (sqrt_pos (1 + d)) as P. pose proof (sqrt_sqrt (1 + d) ltac:(lra)) as Q. set (w := sqrt (1 + d)) in *.
    replace d with ((w - 1) * (w + 1)) by lra. rewrite Rabs_mult, (Rabs_pos_eq (w + 1)) by lra. pose proof (Rabs_pos (w - 1)). nra.
  - rewrite Es, E, sqrt_mult by lra. ring.
Qed.
Lemma root_unit X : 0 <= X <= 1 -> 0 <= sqrt X <= 1.
Proof. intros H. split; [apply sqrt_pos|]. rewrite <- sqrt_1. apply sqrt_le_1_alt. lra. Qed.
Lemma root_ab i x X : 0 <= X <= 1 -> finite x -> (exists d, Rabs d <= i * u /\ b2r x = X * (1 + d)) -> ab (i * u) x X.
Proof. intros HX F (d & Hd & E). split; [exact F|]. rewrite E. replace (X * (1 + d) - X) with (X * d) by ring. rewrite Rabs_mult, (Rabs_pos_eq X) by lra. pose proof (Rabs_pos d). nra. Qed.
Lemma term_near i c v x X : 0 <= v <= 1 -> 0 <= i <= 8 -> ab (1/2 * u) c v -> 0 <= X <= 1 -> ab (i * u) x X -> ab ((v * i + 501/1000) * u + u * (v + / 1000) + tiny) (Bmult mode_NE c x) (v * X).
Proof.
  intros Hv Hi HC HX Hx. pose proof u_val as Hu. assert (A1 : 1 / 2 * u * X <= 1 / 2 * u) by nra.
  assert (A2 : 1 / 2 * u * (i * u) <= / 1000 * u) by (assert (i * u <= / 1000) by nra; nra). assert (A3 : v * X <= v) by nra. assert (A4 : v * i <= 8) by nra. assert (A5 : 0 <= v * i) by nra.
  apply (ab_mul _ _ _ _ _ _ _ _ HC Hx); rewrite ?(Rabs_pos_eq (v * X)) by nra; rewrite ?(Rabs_pos_eq v), ?(Rabs_pos_eq X) by lra; try lra; nra.
Qed.
Lemma fast_near x : between 0 1 x -> ab (12 * u) (fast1 x) (approx (b2r x)).
Proof.
  intros [Fx Hx]. pose proof u_val as Hu. pose proof u_eq as UE. pose proof tiny_small as Ht. set (X := b2r x) in *.
  assert (R0 : exists d, Rabs d <= 0 * u /\ b2r x = X * (1 + d)) by (exists 0; rewrite Rabs_R0; split; [lra|fold X; ring]).
  destruct (root_near 0 x X ltac:(lra) Fx Hx R0) as [F1 R1]. pose proof (root_unit X Hx) as H1.
  destruct (root_near (0 + 101/100) _ _ ltac:(lra) F1 H1 R1) as [F2 R2]. pose proof (root_unit _ H1) as H2. destruct (root_near (0 + 101/100 + 101/100) _ _ ltac:(lra) F2 H2 R2) as [F3 R3]. pose proof (root_unit _ H2) as H3.
  apply root_ab in R0; trivial. apply root_ab in R1; trivial. apply root_ab in R2; trivial. apply root_ab in R3; trivial.
  assert (C1 : ab (1/2 * u) (f32_lit 662002687 (-9)) (662002687 / 1000000000)) by (split; [reflexivity|replace (b2r (f32_lit 662002687 (-9))) with (5553281/8388608) by (unfold f32_lit; vm_compute; lra); rewrite UE; apply Rabs_le; lra]).
  assert (C2 : ab (1/2 * u) (f32_lit 684122060 (-9)) (684122060 / 1000000000)) by (split; [reflexivity|replace (b2r (f32_lit 684122060 (-9))) with (358677/524288) by (unfold f32_lit; vm_compute; lra); rewrite UE; apply Rabs_le; lra]).
  assert (C3 : ab (1/2 * u) (f32_lit 323583601 (-9)) (323583601 / 1000000000)) by (split; [reflexivity|replace (b2r (f32_lit 323583601 (-9))) with (169651/524288) by (unfold f32_lit; vm_compute; lra); rewrite UE; apply Rabs_le; lra]).
  assert (C4 : ab (1/2 * u) (f32_lit 225411470 (-10)) (225411470 / 10000000000)) by (split; [reflexivity|replace (b2r (f32_lit 225411470 (-10))) with (6050843/268435456) by (unfold f32_lit; vm_compute; lra); rewrite UE; apply Rabs_le; lra]).
  unfold fast1, approx. cbv zeta. revert C1 C2 C3 C4. generalize (f32_lit 662002687 (-9)) (f32_lit 684122060 (-9)) (f32_lit 323583601 (-9)) (f32_lit 225411470 (-10)). intros c1 c2 c3 c4 C1 C2 C3 C4.
  set (Y1 := sqrt X) in *. set (Y2 := sqrt Y1) in *. set (Y3 := sqrt Y2) in *. set (y1 := Bsqrt mode_NE x) in *. set (y2 := Bsqrt mode_NE y1) in *. set (y3 := Bsqrt mode_NE y2) in *. clearbody Y1 Y2 Y3 y1 y2 y3.
  apply (term_near (0 + 101/100) c1 (662002687 / 1000000000) y1 Y1) in R1; [|lra|lra|exact C1|exact H1]. apply (term_near (0 + 101/100 + 101/100) c2 (684122060 / 1000000000) y2 Y2) in R2; [|lra|lra|exact C2|exact H2].
  apply (term_near (0 + 101/100 + 101/100 + 101/100) c3 (323583601 / 1000000000) y3 Y3) in R3; [|lra|lra|exact C3|exact H3]. apply (term_near 0 c4 (225411470 / 10000000000) x X) in R0; [|lra|lra|exact C4|exact Hx].
  apply (ab_weak _ (184/100 * u)) in R1; [|lra]. apply (ab_weak _ (258/100 * u)) in R2; [|lra]. apply (ab_weak _ (181/100 * u)) in R3; [|lra]. apply (ab_weak _ (53/100 * u)) in R0; [|lra].
  assert (S1 : ab (184/100 * u + 258/100 * u + u * (135/100) + tiny) (Bplus mode_NE (Bmult mode_NE c1 y1) (Bmult mode_NE c2 y2)) (662002687 / 1000000000 * Y1 + 684122060 / 1000000000 * Y2)).
  { apply (ab_add _ _ _ _ _ _ _ R1 R2); try (rewrite Rabs_pos_eq by lra); lra. }
  assert (S2 : ab (184/100 * u + 258/100 * u + u * (135/100) + tiny + 181/100 * u + u * (135/100) + tiny) (Bminus mode_NE (Bplus mode_NE (Bmult mode_NE c1 y1) (Bmult mode_NE c2 y2)) (Bmult mode_NE c3 y3)) (662002687 / 1000000000 * Y1 + 684122060 / 1000000000 * Y2 - 323583601 / 1000000000 * Y3)).
  { apply (ab_sub _ _ _ _ _ _ _ S1 R3); try (rewrite Rabs_pos_eq by lra); try lra. assert (Rabs (662002687 / 1000000000 * Y1 + 684122060 / 1000000000 * Y2 - 323583601 / 1000000000 * Y3) <= 1347/1000) by (apply Rabs_le; lra). lra. }
  assert (S3 := ab_sub _ _ _ _ _ _ (138/100) S2 R0). eapply ab_weak; [|apply S3]; try lra; try (apply Rabs_le; lra).
  assert (Rabs (662002687 / 1000000000 * Y1 + 684122060 / 1000000000 * Y2 - 323583601 / 1000000000 * Y3 - 225411470 / 10000000000 * X) <= 1379/1000) by (apply Rabs_le; lra). lra.
Qed.

(** ** The properties *)
Lemma Forall2_map_all (P : f32 -> f32 -> Prop) f l : (forall x, P x (f x)) -> Forall2 P l (map f l).
Proof. intros H. induction l as [|x l IH]; constructor; [apply H|exact IH]. Qed.
(** convertSRGBToLinear is, channel by channel, within k + 11 half-ulps (relatively) of the standard decoding, where powf is accurate to k half-ulps. *)
Lemma C94_decode_pf : forall (L : Libm) k, 0 <= k <= 16 -> pow_accurate L k ->
  (forall v, Forall2 (decoded k) (l3 v) (l3 (sRGBToLinear3 (F32 L) v))) /\
  (forall v, Forall2 (decoded k) (l3 (rgb4 (F32 L) v)) (l3 (rgb4 (F32 L) (sRGBToLinear4 (F32 L) v))) /\ w4 (sRGBToLinear4 (F32 L) v) = w4 v).
Proof.
  intros L k Hk HL. assert (A : forall v, Forall2 (decoded k) (l3 v) (l3 (sRGBToLinear3 (F32 L) v))) by (intros v; rewrite dec_shape; apply Forall2_map_all; intros x; now apply dec_near).
  split; [exact A|]. intros v. split; [|reflexivity]. exact (A (rgb4 (F32 L) v)).
Qed.
(** convertLinearToSRGB with the exponent 1/2.4 is within 1.1k + 5 half-ulps of 1 of the standard encoding of the colour clamped to [0, 1]. *)
Lemma C94_encode_pf : forall (L : Libm) k g, 0 <= k <= 16 -> pow_accurate L k -> encoding_exponent g ->
  (forall v, Forall2 (encoded k) (l3 v) (l3 (linearToSRGB3_g (F32 L) v g))) /\
  (forall v, Forall2 (encoded k) (l3 (rgb4 (F32 L) v)) (l3 (rgb4 (F32 L) (linearToSRGB4_g (F32 L) v g))) /\ w4 (linearToSRGB4_g (F32 L) v g) = w4 v).
Proof.
  intros L k g Hk HL Hg. assert (A : forall v, Forall2 (encoded k) (l3 v) (l3 (linearToSRGB3_g (F32 L) v g))) by (intros v; rewrite enc_shape; apply Forall2_map_all; intros x; now apply enc_near).
  split; [exact A|]. intros v. split; [|reflexivity]. exact (A (rgb4 (F32 L) v)).
Qed.
(** From sRGB to linear and back a channel in [0, 1] returns within 1.6k + 10 half-ulps of 1, the two thresholds included. *)
Lemma C94_roundtrip_pf : forall (L : Libm) k g v, 0 <= k <= 16 -> pow_accurate L k -> encoding_exponent g ->
  Forall2 (returned k) (l3 v) (l3 (linearToSRGB3_g (F32 L) (sRGBToLinear3 (F32 L) v) g)).
Proof. intros L k g v Hk HL Hg. rewrite enc_shape, dec_shape, map_map. apply (Forall2_map_all (returned k) (fun x => enc1 L g (dec1 L x))). intros x. now apply back_near. Qed.
(** Images with up to 65536 levels per channel survive: dividing by the largest level, decoding, encoding, multiplying and rounding gives back every level exactly. *)
Lemma C94_lossless_pf : forall (L : Libm) k g m a b c, 0 <= k <= 16 -> pow_accurate L k -> encoding_exponent g ->
  (1 <= m <= 65535)%Z -> (0 <= a <= m)%Z -> (0 <= b <= m)%Z -> (0 <= c <= m)%Z ->
  let levels := V3 (f32_ofZ a) (f32_ofZ b) (f32_ofZ c) in
  let linear := sRGBToLinear3 (F32 L) (vec3_div_sc (F32 L) levels (f32_ofZ m)) in
  vals (l3 (round3 (F32 L) (vec3_mul_sc (F32 L) (linearToSRGB3_g (F32 L) linear g) (f32_ofZ m)))) = [IZR a; IZR b; IZR c].
Proof.
  intros L k g m a b c Hk HL Hg Hm Ha Hb Hc levels linear.
  set (back := fun x : f32 => b2r (round_f (F32 L) (Bmult mode_NE x (f32_ofZ m)))).
  assert (E : forall v : vec3 f32, vals (l3 (round3 (F32 L) (vec3_mul_sc (F32 L) v (f32_ofZ m)))) = map back (l3 v)) by (intros []; reflexivity).
  eapply eq_trans; [exact (E _)|]. eapply eq_trans; [exact (f_equal (map back) (enc_shape L linear g))|]. unfold linear. eapply eq_trans; [exact (f_equal (fun l => map back (map (enc1 L g) l)) (dec_shape L _))|].
  change (l3 (vec3_div_sc (F32 L) levels (f32_ofZ m))) with [Bdiv mode_NE (f32_ofZ a) (f32_ofZ m); Bdiv mode_NE (f32_ofZ b) (f32_ofZ m); Bdiv mode_NE (f32_ofZ c) (f32_ofZ m)].
  cbn [map]. unfold back. rewrite !(level_back L k g) by assumption. reflexivity.
Qed.
(** The overload without exponent is within 12 half-ulps of 1 of its value in exact arithmetic, hence within 0.00101 of the standard encoding on [0.0031308, 1]. *)
Lemma C94_fast_pf : forall (L : Libm) (v : vec3 f32), Forall2 (fun x c => between 0 1 x ->
    finite c /\ Rabs (b2r c - x3 (linearToSRGB3 RS (V3 (b2r x) 0 0))) <= 12 * ulp_half /\
    (0.0031308 <= b2r x -> Rabs (b2r c - srgb_encode (b2r x)) <= 0.00101)) (l3 v) (l3 (linearToSRGB3 (F32 L) v)).
Proof.
  intros L v. rewrite fast_shape. apply Forall2_map_all. intros x Hx. destruct (fast_near x Hx) as [F K]. split; [exact F|].
  assert (E : x3 (linearToSRGB3 RS (V3 (b2r x) 0 0)) = approx (b2r x)) by reflexivity.
  split; [rewrite E; exact K|]. intros HX. destruct (C73_approximation_pf (V3 (b2r x) 0 0) 0 (le_S _ _ (le_S _ _ (le_n 1)))) as [A _]. cbv zeta in A. cbn [nth l3 x3] in A.
  specialize (A ltac:(destruct Hx; lra)). change (Rabs (approx (b2r x) - srgb_encode (b2r x)) <= 0.001) in A. pose proof u_eq as UE. rewrite UE in K. apply Rabs_le_inv in A, K. apply Rabs_le. lra.
Qed.
Lemma nearest_pow x y : / 1024 <= x <= 2 -> / 4 <= y <= 4 -> in_range (Rpower x y).
Proof.
  intros Hx Hy. right. rewrite Rabs_pos_eq by (left; apply exp_pos). unfold Rpower.
  pose proof (ln_upper x ltac:(lra)) as A. pose proof (ln_lower (x * 1024) ltac:(lra)) as B. rewrite ln_mult in B by lra.
  assert (L2 : ln 1024 = 10 * ln 2) by (replace 1024 with (2 ^ 10) by (cbn; lra); rewrite <- Rpower_pow by lra; unfold Rpower; rewrite ln_exp; f_equal; cbn; lra).
  assert (0 < ln 2 <= 1) by (split; [rewrite <- ln_1; apply ln_increasing; lra|pose proof (ln_upper 2 ltac:(lra)); lra]).
  assert (/ (x * 1024) <= 1) by (rewrite <- Rinv_1; apply Rinv_le_contravar; lra).
  assert (G : forall t, - (83 * ln 2) <= t <= 83 * ln 2 -> / IZR (2 ^ 120) <= exp t <= IZR (2 ^ 120)).
  { intros t Ht. assert (E : exp (83 * ln 2) = IZR (2 ^ 83)). { change (Rpower 2 83 = IZR (2 ^ 83)). replace 83 with (INR 83) by (rewrite INR_IZR_INZ; reflexivity). rewrite Rpower_pow by lra. rewrite pow_IZR. f_equal. }
    assert (M : IZR (2 ^ 83) <= IZR (2 ^ 120)) by (apply IZR_le; discriminate). assert (P : 0 < IZR (2 ^ 83)) by (apply (IZR_lt 0); reflexivity). split.
    - apply Rle_trans with (/ IZR (2 ^ 83)); [apply Rinv_le_contravar; assumption|]. rewrite <- E, <- exp_Ropp. destruct (Rle_lt_or_eq_dec (- (83 * ln 2)) t (proj1 Ht)) as [K|K]; [left; now apply exp_increasing|right; now rewrite K].
    - apply Rle_trans with (IZR (2 ^ 83)); [|exact M]. rewrite <- E. destruct (Rle_lt_or_eq_dec t (83 * ln 2) (proj2 Ht)) as [K|K]; [left; now apply exp_increasing|right; now rewrite K]. }
  apply G. assert (LX : - (10 * ln 2) <= ln x <= 1) by lra. assert (LN2 : 7/100 <= ln 2) by (pose proof (ln_lower 2 ltac:(lra)); lra). split; nra.
Qed.
(*PROPS
(** a C library whose powf returns the nearest binary32 number meets the hypothesis with k = 1; the quotient 1.0f/2.4f is a valid exponent *)
Example C94_rounded_library : forall L0 : Libm, exists L, pow_accurate L 1 /\ l_sin L = l_sin L0.
Proof.
  intros L0. exists (mkLibm (l_cos L0) (l_sin L0) (l_tan L0) (l_acos L0) (l_asin L0) (l_atan L0) (l_atan2 L0)
    (l_cosh L0) (l_sinh L0) (l_tanh L0) (l_acosh L0) (l_asinh L0) (l_atanh L0) (fun x y => nearest (Rpower (b2r x) (b2r y))) (l_exp L0) (l_log L0) (l_log2 L0) (l_cbrt L0)).
  split; [|reflexivity]. intros x y [_ Hx] [_ Hy]. apply nearest_close. now apply nearest_pow.
Qed.
Example C94_exponent : encoding_exponent (Bdiv mode_NE (f32_lit 1 0) (f32_lit 24 (-1))).
Proof. split; [vm_compute; reflexivity|]. replace (b2r (Bdiv mode_NE (f32_lit 1 0) (f32_lit 24 (-1)))) with (13981013/33554432) by (vm_compute; lra). apply Rabs_le. unfold ulp_half. lra. Qed.
PROPS*)
