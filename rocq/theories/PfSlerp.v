(** * Proofs: accuracy of spherical interpolation *)
From Coq Require Import ZArith Bool Reals List Lra Lia.
From Flocq Require Import Core IEEE754.BinarySingleNaN.
From Verif Require Import Scalar IEEE32 RealInst Types Outcome Spec SpecR SpecMat SpecGeo SpecF32 SpecErr SpecOrd SpecDom SpecAcc SpecProj SpecSlerp FloatBasics FloatOps
  ModelVec ModelCommon ModelExp ModelTrig ModelGeom ModelMat ModelMatrix ModelQuat ModelQuaternion ModelConst ErrLib OvfLib F32Tac RealTac.
Import ListNotations.
Local Open Scope R_scope.
(*HEADER END*)
From Coq Require Import Psatz.
From Verif Require Import FloatAlg NumLib PfErr PfOvf PfLen ScaleLib LenLib MonoLib DomLib PfDomain PfInterp PfQuatAcc SlerpLib MatTac RelLib.

(** ** Reals *)
Lemma sin_lip p q : Rabs (sin p - sin q) <= Rabs (p - q).
Proof.
  assert (M : forall p q, p < q -> Rabs (sin p - sin q) <= Rabs (p - q)).
  { clear. intros p q H. destruct (MVT_cor2 sin cos p q H) as (c & E & _); [intros; apply derivable_pt_lim_sin|].
    replace (sin p - sin q) with (cos c * (p - q)) by lra. rewrite Rabs_mult. rewrite <- (Rmult_1_l (Rabs (p - q))) at 2.
    apply Rmult_le_compat_r; [apply Rabs_pos|]. apply Rabs_le, COS_bound. }
  destruct (Rtotal_order p q) as [H|[->|H]]; [now apply M|rewrite !Rminus_diag_eq, Rabs_R0 by reflexivity; lra|].
  rewrite Rabs_minus_sym, (Rabs_minus_sym p). now apply M.
Qed.
(** the error of a computed numerator sin(s a), relative to sin a *)
Definition num_err (k s : R) : R := (10 / 6 * ((k + 21/10) * s + / 1000) + 1001/1000 * k) * u.
Lemma numerator k s a p S : 0 <= k <= 16 -> 0 <= s <= 1 -> 0 < a <= PI / 2 ->
  Rabs (p - s * a) <= a * (((k + 21/10) * s + / 1000) * u) -> Rabs (S - sin p) <= k * u * Rabs (sin p) ->
  Rabs (S - sin (s * a)) <= num_err k s * sin a.
Proof.
  intros Hk Hs Ha Hp HS. pose proof u_val as U. pose proof (sin_pos a Ha) as P. pose proof (sin_above a ltac:(lra)) as SA.
  set (E := ((k + 21/10) * s + / 1000) * u) in *. assert (PE : 0 <= E <= / 10000).
  { unfold E. assert (0 <= (k + 21/10) * s <= 19) by (split; nra). split; nra. }
  assert (A1 : Rabs (p - s * a) <= 10 / 6 * E * sin a) by (eapply Rle_trans; [exact Hp|nra]).
  pose proof (sin_lip p (s * a)) as A2.
  assert (A3 : 0 <= sin (s * a) <= sin a).
  { pose proof (wt_1 s Hs a Ha) as [W1 W2]. unfold wt in *. assert (X : sin (s * a) = sin (s * a) / sin a * sin a) by (field; lra). split; [rewrite X; apply Rmult_le_pos; lra|].
    rewrite X. rewrite <- (Rmult_1_l (sin a)) at 3. apply Rmult_le_compat_r; lra. }
  assert (A4 : Rabs (sin p) <= (1 + / 1000) * sin a).
  { replace (sin p) with ((sin p - sin (s * a)) + sin (s * a)) by ring. eapply Rle_trans; [apply Rabs_triang|]. rewrite (Rabs_pos_eq (sin (s * a))) by lra. nra. }
  assert (A5 : Rabs (S - sin p) <= k * u * ((1 + / 1000) * sin a)) by (eapply Rle_trans; [exact HS|]; apply Rmult_le_compat_l; nra).
  replace (S - sin (s * a)) with ((S - sin p) + (sin p - sin (s * a))) by ring. eapply Rle_trans; [apply Rabs_triang|].
  unfold num_err. fold E. unfold E in *. lra.
Qed.
Lemma quotient s a S D e r : 0 <= s <= 1 -> 0 < a <= PI / 2 -> 0 <= e -> 0 <= r <= / 10000 ->
  Rabs (S - sin (s * a)) <= e * sin a -> Rabs (D - sin a) <= r * sin a ->
  0 < D /\ Rabs (S / D - wt s a) <= 1001/1000 * (e + r).
Proof.
  intros Hs Ha He Hr HS HD. pose proof (sin_pos a Ha) as P. pose proof (wt_1 s Hs a Ha) as W. apply Rabs_le_inv in HD.
  assert (PD : (1 - / 10000) * sin a <= D) by nra. assert (D0 : 0 < D) by nra. split; [exact D0|].
  replace (S / D - wt s a) with (((S - sin (s * a)) - wt s a * (D - sin a)) / D) by (unfold wt; field; lra).
  unfold Rdiv. rewrite Rabs_mult, (Rabs_pos_eq (/ D)) by (left; now apply Rinv_0_lt_compat).
  apply (Rmult_le_reg_r D); [exact D0|]. rewrite Rmult_assoc, Rinv_l, Rmult_1_r by lra.
  eapply Rle_trans; [apply Rabs_triang|]. rewrite Rabs_Ropp, Rabs_mult, (Rabs_pos_eq (wt s a)) by lra.
  assert (Rabs (D - sin a) <= r * sin a) by (apply Rabs_le; lra). pose proof (Rabs_pos (D - sin a)).
  assert (wt s a * Rabs (D - sin a) <= r * sin a) by nra.
  apply Rle_trans with ((e + r) * sin a); [lra|]. apply Rle_trans with ((e + r) * (1001/1000 * D)); [|lra]. apply Rmult_le_compat_l; lra.
Qed.

(** the ideal weight, with the linear branch *)
Definition ideal (s C : R) : R := if Rlt_bool (1 - / 8388608) C then s else wt s (acos C).
Lemma acos_range c : 0 <= c < 1 -> 0 < acos c <= PI / 2 /\ cos (acos c) = c.
Proof.
  intros H. assert (Cc : cos (acos c) = c) by (apply cos_acos; lra). pose proof (acos_bound c).
  split; [|exact Cc]. split.
  - destruct (Req_dec (acos c) 0) as [Z|Z]; [|lra]. rewrite Z, cos_0 in Cc. lra.
  - destruct (Rle_or_lt (acos c) (PI / 2)) as [?|G]; [assumption|exfalso]. assert (cos (acos c) < 0) by (apply cos_lt_0; lra). lra.
Qed.
Lemma ideal_near s c C e : 0 <= s <= 1 -> 0 <= c -> 0 <= C <= 1 -> Rabs (c - C) <= e -> Rabs (ideal s c - ideal s C) <= 6/10 * (e + / 8388608).
Proof.
  intros Hs Hc HC He. pose proof (Rabs_pos (c - C)) as P. pose proof (Rabs_le_inv _ _ He) as He'. unfold ideal.
  destruct (Rlt_bool_spec (1 - / 8388608) c) as [A|A]; destruct (Rlt_bool_spec (1 - / 8388608) C) as [B|B].
  - rewrite Rminus_diag_eq, Rabs_R0 by reflexivity. lra.
  - destruct (acos_range C ltac:(lra)) as [R1 R2]. pose proof (wt_ge s Hs _ R1). pose proof (wt_le s Hs _ R1) as K. rewrite R2 in K. rewrite Rabs_left1; lra.
  - destruct (acos_range c ltac:(lra)) as [R1 R2]. pose proof (wt_ge s Hs _ R1). pose proof (wt_le s Hs _ R1) as K. rewrite R2 in K. rewrite Rabs_pos_eq; lra.
  - destruct (acos_range c ltac:(lra)) as [R1 R2]. destruct (acos_range C ltac:(lra)) as [R3 R4]. pose proof (wt_lip s Hs _ _ R1 R3) as K. rewrite R2, R4 in K. lra.
Qed.
Lemma ideal_01 s C : 0 <= s <= 1 -> 0 <= C -> 0 <= ideal s C <= 1.
Proof.
  intros Hs HC. unfold ideal. destruct (Rlt_bool_spec (1 - / 8388608) C) as [A|A]; [lra|]. destruct (acos_range C ltac:(lra)) as [R1 R2]. now apply wt_1.
Qed.
Lemma slerp_ideal X Y (t : R) : let Z := slerp_to X Y in let C := Rabs (dotq X Y) in let g p q := ideal (1 - t) C * p + ideal t C * q in
  lq (slerp RS X Y t) = [g (qx X) (qx Z); g (qy X) (qy Z); g (qz X) (qz Z); g (qw X) (qw Z)].
Proof.
  cbv zeta. rewrite slerp_eq. cbv zeta. unfold ideal, wt. generalize (slerp_to X Y) (Rabs (dotq X Y)). intros Z C. destruct (Rlt_bool (1 - / 8388608) C).
  - clear. vdestruct. ms. repeat (apply f_equal2; [ring|]). reflexivity.
  - generalize (sin ((1 - t) * acos C)) (sin (t * acos C)) (sin (acos C)). clear. intros. vdestruct. ms. repeat (apply f_equal2; [unfold Rdiv; ring|]). reflexivity.
Qed.

(** ** Binary32 *)
Lemma eta_tiny2 : 0 < eta32 <= u / 1000 / 40960.
Proof.
  split; [apply bpow_gt_0|]. rewrite <- u32_u. unfold eta32, u32. change (-150)%Z with (-24 + -126)%Z. rewrite bpow_plus.
  pose proof (bpow_gt_0 radix2 (-24)). assert (bpow radix2 (-126) <= bpow radix2 (-26)) by (apply bpow_le; lia).
  change (bpow radix2 (-26)) with (/ 67108864) in *. nra.
Qed.
Lemma one_minus (t : f32) : between 0 1 t -> between 0 1 (Bminus mode_NE (f32_lit 1 0) t) /\
  exists e, Rabs e <= u /\ b2r (Bminus mode_NE (f32_lit 1 0) t) = (1 - b2r t) * (1 + e).
Proof.
  intros [F B]. assert (Wt : within 0 t) by (split; [exact F|]; rewrite Rabs_pos_eq by lra; cbn; lra).
  destruct (w_sub 0 0 1 _ _ w_1 Wt) as [W E]; try lia. rewrite b2r_lit1 in E. split.
  - split; [apply W|]. rewrite E. split; [apply rnd_pos; lra|apply rnd_le_fmt; [apply fmt_1|lra]].
  - rewrite E. destruct (rnd_plus_error (f32_lit 1 0) (Bopp t)) as (e & He & K). rewrite b2r_lit1, Bopp_b2r in K. exists e. split; [exact He|exact K].
Qed.
Lemma prod3 a b c k : 0 <= k <= 16 -> Rabs a <= k * u -> Rabs b <= u -> Rabs c <= u -> Rabs ((1 + a) * (1 + b) * (1 + c) - 1) <= (k + 21/10) * u.
Proof.
  intros Hk Ha Hb Hc. pose proof u_val as U. apply Rabs_le_inv in Ha, Hb, Hc.
  assert (AB : - (16 * u * u) <= a * b <= 16 * u * u) by (pose proof (prod_bound a b (k * u) u Ha Hb); nra).
  assert (AC : - (16 * u * u) <= a * c <= 16 * u * u) by (pose proof (prod_bound a c (k * u) u Ha Hc); nra).
  assert (BC : - (u * u) <= b * c <= u * u) by now apply prod_bound.
  assert (ABC : - (16 * u * u * u) <= a * b * c <= 16 * u * u * u) by now apply prod_bound.
  apply Rabs_le. replace ((1 + a) * (1 + b) * (1 + c) - 1) with (a + b + c + a * b + a * c + b * c + a * b * c) by ring.
  assert (0 <= u * u <= / 16777216 * u) by nra. assert (0 <= u * u * u <= u * u) by nra. lra.
Qed.
Lemma argument k a s (m a' : f32) : 0 <= k <= 16 -> 0 <= s <= 1 -> / 4096 <= a <= PI / 2 -> between 0 1 m -> (exists e, Rabs e <= u /\ b2r m = s * (1 + e)) ->
  rel_close k a' a -> between 0 2 (Bmult mode_NE m a') /\ Rabs (b2r (Bmult mode_NE m a') - s * a) <= a * (((k + 21/10) * s + / 1000) * u).
Proof.
  intros Hk Hs Ha [Fm Bm] (e & He & Em) [Fa Ra]. pose proof u_val as U. pose proof PI_bounds as HP.
  rewrite (Rabs_pos_eq a) in Ra by lra. pose proof (Rabs_le_inv _ _ Ra) as Ra'.
  assert (KU : 0 <= k * u <= / 1000000) by (split; nra). assert (Ba : 0 <= b2r a' <= 2) by (split; nra).
  assert (Wm : within 0 m) by (split; [exact Fm|]; rewrite Rabs_pos_eq by lra; cbn; lra).
  assert (Wa : within 1 a') by (split; [exact Fa|]; rewrite Rabs_pos_eq by lra; cbn; lra).
  destruct (w_mul 0 1 1 m a' Wm Wa) as [W E]; try lia. assert (P0 : 0 <= b2r m * b2r a' <= 2) by (split; nra).
  split. { split; [apply W|]. rewrite E. split; [apply rnd_pos; lra|]. apply rnd_le_fmt; [apply (fmt_Z 2); lia|lra]. }
  rewrite E. destruct (rnd_error (b2r m * b2r a')) as (e3 & t3 & H3 & T3 & _ & ->).
  set (e1 := (b2r a' - a) / a). assert (E1 : b2r a' = a * (1 + e1)) by (unfold e1; field; lra).
  assert (H1 : Rabs e1 <= k * u).
  { unfold e1, Rdiv. rewrite Rabs_mult, (Rabs_pos_eq (/ a)) by (left; apply Rinv_0_lt_compat; lra). apply (Rmult_le_reg_r a); [lra|]. rewrite Rmult_assoc, Rinv_l by lra. lra. }
  rewrite u32_u in H3. pose proof (prod3 e1 e e3 k Hk H1 He H3) as Q. rewrite Em, E1.
  replace (s * (1 + e) * (a * (1 + e1)) * (1 + e3) + t3 - s * a) with (s * a * ((1 + e1) * (1 + e) * (1 + e3) - 1) + t3) by ring.
  eapply Rle_trans; [apply Rabs_triang|]. rewrite Rabs_mult, (Rabs_pos_eq (s * a)) by (apply Rmult_le_pos; lra).
  pose proof eta_tiny2 as ET. assert (s * a * Rabs ((1 + e1) * (1 + e) * (1 + e3) - 1) <= s * a * ((k + 21/10) * u)) by (apply Rmult_le_compat_l; [apply Rmult_le_pos; lra|exact Q]).
  assert (u / 1000 / 40960 <= a * (/ 1000 * u)) by nra. lra.
Qed.
Lemma component3 (S1 S2 D x z : f32) : within 1 S1 -> within 1 S2 -> within 1 x -> within 1 z -> finite D -> / 8192 <= b2r D ->
  let r := Bdiv mode_NE (Bplus mode_NE (Bmult mode_NE x S1) (Bmult mode_NE z S2)) D in
  let p := b2r S1 / b2r D * b2r x in let q := b2r S2 / b2r D * b2r z in
  finite r /\ Rabs (b2r r - (p + q)) <= 31/10 * u * (Rabs p + Rabs q) + u / 1000.
Proof.
  intros W1 W2 Wx Wz FD BD r p q. pose proof u_val as U.
  destruct (w_mul 1 1 2 x S1 Wx W1) as [V1 E1]; try lia. destruct (w_mul 1 1 2 z S2 Wz W2) as [V2 E2]; try lia.
  destruct (w_add 2 2 3 _ _ V1 V2) as [V3 E3]; try lia.
  destruct (w_div 3 13 16 _ D V3 FD) as [V4 E4]; try lia. { rewrite Rabs_pos_eq by lra. exact BD. }
  split; [apply V4|]. unfold r. rewrite E4.
  destruct (rnd_error (b2r (Bplus mode_NE (Bmult mode_NE x S1) (Bmult mode_NE z S2)) / b2r D)) as (e4 & t4 & H4 & T4 & _ & ->).
  rewrite E3. destruct (rnd_plus_error (Bmult mode_NE x S1) (Bmult mode_NE z S2)) as (e3 & H3 & ->). rewrite E1, E2.
  destruct (rnd_error (b2r x * b2r S1)) as (e1 & t1 & H1 & T1 & _ & ->). destruct (rnd_error (b2r z * b2r S2)) as (e2 & t2 & H2 & T2 & _ & ->).
  rewrite u32_u in *.
  pose proof (prod3 0 e3 e4 0 ltac:(lra)) as Q0. rewrite Rabs_R0 in Q0. specialize (Q0 ltac:(lra) H3 H4).
  pose proof (prod3 e1 e3 e4 1 ltac:(lra) ltac:(lra) H3 H4) as Q1. pose proof (prod3 e2 e3 e4 1 ltac:(lra) ltac:(lra) H3 H4) as Q2.
  set (J := (t1 + t2) / b2r D * ((1 + 0) * (1 + e3) * (1 + e4))).
  replace (((b2r x * b2r S1 * (1 + e1) + t1 + (b2r z * b2r S2 * (1 + e2) + t2)) * (1 + e3) / b2r D * (1 + e4) + t4) - (p + q)) with
    (p * ((1 + e1) * (1 + e3) * (1 + e4) - 1) + q * ((1 + e2) * (1 + e3) * (1 + e4) - 1) + (J + t4)) by (unfold J, p, q; field; lra).
  assert (HJ : Rabs (J + t4) <= u / 1000).
  { pose proof eta_tiny2 as ET. assert (IB : 0 < / b2r D <= 8192). { split; [apply Rinv_0_lt_compat; lra|]. rewrite <- (Rinv_inv 8192). apply Rinv_le_contravar; lra. }
    apply Rabs_le_inv in Q0. assert (B2 : Rabs ((1 + 0) * (1 + e3) * (1 + e4)) <= 2) by (apply Rabs_le; lra).
    assert (B1 : Rabs ((t1 + t2) / b2r D) <= 2 * eta32 * 8192).
    { unfold Rdiv. rewrite Rabs_mult, (Rabs_pos_eq (/ b2r D)) by lra. apply Rmult_le_compat; try apply Rabs_pos; try lra. eapply Rle_trans; [apply Rabs_triang|]. lra. }
    assert (Rabs J <= 2 * eta32 * 8192 * 2). { unfold J. rewrite Rabs_mult. apply Rmult_le_compat; try apply Rabs_pos; assumption. }
    eapply Rle_trans; [apply Rabs_triang|]. lra. }
  eapply Rle_trans; [apply Rabs_triang|]. apply Rplus_le_compat; [|exact HJ]. eapply Rle_trans; [apply Rabs_triang|]. rewrite !Rabs_mult.
  rewrite (Rmult_plus_distr_l (31/10 * u)). apply Rplus_le_compat; rewrite Rmult_comm; apply Rmult_le_compat_r; try apply Rabs_pos; lra.
Qed.

Lemma mix_error L (x z t : f32) : within 1 x -> within 1 z -> Rabs (b2r x) <= 1001/1000 -> Rabs (b2r z) <= 1001/1000 -> between 0 1 t ->
  finite (mix_f (F32 L) x z t) /\ Rabs (b2r (mix_f (F32 L) x z t) - ((1 - b2r t) * b2r x + b2r t * b2r z)) <= 6 * u.
Proof.
  intros Wx Wz Bx Bz [Ft Bt]. pose proof u_val as U. assert (Wt : within 0 t) by (split; [exact Ft|]; rewrite Rabs_pos_eq by lra; cbn; lra).
  change (mix_f (F32 L) x z t) with (Bplus mode_NE x (Bmult mode_NE t (Bminus mode_NE z x))).
  destruct (w_sub 1 1 2 z x Wz Wx) as [V1 E1]; try lia. destruct (w_mul 0 2 2 t _ Wt V1) as [V2 E2]; try lia. destruct (w_add 1 2 3 x _ Wx V2) as [V3 E3]; try lia.
  split; [apply V3|]. rewrite E3, E2. apply Rabs_le_inv in Bx, Bz.
  assert (B1 : - (2002/1000) <= b2r z - b2r x <= 2002/1000) by lra. pose proof (rnd_abs_err _ _ B1) as K1. rewrite <- E1 in K1.
  set (d := b2r (Bminus mode_NE z x)) in *. assert (B2 : - (2003/1000) <= b2r t * d <= 2003/1000) by (split; nra). pose proof (rnd_abs_err _ _ B2) as K2.
  set (m := rnd (b2r t * d)) in *. 
  assert (T1 : - (201/100 * u) <= b2r t * (d - (b2r z - b2r x)) <= 201/100 * u) by (split; nra).
  assert (C1 : - (1001/1000) <= (1 - b2r t) * b2r x + b2r t * b2r z <= 1001/1000) by (split; nra).
  assert (B3 : - (101/100) <= b2r x + m <= 101/100) by lra. pose proof (rnd_abs_err _ _ B3) as K3. apply Rabs_le. lra.
Qed.

Section Main.
Variables (L : Libm) (k dl dc : R).
Hypothesis Hk : 0 <= k <= 16.
Hypothesis HL : sin_acos_accurate L k.
Hypothesis Hd : 0 <= dl <= / 1000.
Variables (t c : f32) (C : R).
Hypothesis Ht : between 0 1 t.
Hypothesis Fc : finite c.
Hypothesis Pc : 0 <= b2r c.
Hypothesis HC : 0 <= C <= 1.
Hypothesis Hc : Rabs (b2r c - C) <= dc.
Let s1 := l_sin L (Bmult mode_NE (Bminus mode_NE (f32_lit 1 0) t) (l_acos L c)).
Let s2 := l_sin L (Bmult mode_NE t (l_acos L c)).
Let s0 := l_sin L (l_acos L c).

Lemma weights : b2r c <= 1 - / 8388608 -> within 1 s1 /\ within 1 s2 /\ finite s0 /\ / 8192 <= b2r s0 /\
  Rabs (b2r s1 / b2r s0 - ideal (1 - b2r t) (b2r c)) + Rabs (b2r s2 / b2r s0 - ideal (b2r t) (b2r c)) <= (906/100 * k + 36/10) * u.
Proof.
  intros H. pose proof u_val as U. pose proof PI_bounds as HP. destruct HL as [Hsin Hacos]. destruct Ht as [Ft Bt]. unfold ideal. rewrite (Rlt_bool_false (1 - / 8388608) (b2r c)) by lra.
  destruct (acos_range (b2r c) ltac:(lra)) as [A1 A2]. assert (A3 : / 4096 <= acos (b2r c)) by (apply (proj2 (C83_exact_functions_pf (b2r c))); change (IZR (2 ^ 23)) with 8388608; lra).
  set (a := acos (b2r c)) in *. assert (Ra : rel_close k (l_acos L c) a) by (apply Hacos; split; [exact Fc|]; change (IZR (2 ^ 23)) with 8388608; lra).
  pose proof (sin_pos a A1) as SP. pose proof (sin_above a ltac:(lra)) as SA. pose proof (SIN_bound a) as SB.
  destruct (one_minus t Ht) as [M1 M2].
  assert (KU : 0 <= k * u <= / 1000000) by (split; nra).
  assert (N : forall s m, 0 <= s <= 1 -> between 0 1 m -> (exists e, Rabs e <= u /\ b2r m = s * (1 + e)) ->
    let S := l_sin L (Bmult mode_NE m (l_acos L c)) in finite S /\ Rabs (b2r S - sin (s * a)) <= num_err k s * sin a).
  { intros s m Hs Hm Em S. destruct (argument k a s m (l_acos L c) Hk Hs ltac:(lra) Hm Em Ra) as [B1 B2]. destruct (Hsin _ B1) as [F1 R1].
    split; [exact F1|]. apply (numerator k s a (b2r (Bmult mode_NE m (l_acos L c)))); try assumption; lra. }
  destruct (N (1 - b2r t) _ ltac:(lra) M1 M2) as [F1 R1]. fold s1 in F1, R1.
  destruct (N (b2r t) t ltac:(lra) Ht) as [F2 R2]. { exists 0. rewrite Rabs_R0. split; [lra|ring]. } fold s2 in F2, R2.
  (* the divisor *)
  destruct Ra as [Fa Ra]. rewrite (Rabs_pos_eq a) in Ra by lra. pose proof (Rabs_le_inv _ _ Ra) as Ra'.
  assert (Ba : between 0 2 (l_acos L c)) by (split; [exact Fa|]; split; nra). destruct (Hsin _ Ba) as [F0 R0]. fold s0 in F0, R0.
  set (rr := (267/100 * k) * u). assert (R3 : Rabs (b2r s0 - sin a) <= rr * sin a).
  { pose proof (sin_lip (b2r (l_acos L c)) a) as Q1.
    assert (Q2 : Rabs (b2r (l_acos L c) - a) <= 10/6 * (k * u) * sin a) by nra.
    assert (Q3 : Rabs (sin (b2r (l_acos L c))) <= (1 + / 1000) * sin a).
    { replace (sin (b2r (l_acos L c))) with ((sin (b2r (l_acos L c)) - sin a) + sin a) by ring. eapply Rle_trans; [apply Rabs_triang|]. rewrite (Rabs_pos_eq (sin a)) by lra. nra. }
    assert (Q4 : Rabs (b2r s0 - sin (b2r (l_acos L c))) <= k * u * ((1 + / 1000) * sin a)) by (eapply Rle_trans; [exact R0|]; apply Rmult_le_compat_l; lra).
    replace (b2r s0 - sin a) with ((b2r s0 - sin (b2r (l_acos L c))) + (sin (b2r (l_acos L c)) - sin a)) by ring. eapply Rle_trans; [apply Rabs_triang|]. unfold rr. nra. }
  assert (Brr : 0 <= rr <= / 10000) by (unfold rr; lra).
  assert (Nb : forall s, 0 <= s <= 1 -> 0 <= num_err k s <= / 10000) by (intros s Hs; unfold num_err; assert (0 <= (k + 21/10) * s <= 19) by (split; nra); split; nra).
  destruct (quotient (1 - b2r t) a (b2r s1) (b2r s0) _ rr ltac:(lra) A1 (proj1 (Nb (1 - b2r t) ltac:(lra))) Brr R1 R3) as [D0 G1].
  destruct (quotient (b2r t) a (b2r s2) (b2r s0) _ rr ltac:(lra) A1 (proj1 (Nb (b2r t) ltac:(lra))) Brr R2 R3) as [_ G2].
  apply Rabs_le_inv in R1, R2, R3. pose proof (Nb (1 - b2r t) ltac:(lra)) as N1. pose proof (Nb (b2r t) ltac:(lra)) as N2.
  assert (W : forall s S, finite S -> 0 <= s <= 1 -> - (num_err k s * sin a) <= b2r S - sin (s * a) <= num_err k s * sin a -> within 1 S).
  { intros s S F Hs R. split; [exact F|]. apply Rabs_le. change (p2 1) with 2. pose proof (SIN_bound (s * a)) as SB0. pose proof (Nb s Hs) as NB0. pose proof (SIN_bound a) as SA0. clear - R SB0 NB0 SA0. assert (- / 10000 <= num_err k s * sin a <= / 10000) by (split; nra). lra. }
  split; [apply (W (1 - b2r t)); [exact F1|lra|exact R1]|]. split; [apply (W (b2r t)); [exact F2|lra|exact R2]|]. split; [exact F0|].
  split. { assert (6/10 * / 4096 <= sin a) by lra. nra. }
  eapply Rle_trans; [apply Rplus_le_compat; [exact G1|exact G2]|]. unfold num_err, rr.
  replace (1001 / 1000 * ((10 / 6 * ((k + 21 / 10) * (1 - b2r t) + / 1000) + 1001 / 1000 * k) * u + 267 / 100 * k * u) +
    1001 / 1000 * ((10 / 6 * ((k + 21 / 10) * b2r t + / 1000) + 1001 / 1000 * k) * u + 267 / 100 * k * u)) with
    (1001 / 1000 * ((10 / 6 * (k + 21 / 10 + 2 / 1000) + 2002 / 1000 * k) + 534 / 100 * k) * u) by field.
  apply Rmult_le_compat_r; lra.
Qed.

Definition slerp_comp (x z : f32) : f32 :=
  if Bltb (Bminus mode_NE (f32_lit 1 0) (c_epsilon (F32 L))) c then mix_f (F32 L) x z t
  else Bdiv mode_NE (Bplus mode_NE (Bmult mode_NE x s1) (Bmult mode_NE z s2)) s0.
Lemma comp_close x z X Z : finite x -> finite z -> -1 <= X <= 1 -> -1 <= Z <= 1 -> Rabs (b2r x - X) <= dl -> Rabs (b2r z - Z) <= dl ->
  finite (slerp_comp x z) /\ Rabs (b2r (slerp_comp x z) - (ideal (1 - b2r t) C * X + ideal (b2r t) C * Z)) <=
    12/10 * (dc + 2 * u) + 2 * dl + (91/10 * k + 102/10) * u.
Proof.
  intros Fx Fz BX BZ Hx Hz. pose proof u_val as U. pose proof (Rabs_le_inv _ _ Hx) as Hx'. pose proof (Rabs_le_inv _ _ Hz) as Hz'.
  assert (Ax : Rabs (b2r x) <= 1001/1000) by (apply Rabs_le; lra). assert (Az : Rabs (b2r z) <= 1001/1000) by (apply Rabs_le; lra).
  assert (Wx : within 1 x) by (split; [exact Fx|]; change (p2 1) with 2; lra). assert (Wz : within 1 z) by (split; [exact Fz|]; change (p2 1) with 2; lra).
  destruct Ht as [Ft Bt].
  set (G := ideal (1 - b2r t) (b2r c) * b2r x + ideal (b2r t) (b2r c) * b2r z).
  assert (I1 := ideal_01 (1 - b2r t) (b2r c) ltac:(lra) Pc). assert (I2 := ideal_01 (b2r t) (b2r c) ltac:(lra) Pc).
  assert (KG : Rabs (G - (ideal (1 - b2r t) C * X + ideal (b2r t) C * Z)) <= 12/10 * (dc + 2 * u) + 2 * dl).
  { assert (EU : / 8388608 = 2 * u) by (unfold u; change (2 ^ 24)%Z with 16777216%Z; lra).
    pose proof (ideal_near (1 - b2r t) (b2r c) C dc ltac:(lra) Pc HC Hc) as J1. pose proof (ideal_near (b2r t) (b2r c) C dc ltac:(lra) Pc HC Hc) as J2. rewrite EU in J1, J2.
    apply Rabs_le_inv in J1, J2.
    replace (G - (ideal (1 - b2r t) C * X + ideal (b2r t) C * Z)) with
      ((ideal (1 - b2r t) (b2r c) - ideal (1 - b2r t) C) * X + (ideal (b2r t) (b2r c) - ideal (b2r t) C) * Z + (ideal (1 - b2r t) (b2r c) * (b2r x - X) + ideal (b2r t) (b2r c) * (b2r z - Z))) by (unfold G; ring).
    assert (BX' : - (1) <= X <= 1) by lra. assert (BZ' : - (1) <= Z <= 1) by lra.
    pose proof (prod_bound _ _ _ _ J1 BX') as P1. pose proof (prod_bound _ _ _ _ J2 BZ') as P2.
    assert (I1' : - (1) <= ideal (1 - b2r t) (b2r c) <= 1) by lra. assert (I2' : - (1) <= ideal (b2r t) (b2r c) <= 1) by lra.
    pose proof (prod_bound _ _ _ _ I1' Hx') as P3. pose proof (prod_bound _ _ _ _ I2' Hz') as P4. apply Rabs_le. lra. }
  assert (KR : finite (slerp_comp x z) /\ Rabs (b2r (slerp_comp x z) - G) <= (91/10 * k + 102/10) * u).
  { unfold slerp_comp. set (th := Bminus mode_NE (f32_lit 1 0) (c_epsilon (F32 L))).
    assert (Eth : b2r th = 1 - / 8388608).
    { assert (E : th = f32_lit 99999988079071044921875 (-23)) by (unfold th; apply f32_by_sf; vm_compute; reflexivity). rewrite E. unfold f32_lit; vm_compute; lra. }
    assert (Fth : finite th) by (unfold th; vm_compute; reflexivity).
    rewrite bltb_b2r by (exact Fth || exact Fc). rewrite Eth. destruct (Rlt_bool_spec (1 - / 8388608) (b2r c)) as [H|H].
    - destruct (mix_error L x z t Wx Wz Ax Az Ht) as [F E]. split; [exact F|]. unfold G, ideal. rewrite !Rlt_bool_true by exact H. eapply Rle_trans; [exact E|]. nra.
    - destruct (weights H) as (W1 & W2 & F0 & B0 & E). destruct (component3 s1 s2 s0 x z W1 W2 Wx Wz F0 B0) as [F K]. split; [exact F|].
      set (w1 := b2r s1 / b2r s0) in *. set (w2 := b2r s2 / b2r s0) in *. set (v1 := ideal (1 - b2r t) (b2r c)) in *. set (v2 := ideal (b2r t) (b2r c)) in *.
      pose proof (Rabs_pos (w1 - v1)) as P1. pose proof (Rabs_pos (w2 - v2)) as P2. assert (KU : 0 <= k * u <= / 1000000) by (split; nra).
      assert (A1 : Rabs w1 <= 1001/1000). { replace w1 with ((w1 - v1) + v1) by ring. eapply Rle_trans; [apply Rabs_triang|]. rewrite (Rabs_pos_eq v1) by lra. lra. }
      assert (A2 : Rabs w2 <= 1001/1000). { replace w2 with ((w2 - v2) + v2) by ring. eapply Rle_trans; [apply Rabs_triang|]. rewrite (Rabs_pos_eq v2) by lra. lra. }
      assert (A3 : Rabs (w1 * b2r x) <= 10021/10000) by (rewrite Rabs_mult; apply Rle_trans with (1001/1000 * (1001/1000)); [apply Rmult_le_compat; try apply Rabs_pos; assumption|lra]).
      assert (A4 : Rabs (w2 * b2r z) <= 10021/10000) by (rewrite Rabs_mult; apply Rle_trans with (1001/1000 * (1001/1000)); [apply Rmult_le_compat; try apply Rabs_pos; assumption|lra]).
      set (r := b2r (Bdiv mode_NE (Bplus mode_NE (Bmult mode_NE x s1) (Bmult mode_NE z s2)) s0)) in *.
      replace (r - G) with ((r - (w1 * b2r x + w2 * b2r z)) + ((w1 - v1) * b2r x + (w2 - v2) * b2r z)) by (unfold G; fold v1 v2; ring).
      eapply Rle_trans; [apply Rabs_triang|].
      assert (Q1 : Rabs (r - (w1 * b2r x + w2 * b2r z)) <= 6215/1000 * u) by (eapply Rle_trans; [exact K|]; nra).
      assert (Q2 : Rabs ((w1 - v1) * b2r x + (w2 - v2) * b2r z) <= (Rabs (w1 - v1) + Rabs (w2 - v2)) * (1001/1000)).
      { eapply Rle_trans; [apply Rabs_triang|]. rewrite !Rabs_mult, Rmult_plus_distr_r. apply Rplus_le_compat; apply Rmult_le_compat_l; trivial. }
      assert (Q3 : (Rabs (w1 - v1) + Rabs (w2 - v2)) * (1001/1000) <= (906/100 * k + 36/10) * u * (1001/1000)) by (apply Rmult_le_compat_r; lra).
      lra. }
  destruct KR as [F KR]. split; [exact F|].
  replace (b2r (slerp_comp x z) - (ideal (1 - b2r t) C * X + ideal (b2r t) C * Z)) with ((b2r (slerp_comp x z) - G) + (G - (ideal (1 - b2r t) C * X + ideal (b2r t) C * Z))) by ring.
  eapply Rle_trans; [apply Rabs_triang|]. lra.
Qed.
End Main.

Lemma abs_half a : Rabs a <= a * a + / 4.
Proof. unfold Rabs. destruct (Rcase_abs a); [pose proof (Rle_0_sqr (a + / 2))|pose proof (Rle_0_sqr (a - / 2))]; unfold Rsqr in *; lra. Qed.
Lemma prod_change a b A B dl : 0 <= dl -> Rabs (a - A) <= dl -> Rabs (b - B) <= dl -> Rabs (a * b - A * B) <= dl * (A * A + B * B + / 2) + dl * dl.
Proof.
  intros Hd Ha Hb. replace (a * b - A * B) with ((a - A) * B + A * (b - B) + (a - A) * (b - B)) by ring.
  eapply Rle_trans; [apply Rabs_triang|]. eapply Rle_trans; [apply Rplus_le_compat_r, Rabs_triang|]. rewrite !Rabs_mult.
  pose proof (abs_half A). pose proof (abs_half B). pose proof (Rabs_pos A). pose proof (Rabs_pos B). pose proof (Rabs_pos (a - A)). pose proof (Rabs_pos (b - B)).
  assert (Rabs (a - A) * Rabs B <= dl * (B * B + / 4)) by (apply Rmult_le_compat; lra). assert (Rabs A * Rabs (b - B) <= (A * A + / 4) * dl) by (apply Rmult_le_compat; lra).
  assert (Rabs (a - A) * Rabs (b - B) <= dl * dl) by (apply Rmult_le_compat; lra). lra.
Qed.
Lemma dot_close L (x y : quat f32) (X Y : quat R) dl : 0 <= dl <= / 1000 -> dotq X X = 1 -> dotq Y Y = 1 -> all_close dl (lq x) (lq X) -> all_close dl (lq y) (lq Y) ->
  finite (dot_q (F32 L) x y) /\ Rabs (b2r (dot_q (F32 L) x y) - dotq X Y) <= 4004/1000 * dl + 41/10 * u.
Proof.
  intros Hd UX UY Hx Hy. pose proof u_val as U. destruct x as [x0 x1 x2 x3], y as [y0 y1 y2 y3], X as [X0 X1 X2 X3], Y as [Y0 Y1 Y2 Y3].
  unfold all_close in Hx, Hy. cbv [lq qx qy qz qw] in Hx, Hy. unfold dotq in *. cbv [qx qy qz qw] in *.
  apply Forall2_cons_iff in Hx as [[Fx0 Hx0] Hx]. apply Forall2_cons_iff in Hx as [[Fx1 Hx1] Hx]. apply Forall2_cons_iff in Hx as [[Fx2 Hx2] Hx]. apply Forall2_cons_iff in Hx as [[Fx3 Hx3] _].
  apply Forall2_cons_iff in Hy as [[Fy0 Hy0] Hy]. apply Forall2_cons_iff in Hy as [[Fy1 Hy1] Hy]. apply Forall2_cons_iff in Hy as [[Fy2 Hy2] Hy]. apply Forall2_cons_iff in Hy as [[Fy3 Hy3] _].
  assert (W : forall (a : f32) A, finite a -> Rabs (b2r a - A) <= dl -> A * A <= 1 -> within 1 a).
  { intros a A F H Q. split; [exact F|]. change (p2 1) with 2. apply Rabs_le_inv in H. apply Rabs_le. split; nra. }
  pose proof (Rle_0_sqr X0). pose proof (Rle_0_sqr X1). pose proof (Rle_0_sqr X2). pose proof (Rle_0_sqr X3).
  pose proof (Rle_0_sqr Y0). pose proof (Rle_0_sqr Y1). pose proof (Rle_0_sqr Y2). pose proof (Rle_0_sqr Y3). unfold Rsqr in *.
  assert (Wx0 := W _ _ Fx0 Hx0 ltac:(lra)). assert (Wx1 := W _ _ Fx1 Hx1 ltac:(lra)). assert (Wx2 := W _ _ Fx2 Hx2 ltac:(lra)). assert (Wx3 := W _ _ Fx3 Hx3 ltac:(lra)).
  assert (Wy0 := W _ _ Fy0 Hy0 ltac:(lra)). assert (Wy1 := W _ _ Fy1 Hy1 ltac:(lra)). assert (Wy2 := W _ _ Fy2 Hy2 ltac:(lra)). assert (Wy3 := W _ _ Fy3 Hy3 ltac:(lra)).
  assert (F : finite (dot_q (F32 L) (Quat x0 x1 x2 x3) (Quat y0 y1 y2 y3))) by (unfold dot_q; cbn [qx qy qz qw sadd smul F32 car]; eapply w_fin; wk).
  split; [exact F|]. destruct (C64_dot_pf L) as (_ & _ & _ & D). specialize (D _ _ F). unfold near in D.
  pose proof gam4_bound as G. pose proof tiny_u as T. pose proof (gam_nonneg 4 ltac:(lia)) as G0.
  set (c := b2r (dot_q (F32 L) (Quat x0 x1 x2 x3) (Quat y0 y1 y2 y3))) in *.
  cbv [lq qx qy qz qw vals mags map combine fst snd total fold_right] in D. change (INR 4) with (1 + 1 + 1 + 1) in D.
  set (p0 := b2r x0 * b2r y0) in *. set (p1 := b2r x1 * b2r y1) in *. set (p2' := b2r x2 * b2r y2) in *. set (p3 := b2r x3 * b2r y3) in *.
  assert (S : forall (a b : f32) A B, Rabs (b2r a - A) <= dl -> Rabs (b2r b - B) <= dl -> Rabs (b2r a) * Rabs (b2r b) <= (A * A + B * B) / 2 + dl * (A * A + B * B + / 2) + dl * dl).
  { intros a b A B Ha Hb. pose proof (prod_change _ _ A B dl ltac:(lra) Ha Hb) as K. rewrite <- Rabs_mult. replace (b2r a * b2r b) with ((b2r a * b2r b - A * B) + A * B) by ring.
    eapply Rle_trans; [apply Rabs_triang|]. assert (Rabs (A * B) <= (A * A + B * B) / 2) by (apply Rabs_le; pose proof (Rle_0_sqr (A - B)); pose proof (Rle_0_sqr (A + B)); unfold Rsqr in *; lra). lra. }
  pose proof (S _ _ _ _ Hx0 Hy0) as S0. pose proof (S _ _ _ _ Hx1 Hy1) as S1. pose proof (S _ _ _ _ Hx2 Hy2) as S2. pose proof (S _ _ _ _ Hx3 Hy3) as S3.
  pose proof (prod_change _ _ _ _ dl ltac:(lra) Hx0 Hy0) as P0. pose proof (prod_change _ _ _ _ dl ltac:(lra) Hx1 Hy1) as P1.
  pose proof (prod_change _ _ _ _ dl ltac:(lra) Hx2 Hy2) as P2. pose proof (prod_change _ _ _ _ dl ltac:(lra) Hx3 Hy3) as P3.
  fold p0 in P0. fold p1 in P1. fold p2' in P2. fold p3 in P3.
  set (M := Rabs (b2r x0) * Rabs (b2r y0) + (Rabs (b2r x1) * Rabs (b2r y1) + (Rabs (b2r x2) * Rabs (b2r y2) + (Rabs (b2r x3) * Rabs (b2r y3) + 0)))) in *.
  assert (DD : 0 <= dl * dl <= dl / 1000) by nra.
  assert (EM : M <= 101/100). { assert (Q : dl * (X0*X0+Y0*Y0+/2) + dl * (X1*X1+Y1*Y1+/2) + dl * (X2*X2+Y2*Y2+/2) + dl * (X3*X3+Y3*Y3+/2) = dl * 4).
    { transitivity (dl * ((X0*X0+X1*X1+X2*X2+X3*X3) + (Y0*Y0+Y1*Y1+Y2*Y2+Y3*Y3) + 2)); [field|]. rewrite UX, UY. ring. } unfold M. lra. }
  assert (QM : gam 4 * M <= 401/100 * u * (101/100)). { assert (0 <= M) by (unfold M; repeat (apply Rplus_le_le_0_compat; [apply Rmult_le_pos; apply Rabs_pos|]); lra). apply Rmult_le_compat; lra. }
  apply Rabs_le_inv in D, P0, P1, P2, P3. apply Rabs_le.
  assert (Q : dl * (X0*X0+Y0*Y0+/2) + dl * (X1*X1+Y1*Y1+/2) + dl * (X2*X2+Y2*Y2+/2) + dl * (X3*X3+Y3*Y3+/2) = dl * 4).
  { transitivity (dl * ((X0*X0+X1*X1+X2*X2+X3*X3) + (Y0*Y0+Y1*Y1+Y2*Y2+Y3*Y3) + 2)); [field|]. rewrite UX, UY. ring. }
  lra.
Qed.

Lemma all_close_weaken e e' l m : e <= e' -> all_close e l m -> all_close e' l m.
Proof. intros H K. unfold all_close in *. induction K as [|a b l m [F G] K IH]; constructor; [split; [exact F|lra]|exact IH]. Qed.
(** slerp in binary32 between quaternions within dl of unit quaternions X and Y that are not nearly orthogonal is, component by component, within
    7 dl + (10 k + 18)*2^-24 of the exact slerp of X and Y, for a C library whose sin and acos are within k half-ulps: however small the angle, and
    whichever of the two branches is taken. *)
Lemma C88_slerp_pf : forall (L : Libm) (k dl : R) (x y : quat f32) (X Y : quat R) (t : f32),
  0 <= k <= 16 -> sin_acos_accurate L k -> 0 <= dl <= / 1000 -> unit_quat X -> unit_quat Y ->
  all_close dl (lq x) (lq X) -> all_close dl (lq y) (lq Y) -> between 0 1 t -> 5 * dl + 5 * ulp_half <= Rabs (ip (lq X) (lq Y)) ->
  all_close (7 * dl + (10 * k + 18) * ulp_half) (lq (slerp (F32 L) x y t)) (lq (slerp RS X Y (b2r t))).
Proof.
  intros L k dl x y X Y t Hk HL Hd UX UY Hx Hy Ht Hs. pose proof u_val as U. apply unit_dotq in UX, UY. rewrite <- dotq_ip in Hs.
  destruct (dot_close L x y X Y dl Hd UX UY Hx Hy) as [Fc Kc]. rewrite slerp_ideal. cbv zeta.
  assert (HC : 0 <= Rabs (dotq X Y) <= 1).
  { split; [apply Rabs_pos|]. destruct X as [X0 X1 X2 X3], Y as [Y0 Y1 Y2 Y3]. unfold dotq in *. cbv [qx qy qz qw] in *.
    pose proof (Rle_0_sqr (X0 - Y0)). pose proof (Rle_0_sqr (X1 - Y1)). pose proof (Rle_0_sqr (X2 - Y2)). pose proof (Rle_0_sqr (X3 - Y3)).
    pose proof (Rle_0_sqr (X0 + Y0)). pose proof (Rle_0_sqr (X1 + Y1)). pose proof (Rle_0_sqr (X2 + Y2)). pose proof (Rle_0_sqr (X3 + Y3)). unfold Rsqr in *. apply Rabs_le. lra. }
  set (c := dot_q (F32 L) x y) in *.
  assert (Core : forall (z : quat f32) (Z : quat R) (c' : f32), all_close dl (lq z) (lq Z) -> dotq Z Z = 1 -> finite c' -> 0 <= b2r c' -> Rabs (b2r c' - Rabs (dotq X Y)) <= 4004/1000 * dl + 41/10 * u ->
    let g p q := ideal (1 - b2r t) (Rabs (dotq X Y)) * p + ideal (b2r t) (Rabs (dotq X Y)) * q in
    all_close (7 * dl + (10 * k + 18) * u) (lq (if Bltb (Bminus mode_NE (f32_lit 1 0) (c_epsilon (F32 L))) c'
      then quat_wxyz (F32 L) (mix_f (F32 L) (qw x) (qw z) t) (mix_f (F32 L) (qx x) (qx z) t) (mix_f (F32 L) (qy x) (qy z) t) (mix_f (F32 L) (qz x) (qz z) t)
      else quat_div_sc (F32 L) (quat_add (F32 L) (sc_mul_quat (F32 L) (l_sin L (Bmult mode_NE (Bminus mode_NE (f32_lit 1 0) t) (l_acos L c'))) x)
             (sc_mul_quat (F32 L) (l_sin L (Bmult mode_NE t (l_acos L c'))) z)) (l_sin L (l_acos L c'))))
      [g (qx X) (qx Z); g (qy X) (qy Z); g (qz X) (qz Z); g (qw X) (qw Z)]).
  { intros z Z c' Hz UZ F' P' K' g. destruct x as [x0 x1 x2 x3], z as [z0 z1 z2 z3], X as [X0 X1 X2 X3], Z as [Z0 Z1 Z2 Z3].
    assert (Shape : lq (if Bltb (Bminus mode_NE (f32_lit 1 0) (c_epsilon (F32 L))) c' then quat_wxyz (F32 L) (mix_f (F32 L) x3 z3 t) (mix_f (F32 L) x0 z0 t) (mix_f (F32 L) x1 z1 t) (mix_f (F32 L) x2 z2 t)
      else quat_div_sc (F32 L) (quat_add (F32 L) (sc_mul_quat (F32 L) (l_sin L (Bmult mode_NE (Bminus mode_NE (f32_lit 1 0) t) (l_acos L c'))) (Quat x0 x1 x2 x3))
             (sc_mul_quat (F32 L) (l_sin L (Bmult mode_NE t (l_acos L c'))) (Quat z0 z1 z2 z3))) (l_sin L (l_acos L c'))) =
      [slerp_comp L t c' x0 z0; slerp_comp L t c' x1 z1; slerp_comp L t c' x2 z2; slerp_comp L t c' x3 z3])
      by (unfold slerp_comp; destruct (Bltb _ _); reflexivity).
    cbv [qx qy qz qw] in *. rewrite Shape. clear Shape.
    assert (One : forall a b A B, finite a -> finite b -> A * A <= 1 -> B * B <= 1 -> Rabs (b2r a - A) <= dl -> Rabs (b2r b - B) <= dl ->
      finite (slerp_comp L t c' a b) /\ Rabs (b2r (slerp_comp L t c' a b) - g A B) <= 7 * dl + (10 * k + 18) * u).
    { intros a b A B Fa Fb HA HB Ha Hb. assert (-1 <= A <= 1) by (split; nra). assert (-1 <= B <= 1) by (split; nra).
      destruct (comp_close L k dl _ Hk HL Hd t c' _ Ht F' P' HC K' a b A B Fa Fb ltac:(assumption) ltac:(assumption) Ha Hb) as [F K]. split; [exact F|].
      eapply Rle_trans; [exact K|]. assert (0 <= k * u) by nra. lra. }
    unfold all_close in *. cbv [lq qx qy qz qw] in *. unfold dotq in UX, UZ. cbv [qx qy qz qw] in UX, UZ.
    apply Forall2_cons_iff in Hx as [[Fx0 Hx0] Hx]. apply Forall2_cons_iff in Hx as [[Fx1 Hx1] Hx]. apply Forall2_cons_iff in Hx as [[Fx2 Hx2] Hx]. apply Forall2_cons_iff in Hx as [[Fx3 Hx3] _].
    apply Forall2_cons_iff in Hz as [[Fz0 Hz0] Hz]. apply Forall2_cons_iff in Hz as [[Fz1 Hz1] Hz]. apply Forall2_cons_iff in Hz as [[Fz2 Hz2] Hz]. apply Forall2_cons_iff in Hz as [[Fz3 Hz3] _].
    pose proof (Rle_0_sqr X0). pose proof (Rle_0_sqr X1). pose proof (Rle_0_sqr X2). pose proof (Rle_0_sqr X3).
    pose proof (Rle_0_sqr Z0). pose proof (Rle_0_sqr Z1). pose proof (Rle_0_sqr Z2). pose proof (Rle_0_sqr Z3). unfold Rsqr in *.
    repeat (apply Forall2_cons; [apply One; try assumption; lra|]). apply Forall2_nil. }
  change (slerp (F32 L) x y t) with
    (let '(z, cosTheta) := if Bltb c (f32_lit 0 0) then (quat_neg (F32 L) y, Bopp c) else (y, c) in
     if Bltb (Bminus mode_NE (f32_lit 1 0) (c_epsilon (F32 L))) cosTheta
      then quat_wxyz (F32 L) (mix_f (F32 L) (qw x) (qw z) t) (mix_f (F32 L) (qx x) (qx z) t) (mix_f (F32 L) (qy x) (qy z) t) (mix_f (F32 L) (qz x) (qz z) t)
      else quat_div_sc (F32 L) (quat_add (F32 L) (sc_mul_quat (F32 L) (l_sin L (Bmult mode_NE (Bminus mode_NE (f32_lit 1 0) t) (l_acos L cosTheta))) x)
             (sc_mul_quat (F32 L) (l_sin L (Bmult mode_NE t (l_acos L cosTheta))) z)) (l_sin L (l_acos L cosTheta))).
  rewrite bltb_b2r by (exact Fc || reflexivity). change (b2r (f32_lit 0 0)) with 0. unfold slerp_to. pose proof (Rabs_le_inv _ _ Kc) as Kc'.
  destruct (Rlt_bool_spec (b2r c) 0) as [H|H].
  - assert (N : dotq X Y < 0) by (unfold Rabs in Hs; destruct (Rcase_abs (dotq X Y)); lra). rewrite Rlt_bool_true by exact N.
    apply Core.
    + destruct y as [y0 y1 y2 y3], Y as [Y0 Y1 Y2 Y3]. unfold all_close in *. change (lq (quat_neg (F32 L) (Quat y0 y1 y2 y3))) with [Bopp y0; Bopp y1; Bopp y2; Bopp y3].
      change (lq (quat_neg RS (Quat Y0 Y1 Y2 Y3))) with [- Y0; - Y1; - Y2; - Y3]. cbv [lq qx qy qz qw] in Hy.
      assert (O : forall (a : f32) A, finite a /\ Rabs (b2r a - A) <= dl -> finite (Bopp a) /\ Rabs (b2r (Bopp a) - - A) <= dl).
      { intros a A [Fa Ka]. split; [now apply finite_opp|]. rewrite Bopp_b2r. replace (- b2r a - - A) with (- (b2r a - A)) by ring. now rewrite Rabs_Ropp. }
      apply Forall2_cons_iff in Hy as [K0 Hy]. apply Forall2_cons_iff in Hy as [K1 Hy]. apply Forall2_cons_iff in Hy as [K2 Hy]. apply Forall2_cons_iff in Hy as [K3 _].
      repeat (apply Forall2_cons; [apply O; assumption|]). apply Forall2_nil.
    + destruct Y as [Y0 Y1 Y2 Y3]. rewrite <- UY. unfold dotq. change (quat_neg RS (Quat Y0 Y1 Y2 Y3)) with (Quat (- Y0) (- Y1) (- Y2) (- Y3)). cbv [qx qy qz qw]. ring.
    + now apply finite_opp.
    + rewrite Bopp_b2r. lra.
    + rewrite Bopp_b2r, (Rabs_left (dotq X Y)) by exact N. replace (- b2r c - - dotq X Y) with (- (b2r c - dotq X Y)) by ring. now rewrite Rabs_Ropp.
  - assert (N : 0 <= dotq X Y) by (unfold Rabs in Hs; destruct (Rcase_abs (dotq X Y)); lra). rewrite Rlt_bool_false by exact N.
    apply Core; try assumption. now rewrite (Rabs_pos_eq (dotq X Y)) by exact N.
Qed.

(** The same for quaternions that the program itself normalized: slerp(normalize(p), normalize(q), t) against the exact
    interpolation between p/|p| and q/|q|. *)
Lemma C88_normalized_pf : forall (L : Libm) (k : R) (p q : quat f32) (t : f32),
  let N := norm (vals (lq p)) in let M := norm (vals (lq q)) in
  let X := Quat (b2r (qx p) / N) (b2r (qy p) / N) (b2r (qz p) / N) (b2r (qw p) / N) in
  let Y := Quat (b2r (qx q) / M) (b2r (qy q) / M) (b2r (qz q) / M) (b2r (qw q) / M) in
  0 <= k <= 16 -> sin_acos_accurate L k -> all_finite (lq p) -> all_finite (lq q) ->
  / IZR (2 ^ 48) <= N <= IZR (2 ^ 62) -> / IZR (2 ^ 48) <= M <= IZR (2 ^ 62) -> between 0 1 t ->
  46 * ulp_half <= Rabs (ip (lq X) (lq Y)) ->
  all_close ((10 * k + 75) * ulp_half) (lq (slerp (F32 L) (normalize_q (F32 L) p) (normalize_q (F32 L) q) t)) (lq (slerp RS X Y (b2r t))).
Proof.
  intros L k p q t N M X Y Hk HL Fp Fq HN HM Ht Hs. pose proof u_val as U.
  assert (One : forall (p : quat f32), let N := norm (vals (lq p)) in all_finite (lq p) -> / IZR (2 ^ 48) <= N <= IZR (2 ^ 62) ->
    let X := Quat (b2r (qx p) / N) (b2r (qy p) / N) (b2r (qz p) / N) (b2r (qw p) / N) in unit_quat X /\ all_close (81/10 * u) (lq (normalize_q (F32 L) p)) (lq X)).
  { clear. intros p N Fp HN X. pose proof u_val as U. destruct (C72_normalize_pf L) as (_ & _ & _ & H). destruct (H p Fp HN) as (F & K & _). fold N in K.
    assert (P : 0 < N) by (eapply Rlt_le_trans; [|apply HN]; apply Rinv_0_lt_compat; now apply (IZR_lt 0)).
    assert (UX : unit_quat X).
    { apply unit_dotq. unfold X, dotq. destruct p as [p0 p1 p2 p3]. cbv [qx qy qz qw] in *.
      assert (NN : N * N = b2r p0 * b2r p0 + b2r p1 * b2r p1 + b2r p2 * b2r p2 + b2r p3 * b2r p3).
      { unfold N, norm. rewrite sqrt_sqrt; unfold ip; cbn [vals map lq qx qy qz qw zip fold_right]; [ring|].
        pose proof (Rle_0_sqr (b2r p0)). pose proof (Rle_0_sqr (b2r p1)). pose proof (Rle_0_sqr (b2r p2)). pose proof (Rle_0_sqr (b2r p3)). unfold Rsqr in *. lra. }
      transitivity ((b2r p0 * b2r p0 + b2r p1 * b2r p1 + b2r p2 * b2r p2 + b2r p3 * b2r p3) / (N * N)); [field; lra|]. rewrite <- NN. field. lra. }
    split; [exact UX|]. apply unit_dotq in UX. set (z := normalize_q (F32 L) p) in *. unfold X, dotq in UX. unfold X. cbv [qx qy qz qw] in UX.
    assert (T : tiny <= / 1000 * u) by (rewrite uval; unfold tiny; apply Rle_trans with (/ IZR (1000 * 16777216)); [apply Rinv_le_contravar; [now apply (IZR_lt 0)|now apply IZR_le]|rewrite mult_IZR, Rinv_mult; lra]).
    assert (C : forall (c : f32) r, r * r <= 1 -> finite c -> Rabs (b2r c - r) <= (INR 4 / 2 + 6) * u * Rabs r + tiny -> finite c /\ Rabs (b2r c - r) <= 81/10 * u).
    { intros c r Hr Fc Kc. split; [exact Fc|]. assert (Rabs r <= 1) by (apply Rabs_le; split; nra). replace (INR 4) with 4 in Kc by (cbn; lra).
      eapply Rle_trans; [exact Kc|]. assert ((4 / 2 + 6) * u * Rabs r <= 8 * u) by (pose proof (Rabs_pos r); nra). lra. }
    destruct z as [z0 z1 z2 z3], p as [p0 p1 p2 p3]. cbv [vals map lq qx qy qz qw] in *. clearbody N.
    unfold all_finite in F. apply Forall_cons_iff in F as [F0 F]. apply Forall_cons_iff in F as [F1 F]. apply Forall_cons_iff in F as [F2 F]. apply Forall_cons_iff in F as [F3 _].
    apply Forall2_cons_iff in K as [K0 K]. apply Forall2_cons_iff in K as [K1 K]. apply Forall2_cons_iff in K as [K2 K]. apply Forall2_cons_iff in K as [K3 _].
    pose proof (Rle_0_sqr (b2r p0 / N)). pose proof (Rle_0_sqr (b2r p1 / N)). pose proof (Rle_0_sqr (b2r p2 / N)). pose proof (Rle_0_sqr (b2r p3 / N)). unfold Rsqr in *.
    unfold all_close. repeat (apply Forall2_cons; [apply C; [lra|assumption|assumption]|]). apply Forall2_nil. }
  destruct (One p Fp HN) as [UX CX]. destruct (One q Fq HM) as [UY CY].
  eapply all_close_weaken; [|apply (C88_slerp_pf L k (81/10 * u)); try eassumption].
  - assert (0 <= k * u) by nra. lra.
  - lra.
  - fold X. fold Y. lra.
Qed.

(** Its length is close to one. *)
Lemma C88_length_pf : forall (L : Libm) (k dl : R) (x y : quat f32) (X Y : quat R) (t : f32),
  0 <= k <= 16 -> sin_acos_accurate L k -> 0 <= dl <= / 1000 -> unit_quat X -> unit_quat Y ->
  all_close dl (lq x) (lq X) -> all_close dl (lq y) (lq Y) -> between 0 1 t -> 5 * dl + 5 * ulp_half <= Rabs (ip (lq X) (lq Y)) ->
  Rabs (norm (vals (lq (slerp (F32 L) x y t))) - 1) <= 14 * dl + (20 * k + 37) * ulp_half.
Proof.
  intros L k dl x y X Y t Hk HL Hd UX UY Hx Hy Ht Hs. pose proof u_val as U.
  pose proof (C88_slerp_pf L k dl x y X Y t Hk HL Hd UX UY Hx Hy Ht Hs) as H.
  destruct (C59_slerp_pf X Y UX UY) as (_ & _ & _ & H1 & H2). set (D := 7 * dl + (10 * k + 18) * ulp_half) in *.
  assert (PD : 0 <= D) by (unfold D; fold u; assert (0 <= k * u) by nra; lra).
  assert (N1 : 1 - u <= norm (lq (slerp RS X Y (b2r t))) <= 1).
  { destruct (Rle_or_lt (Rabs (ip (lq X) (lq Y))) (1 - / 2 ^ 23)) as [A|A].
    - destruct (H1 A) as (th & _ & _ & K). destruct (K 0 (b2r t)) as [K' _]. assert (K'' : norm (lq (slerp RS X Y (b2r t))) = 1) by exact K'. rewrite K''. lra.
    - specialize (H2 A (b2r t) (proj2 Ht)). replace (/ 2 ^ 24) with u in H2 by (rewrite uval; simpl; lra). unfold norm. split.
      + rewrite <- (sqrt_square (1 - u)) by lra. apply sqrt_le_1_alt. nra.
      + apply Rle_trans with (sqrt 1); [apply sqrt_le_1_alt; lra|rewrite sqrt_1; lra]. }
  assert (K : Rabs (norm (vals (lq (slerp (F32 L) x y t))) - norm (lq (slerp RS X Y (b2r t)))) <= 0 * norm (lq (slerp RS X Y (b2r t))) + 2 * D).
  { apply (norm_near 4); try reflexivity; try lia; try lra. unfold all_close in H. clear -H. unfold vals.
    induction H as [|c r l m [_ H] F IH]; cbn [map]; [apply Forall2_nil|]. apply Forall2_cons; [lra|exact IH]. }
  apply Rabs_le_inv in K. apply Rabs_le. unfold D in K. fold u in K. fold u. lra.
Qed.

(** ** a correctly rounded C library meets the hypothesis *)
Definition nearest (x : R) : f32 :=
  binary_normalize 24 128 eq_refl eq_refl mode_NE (Ztrunc (scaled_mantissa radix2 (SpecFloat.fexp 24 128) (rnd x))) (cexp radix2 (SpecFloat.fexp 24 128) (rnd x)) false.
Lemma nearest_ok x : Rabs (rnd x) < big -> finite (nearest x) /\ b2r (nearest x) = rnd x.
Proof.
  intros B. assert (G : generic_format radix2 (SpecFloat.fexp 24 128) (rnd x)) by (apply generic_format_round; typeclasses eauto). unfold nearest.
  set (m := Ztrunc (scaled_mantissa radix2 (SpecFloat.fexp 24 128) (rnd x))). set (q := cexp radix2 (SpecFloat.fexp 24 128) (rnd x)).
  assert (V : F2R (Float radix2 m q) = rnd x) by (symmetry; exact G).
  pose proof (binary_normalize_correct 24 128 eq_refl eq_refl mode_NE m q false) as H. cbv zeta in H. rewrite V in H.
  rewrite round_generic in H; [|typeclasses eauto|exact G]. rewrite Rlt_bool_true in H by exact B. destruct H as [H1 [H2 _]]. split; [exact H2|exact H1].
Qed.
Lemma nearest_close x : in_range x -> rel_close 1 (nearest x) x.
Proof.
  intros R. destruct (rnd_in_range x x 0 R) as [B [e [He E]]]; [ring|rewrite Rabs_R0; lra|].
  destruct (nearest_ok x B) as [F V]. split; [exact F|]. rewrite V, E. replace (x * (1 + e) - x) with (e * x) by ring. rewrite Rabs_mult, Rmult_1_l.
  apply Rmult_le_compat_r; [apply Rabs_pos|exact He].
Qed.
Lemma sin_cubic x : 0 <= x <= 1 -> x - x * (x * x) / 6 <= sin x.
Proof.
  intros H. pose proof PI_bounds as HP. apply Rle_trans with (sin_lb x); [|apply SIN; lra]. unfold sin_lb, sin_approx, sin_term. cbn [sum_f_R0 Nat.mul Nat.add pow fact INR].
  match goal with |- _ <= ?e => replace e with (x * (1 - (x * x) / 6 + (x * x) * (x * x) / 120 * (1 - (x * x) / 42))) by (cbn; field) end.
  assert (0 <= x * x <= 1) by (split; nra). set (y := x * x) in *. replace (x - x * y / 6) with (x * (1 - y / 6)) by field.
  apply Rmult_le_compat_l; [lra|]. nra.
Qed.
Lemma big_range x : / IZR (2 ^ 13) <= x <= 2 -> in_range x.
Proof.
  intros [A B]. right. change (IZR (2 ^ 13)) with 8192 in A. rewrite Rabs_pos_eq by lra. split.
  - apply Rle_trans with (/ 8192); [|lra]. apply Rinv_le_contravar; [lra|now apply (IZR_le 8192)].
  - apply Rle_trans with 2; [lra|now apply (IZR_le 2)].
Qed.
Lemma nearest_sin (x : f32) : between 0 2 x -> rel_close 1 (nearest (sin (b2r x))) (sin (b2r x)).
Proof.
  intros [Fx Hx]. pose proof u_val as U. destruct (Rle_or_lt (/ IZR (2 ^ 12)) (b2r x)) as [H|H].
  - apply nearest_close, big_range. destruct (C83_exact_functions_pf (b2r x)) as [K _]. specialize (K (conj H (proj2 Hx))). lra.
  - change (IZR (2 ^ 12)) with 4096 in H. set (v := b2r x) in *. pose proof (sin_cubic v ltac:(lra)) as A. pose proof (sin_le_id v ltac:(lra)) as B.
    pose proof PI_bounds as HP. pose proof (sin_above v ltac:(lra)) as C.
    assert (N : Rabs (rnd (sin v) - sin v) <= Rabs (v - sin v)) by (apply round_N_pt; [typeclasses eauto|apply fmt_b2r]).
    assert (Q : v * (v * v) / 6 <= u * sin v).
    { rewrite uval. assert (v * v <= / 16777216) by (replace (/ 16777216) with (/ 4096 * / 4096) by lra; apply Rmult_le_compat; lra). nra. }
    rewrite (Rabs_minus_sym v), (Rabs_left1 (sin v - v)) in N by lra. apply Rabs_le_inv in N.
    destruct (nearest_ok (sin v)) as [F E].
    { apply Rle_lt_trans with 1; [apply Rabs_le; lra|]. unfold big. now apply (bpow_lt radix2 0 128). }
    split; [exact F|]. rewrite E, (Rabs_pos_eq (sin v)) by lra. fold u. apply Rabs_le. lra.
Qed.
Lemma nearest_acos (x : f32) : between 0 (1 - / IZR (2 ^ 23)) x -> rel_close 1 (nearest (acos (b2r x))) (acos (b2r x)).
Proof.
  intros [Fx Hx]. apply nearest_close, big_range. destruct (C83_exact_functions_pf (b2r x)) as [_ K]. specialize (K Hx). split; [|lra].
  eapply Rle_trans; [|apply K]. apply Rinv_le_contravar; [now apply (IZR_lt 0)|now apply IZR_le].
Qed.
(*PROPS
(** a C library that returns the nearest binary32 number for sin and acos meets the hypothesis with k = 1 *)
Example C88_rounded_library : forall L0 : Libm, exists L, sin_acos_accurate L 1 /\ l_cos L = l_cos L0.
Proof.
  intros L0. exists (mkLibm (l_cos L0) (fun x => nearest (sin (b2r x))) (l_tan L0) (fun x => nearest (acos (b2r x))) (l_asin L0) (l_atan L0) (l_atan2 L0)
    (l_cosh L0) (l_sinh L0) (l_tanh L0) (l_acosh L0) (l_asinh L0) (l_atanh L0) (l_pow L0) (l_exp L0) (l_log L0) (l_log2 L0) (l_cbrt L0)).
  split; [|reflexivity]. split; intros x H; [now apply nearest_sin|now apply nearest_acos].
Qed.
(** two unit quaternions 60 degrees apart that meet the hypotheses exactly, with t = 1/2 *)
Example C88_case : let x := Quat (f32_ofZ 1) (f32_ofZ 0) (f32_ofZ 0) (f32_ofZ 0) in
  let y := Quat (f32_lit 5 (-1)) (f32_lit 5 (-1)) (f32_lit 5 (-1)) (f32_lit 5 (-1)) in
  let X := Quat 1 0 0 0 in let Y := Quat (/ 2) (/ 2) (/ 2) (/ 2) in let t := f32_lit 5 (-1) in
  unit_quat X /\ unit_quat Y /\ all_close 0 (lq x) (lq X) /\ all_close 0 (lq y) (lq Y) /\ between 0 1 t /\
  5 * 0 + 5 * ulp_half <= Rabs (ip (lq X) (lq Y)).
Proof.
  cbv zeta. assert (H : b2r (f32_lit 5 (-1)) = / 2) by (vm_compute; lra). assert (A : b2r (f32_ofZ 1) = 1) by (vm_compute; lra).
  assert (Z : b2r (f32_ofZ 0) = 0) by reflexivity.
  assert (K : forall (a : f32) r, finite a -> b2r a = r -> finite a /\ Rabs (b2r a - r) <= 0).
  { intros a r F ->. split; [exact F|]. rewrite Rminus_diag_eq, Rabs_R0 by reflexivity. lra. }
  repeat split.
  - unfold unit_quat, norm, ip. cbn. transitivity (sqrt 1); [f_equal; lra|apply sqrt_1].
  - unfold unit_quat, norm, ip. cbn. transitivity (sqrt 1); [f_equal; lra|apply sqrt_1].
  - unfold all_close, lq. cbv [qx qy qz qw]. repeat (apply Forall2_cons; [apply K; [reflexivity|assumption]|]). apply Forall2_nil.
  - unfold all_close, lq. cbv [qx qy qz qw]. repeat (apply Forall2_cons; [apply K; [reflexivity|assumption]|]). apply Forall2_nil.
  - rewrite H. lra.
  - rewrite H. lra.
  - unfold ip, ulp_half. cbn [lq qx qy qz qw zip fold_right]. rewrite Rabs_pos_eq by lra. change (IZR (2 ^ 24)) with 16777216. lra.
Qed.
PROPS*)
