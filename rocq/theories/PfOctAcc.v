(** * Proofs: accuracy of the octahedral encoding *)
From Coq Require Import ZArith Bool Reals List Lra Lia.
From Flocq Require Import Core IEEE754.BinarySingleNaN.
From Verif Require Import Scalar IEEE32 RealInst Types Outcome Spec SpecR SpecMat SpecGeo SpecF32 SpecErr SpecOrd SpecDom SpecAcc SpecProj SpecOct FloatBasics FloatOps
  ModelVec ModelCommon ModelExp ModelGeom ModelConst F32Tac RealTac.
Import ListNotations.
Local Open Scope R_scope.
(*HEADER END*)
From Coq Require Import Psatz.
From Verif Require Import FloatAlg ErrLib OvfLib LenLib RelLib ScaleLib MonoLib DomLib PfErr PfOvf PfLen PfDomain PfQuatAcc VecErrLib.

Lemma rnd_err_t x B : Rabs x <= B -> Rabs (rnd x - x) <= u * B + tiny.
Proof.
  intros H. destruct (rnd_error x) as (e & t & He & Ht & _ & E). rewrite E. rewrite u32_u in He. rewrite eta_tiny in Ht.
  replace (x * (1 + e) + t - x) with (x * e + t) by ring. eapply Rle_trans; [apply Rabs_triang|]. rewrite Rabs_mult.
  pose proof (Rabs_pos x). pose proof (Rabs_pos e). pose proof tiny_pos. pose proof u_val. nra.
Qed.
Lemma tiny_small : 0 < tiny <= u / 1000.
Proof. apply tiny_u. Qed.

Section Encode.
Variables (x y z : f32).
Hypothesis Wx : within 60 x.
Hypothesis Wy : within 60 y.
Hypothesis Wz : within 60 z.
Let S := Rabs (b2r x) + Rabs (b2r y) + Rabs (b2r z).
Hypothesis HS : p2 (-60) <= S.
Let s := Bplus mode_NE (Bplus mode_NE (Babs x) (Babs y)) (Babs z).
Let r := Bdiv mode_NE (f32_lit 1 0) s.
Lemma S_hi : S <= 4 * p2 60.
Proof. destruct Wx as [_ A], Wy as [_ B], Wz as [_ C]. unfold S. pose proof (bpow_gt_0 radix2 60). lra. Qed.
Lemma s_rel : rel_close (201/100) s S.
Proof.
  destruct (w_abs _ _ Wx) as [Ax Ex]. destruct (w_abs _ _ Wy) as [Ay Ey]. destruct (w_abs _ _ Wz) as [Az Ez].
  destruct (w_add 60 60 61 _ _ Ax Ay) as [W2 E2]; try lia. destruct (w_add 61 60 62 _ _ W2 Az) as [W3 E3]; try lia.
  destruct (rnd_plus_error (Babs x) (Babs y)) as (d1 & H1 & K1). rewrite K1 in E2.
  destruct (rnd_plus_error (Bplus mode_NE (Babs x) (Babs y)) (Babs z)) as (d2 & H2 & K2). rewrite K2, E2, Ex, Ey, Ez in E3.
  split; [apply W3|]. fold s in E3. rewrite E3. rewrite u32_u in H1, H2. apply Rabs_le_inv in H1, H2. pose proof u_val as U.
  pose proof (Rabs_pos (b2r x)) as Px. pose proof (Rabs_pos (b2r y)) as Py. pose proof (Rabs_pos (b2r z)) as Pz.
  assert (Q : Rabs S = S) by (apply Rabs_pos_eq; unfold S; lra). rewrite Q.
  set (a := Rabs (b2r x) + Rabs (b2r y)) in *. unfold S. fold a. set (c := Rabs (b2r z)) in *. assert (Pa : 0 <= a) by (unfold a; lra).
  replace ((a * (1 + d1) + c) * (1 + d2) - (a + c)) with (a * (d1 + d2 + d1 * d2) + c * d2) by ring.
  assert (D : Rabs (d1 + d2 + d1 * d2) <= 201/100 * u) by (apply Rabs_le; nra). assert (D2 : Rabs d2 <= 201/100 * u) by (apply Rabs_le; lra).
  eapply Rle_trans; [apply Rabs_triang|]. rewrite !Rabs_mult, (Rabs_pos_eq a), (Rabs_pos_eq c) by assumption. nra.
Qed.
Lemma r_rel : rel_close (304/100) r (/ S).
Proof.
  pose proof (bpow_gt_0 radix2 (-60)) as P.
  assert (R1 : rel_close (0 + 201/100 + 1 + / 50) r (1 / S)).
  { apply rel_div; try lra.
    - rewrite <- b2r_lit1. apply rel_exact. reflexivity.
    - exact s_rel.
    - right. rewrite Rabs_pos_eq by (unfold Rdiv; rewrite Rmult_1_l; left; apply Rinv_0_lt_compat; lra). unfold Rdiv. rewrite Rmult_1_l. pose proof S_hi. split.
      + apply Rinv_le_contravar; [lra|]. eapply Rle_trans; [exact H|]. change 4 with (p2 2). rewrite <- bpow_plus. change (IZR (2 ^ 120)) with (p2 120). apply bpow_le. lia.
      + rewrite <- (Rinv_inv (IZR (2 ^ 120))). apply Rinv_le_contravar; [apply Rinv_0_lt_compat; now apply (IZR_lt 0)|]. eapply Rle_trans; [|exact HS]. change (/ IZR (2 ^ 120)) with (p2 (-120)). apply bpow_le. lia. }
  unfold Rdiv in R1. rewrite Rmult_1_l in R1. eapply rel_weaken; [|exact R1]. lra.
Qed.
Lemma r_within : within 61 r.
Proof.
  pose proof (bpow_gt_0 radix2 (-60)) as P. destruct r_rel as [F E]. split; [exact F|].
  assert (I : 0 <= / S <= p2 60). { split; [left; apply Rinv_0_lt_compat; lra|]. change (-60)%Z with (Z.opp 60) in HS, P. rewrite bpow_opp in HS, P. rewrite <- (Rinv_inv (p2 60)). apply Rinv_le_contravar; assumption. }
  rewrite (Rabs_pos_eq (/ S)) in E by lra. apply Rabs_le_inv in E. pose proof u_val. apply Rabs_le. set (i := / S) in *. clearbody i. change (p2 61) with (2 * p2 60). set (m := p2 60) in *. clearbody m. nra.
Qed.
(** one projected coordinate *)
Lemma coord w : within 60 w -> Rabs (b2r w) <= S -> let c := Bmult mode_NE w r in finite c /\ Rabs (b2r c - b2r w / S) <= 405/100 * u * Rabs (b2r w / S) + tiny.
Proof.
  intros Ww Hw c. pose proof (bpow_gt_0 radix2 (-60)) as P. destruct (w_mul 60 61 121 w r Ww r_within) as [[F _] E]; try lia. split; [exact F|]. fold c in E. rewrite E.
  pose proof (proj1 (rel_factor (304/100) r (/ S) ltac:(lra)) r_rel) as (_ & d & Hd & Er). rewrite Er.
  destruct (rnd_error (b2r w * (/ S * (1 + d)))) as (e & t & He & Ht & _ & K). rewrite K. rewrite u32_u in He. rewrite eta_tiny in Ht.
  unfold Rdiv. set (q := b2r w * / S). replace (b2r w * (/ S * (1 + d)) * (1 + e) + t - q) with (q * (d + e + d * e) + t) by (unfold q; ring).
  eapply Rle_trans; [apply Rabs_triang|]. rewrite Rabs_mult. pose proof (Rabs_pos q). pose proof tiny_small. pose proof u_val.
  apply Rabs_le_inv in Hd, He. assert (D : Rabs (d + e + d * e) <= 405/100 * u) by (apply Rabs_le; nra). nra.
Qed.
Lemma frac_le w : Rabs (b2r w) <= S -> Rabs (b2r w / S) <= 1.
Proof.
  intros H. pose proof (bpow_gt_0 radix2 (-60)) as P. assert (0 < S) by lra. unfold Rdiv. rewrite Rabs_mult, (Rabs_pos_eq (/ S)) by (left; now apply Rinv_0_lt_compat).
  apply Rmult_le_reg_r with S; [assumption|]. rewrite Rmult_assoc, Rinv_l, Rmult_1_r, Rmult_1_l by lra. exact H.
Qed.
(** the sign survives when there is no underflow *)
Lemma coord_sign w : within 60 w -> Rabs (b2r w) <= S -> zero_or_above 60 w ->
  (if Bleb (f32_lit 0 0) (Bmult mode_NE w r) then 1 else -1) = side (b2r w / S).
Proof.
  intros Ww Hw Z. destruct (coord w Ww Hw) as [F E]. pose proof (bpow_gt_0 radix2 (-60)) as P. assert (PS : 0 < S) by lra. rewrite f32_lit_0. rewrite Bleb_xr by (trivial; now apply finite_nn).
  rewrite (xr_finite _ F). destruct (w_mul 60 61 121 w r Ww r_within) as [_ EE]; try lia. change (xr (B754_zero false)) with 0. unfold side.
  destruct Z as [Z|Z].
  - change (B2R (Bmult mode_NE w r)) with (b2r (Bmult mode_NE w r)). rewrite EE, Z. unfold Rdiv. rewrite !Rmult_0_l, rnd_0, Rle_bool_true by apply Rle_refl. destruct (Rlt_dec 0 0) as [A|A]; [lra|reflexivity].
  - clear EE. set (c := B2R (Bmult mode_NE w r)) in *. change (b2r (Bmult mode_NE w r)) with c in E. clearbody c. set (q := b2r w / S) in *.
    assert (Q : 1000000 * tiny <= Rabs q).
    { unfold q, Rdiv. rewrite Rabs_mult, (Rabs_pos_eq (/ S)) by (left; apply Rinv_0_lt_compat; lra).
      apply Rle_trans with (p2 (-60) * / (4 * p2 60)).
      - change (4 * p2 60) with (p2 2 * p2 60). rewrite <- bpow_plus, <- bpow_opp, <- bpow_plus. apply Rle_trans with (p2 20 * p2 (-149)); [|rewrite <- bpow_plus; apply bpow_le; lia].
        change (p2 (-149)) with tiny. pose proof tiny_pos. change (p2 20) with 1048576. nra.
      - apply Rmult_le_compat; [lra|left; apply Rinv_0_lt_compat; pose proof (bpow_gt_0 radix2 60); lra|exact Z|]. apply Rinv_le_contravar; [lra|apply S_hi]. }
    pose proof tiny_pos. pose proof u_val. assert (K : Rabs (c - q) <= / 2 * Rabs q) by (eapply Rle_trans; [exact E|]; clear - H H0 Q; set (a := Rabs q) in *; clearbody a; set (t := tiny) in *; clearbody t; nra). clear E. apply Rabs_le_inv in K. unfold Rabs in K, Q. destruct (Rcase_abs q) as [G|G].
    + destruct (Rlt_dec q 0); [|lra]. rewrite Rle_bool_false by lra. reflexivity.
    + destruct (Rlt_dec q 0); [lra|]. rewrite Rle_bool_true by lra. reflexivity.
Qed.
(** one folded coordinate: from the projected coordinate [p] of the other axis and the sign of [q] *)
Lemma folded w v : within 60 w -> Rabs (b2r w) <= S -> within 60 v -> Rabs (b2r v) <= S -> zero_or_above 60 v ->
  let c := Bmult mode_NE (Bminus mode_NE (f32_lit 1 0) (Babs (Bmult mode_NE w r))) (if Bleb (f32_lit 0 0) (Bmult mode_NE v r) then f32_lit 1 0 else Bopp (f32_lit 1 0)) in
  finite c /\ Rabs (b2r c - (1 - Rabs (b2r w / S)) * side (b2r v / S)) <= 51/10 * u.
Proof.
  intros Ww Hw Wv Hv Z c. destruct (coord w Ww Hw) as [Fp Ep]. pose proof (frac_le w Hw) as Q. pose proof (coord_sign v Wv Hv Z) as SG. pose proof u_val as U. pose proof tiny_small as T.
  set (p := Bmult mode_NE w r) in *. set (m := Bminus mode_NE (f32_lit 1 0) (Babs p)) in *.
  assert (Wp : within 1 p). { split; [exact Fp|]. change (p2 1) with 2. apply Rabs_le_inv in Ep. apply Rabs_le. apply Rabs_le_inv in Q. pose proof (Rabs_pos (b2r w / S)).
    assert (Rabs (b2r w / S) <= 1) by (apply Rabs_le; lra). nra. }
  destruct (w_abs 1 p Wp) as [Wa Ea]. destruct (w_sub 0 1 2 _ _ w_1 Wa) as [[Fm _] Em]; try lia. rewrite b2r_lit1, Ea in Em. fold m in Fm, Em.
  assert (G : Rabs (b2r m - (1 - Rabs (b2r w / S))) <= 51/10 * u).
  { destruct (rnd_plus_error (f32_lit 1 0) (Bopp (Babs p))) as (d & Hd & K). rewrite Bopp_b2r, b2r_lit1, Ea in K. unfold Rminus in Em. rewrite K in Em.
    rewrite Em. set (q := b2r w / S) in *. set (b := b2r p) in *. pose proof (Rabs_triang_inv2 b q) as TI. pose proof (Rabs_pos q) as Pq. pose proof (Rabs_pos b) as Pb.
    assert (T1 : Rabs (Rabs b - Rabs q) <= 405/100 * u * Rabs q + tiny) by lra. apply Rabs_le_inv in T1. rewrite u32_u in Hd. apply Rabs_le_inv in Hd.
    apply Rabs_le. assert (Rabs b <= 1 + 5 * u) by nra. assert (D : - (101/100 * u) <= (1 - Rabs b) * d <= 101/100 * u).
    { apply Rabs_le_inv. rewrite Rabs_mult. assert (Rabs (1 - Rabs b) <= 1) by (apply Rabs_le; lra). assert (Rabs d <= u) by (apply Rabs_le; lra). pose proof (Rabs_pos (1 - Rabs b)). pose proof (Rabs_pos d). nra. }
    replace ((1 + - Rabs b) * (1 + d)) with (1 - Rabs b + (1 - Rabs b) * d) by ring. nra. }
  unfold c. rewrite sgn_mul. rewrite <- SG. destruct (Bleb (f32_lit 0 0) (Bmult mode_NE v r)).
  - split; [exact Fm|]. now rewrite Rmult_1_r.
  - split; [now apply finite_opp|]. rewrite Bopp_b2r. replace (- b2r m - (1 - Rabs (b2r w / S)) * -1) with (- (b2r m - (1 - Rabs (b2r w / S)))) by ring. now rewrite Rabs_Ropp.
Qed.
End Encode.

Lemma enc_eq L (x y z : f32) : let r := Bdiv mode_NE (f32_lit 1 0) (Bplus mode_NE (Bplus mode_NE (Babs x) (Babs y)) (Babs z)) in
  encode_octahedral (F32 L) (V3 x y z) = (if Bleb z (f32_lit 0 0) then
    V2 (Bmult mode_NE (Bminus mode_NE (f32_lit 1 0) (Babs (Bmult mode_NE y r))) (if Bleb (f32_lit 0 0) (Bmult mode_NE x r) then f32_lit 1 0 else Bopp (f32_lit 1 0)))
       (Bmult mode_NE (Bminus mode_NE (f32_lit 1 0) (Babs (Bmult mode_NE x r))) (if Bleb (f32_lit 0 0) (Bmult mode_NE y r) then f32_lit 1 0 else Bopp (f32_lit 1 0)))
    else V2 (Bmult mode_NE x r) (Bmult mode_NE y r) : vec2 f32).
Proof. reflexivity. Qed.
Lemma sized_sum (x y z : f32) : sized 60 [x; y; z] -> within 60 x /\ within 60 y /\ within 60 z /\ p2 (-60) <= Rabs (b2r x) + Rabs (b2r y) + Rabs (b2r z).
Proof.
  intros H. apply sized_within in H as [W E]; [|lia]. comps W. repeat (split; [assumption|]).
  pose proof (Rabs_pos (b2r x)). pose proof (Rabs_pos (b2r y)). pose proof (Rabs_pos (b2r z)).
  apply Exists_exists in E as (w & Hw & Gw). change (Z.opp 60) with (-60)%Z in Gw. cbn in Hw. destruct Hw as [<-|[<-|[<-|[]]]]; lra.
Qed.

(** encode_octahedral in binary32 is within 5.1 half-ulps of the exact point, on both hemispheres. On the lower one the
    coordinates x and y must not be so small that their projection underflows. *)
Lemma C90_encode_pf : forall (L : Libm) (v : vec3 f32), sized 60 (l3 v) -> (0 < b2r (z3 v) \/ zero_or_above 60 (x3 v) /\ zero_or_above 60 (y3 v)) ->
  all_close (51/10 * ulp_half) (l2 (encode_octahedral (F32 L) v)) (octahedral (vals (l3 v))).
Proof.
  intros L [x y z] H Z. unfold l3 in *. cbn [x3 y3 z3] in *. destruct (sized_sum x y z H) as (Wx & Wy & Wz & HS). rewrite enc_eq. cbv zeta.
  pose proof (Rabs_pos (b2r x)) as Px. pose proof (Rabs_pos (b2r y)) as Py. pose proof (Rabs_pos (b2r z)) as Pz.
  unfold octahedral, taxicab, vals. cbn [map nth fold_right]. rewrite Rplus_0_r, <- Rplus_assoc.
  rewrite Bleb_xr by (trivial; apply finite_nn, Wz). rewrite (xr_finite z) by apply Wz. change (B2R z) with (b2r z). change (xr (f32_lit 0 0)) with 0.
  assert (C : forall w, within 60 w -> Rabs (b2r w) <= Rabs (b2r x) + Rabs (b2r y) + Rabs (b2r z) -> 
    let c := Bmult mode_NE w (Bdiv mode_NE (f32_lit 1 0) (Bplus mode_NE (Bplus mode_NE (Babs x) (Babs y)) (Babs z))) in
    finite c /\ Rabs (b2r c - b2r w / (Rabs (b2r x) + Rabs (b2r y) + Rabs (b2r z))) <= 51/10 * u).
  { intros w Ww Hw c. destruct (coord x y z Wx Wy Wz HS w Ww Hw) as [F E]. pose proof (frac_le x y z HS w Hw) as Q. split; [exact F|]. eapply Rle_trans; [exact E|].
    pose proof tiny_small. pose proof u_val. pose proof (Rabs_pos (b2r w / (Rabs (b2r x) + Rabs (b2r y) + Rabs (b2r z)))). nra. }
  destruct (Rle_dec (b2r z) 0) as [N|N].
  - destruct Z as [Z|[Zx Zy]]; [lra|]. rewrite Rle_bool_true by exact N. unfold all_close, l2. cbn [x2 y2].
    apply Forall2_cons; [apply folded; trivial; lra|]. apply Forall2_cons; [apply folded; trivial; lra|]. apply Forall2_nil.
  - rewrite Rle_bool_false by lra. unfold all_close, l2. cbn [x2 y2].
    apply Forall2_cons; [apply C; trivial; lra|]. apply Forall2_cons; [apply C; trivial; lra|]. apply Forall2_nil.
Qed.
Lemma dec_eq L (x y : f32) : let z := Bminus mode_NE (Bminus mode_NE (f32_lit 1 0) (Babs x)) (Babs y) in Bltb z (f32_lit 0 0) = false ->
  decode_octahedral (F32 L) (V2 x y) = normalize3 (F32 L) (V3 x y z).
Proof.
  intros z H. transitivity (normalize3 (F32 L) (if Bltb z (f32_lit 0 0) then
    V3 (Bminus mode_NE (f32_lit 1 0) (Bmult mode_NE (Babs y) (if Bleb (f32_lit 0 0) x then f32_lit 1 0 else Bopp (f32_lit 1 0))))
       (Bminus mode_NE (f32_lit 1 0) (Bmult mode_NE (Babs (Bminus mode_NE (f32_lit 1 0) (Bmult mode_NE (Babs y) (if Bleb (f32_lit 0 0) x then f32_lit 1 0 else Bopp (f32_lit 1 0))))) (if Bleb (f32_lit 0 0) y then f32_lit 1 0 else Bopp (f32_lit 1 0)))) z
    else V3 x y z)); [|now rewrite H].
  unfold z. cbv -[Bplus Bmult Bminus Bdiv Bsqrt Bltb Bleb Babs Bopp f32_lit]. destruct Bltb; reflexivity.
Qed.
(** points of the octahedron are not short *)
Lemma octa_norm a b c : Rabs a + Rabs b + Rabs c = 1 -> 577/1000 <= norm [a; b; c].
Proof.
  intros H. unfold norm. apply Rle_trans with (sqrt (577/1000 * (577/1000))); [right; symmetry; apply sqrt_square; lra|]. apply sqrt_le_1_alt. unfold ip. cbn.
  rewrite <- (abs_sq a), <- (abs_sq b), <- (abs_sq c). pose proof (Rle_0_sqr (Rabs a - Rabs b)) as Q1. pose proof (Rle_0_sqr (Rabs b - Rabs c)) as Q2. pose proof (Rle_0_sqr (Rabs a - Rabs c)) as Q3. unfold Rsqr in *.
  assert (E : (Rabs a + Rabs b + Rabs c) * (Rabs a + Rabs b + Rabs c) = 1) by (rewrite H; ring). nra.
Qed.
Lemma octa_norm_hi a b c : Rabs a + Rabs b + Rabs c = 1 -> norm [a; b; c] <= 1.
Proof.
  intros H. apply sq_le_norm; [lra|]. unfold ip. cbn. rewrite <- (abs_sq a), <- (abs_sq b), <- (abs_sq c). pose proof (Rabs_pos a). pose proof (Rabs_pos b). pose proof (Rabs_pos c). nra.
Qed.
Lemma norm_axis d : norm [0; 0; d] = Rabs d.
Proof. unfold norm, ip. cbn. rewrite <- sqrt_Rsqr_abs. unfold Rsqr. f_equal. ring. Qed.
(** decode_octahedral in binary32 is within 15 half-ulps of the exact direction, on the closed diamond |x| + |y| <= 1 of the upper hemisphere. *)
Lemma C90_decode_pf : forall (L : Libm) (e : vec2 f32), all_finite (l2 e) -> let x := b2r (x2 e) in let y := b2r (y2 e) in Rabs x + Rabs y <= 1 ->
  all_close (15 * ulp_half) (l3 (decode_octahedral (F32 L) e)) (unit_of [x; y; 1 - Rabs x - Rabs y]).
Proof.
  intros L [xe ye] F x y H. cbn [x2 y2] in x, y. unfold l2 in F. cbn [x2 y2] in F. apply Forall_cons_iff in F as [Fx F]. apply Forall_cons_iff in F as [Fy _].
  pose proof (Rabs_pos x) as Px. pose proof (Rabs_pos y) as Py. pose proof u_val as U. pose proof tiny_small as T.
  assert (Wx : within 0 xe) by (split; [exact Fx|]; change (p2 0) with 1; fold x; lra). assert (Wy : within 0 ye) by (split; [exact Fy|]; change (p2 0) with 1; fold y; lra).
  destruct (w_abs _ _ Wx) as [Ax Ex]. destruct (w_abs _ _ Wy) as [Ay Ey].
  destruct (w_sub 0 0 1 _ _ w_1 Ax) as [W1 E1]; try lia. destruct (w_sub 1 0 2 _ _ W1 Ay) as [W2 E2]; try lia. rewrite b2r_lit1, Ex in E1. rewrite Ey in E2. fold x in E1. fold y in E2.
  set (m := Bminus mode_NE (f32_lit 1 0) (Babs xe)) in *. set (z := Bminus mode_NE m (Babs ye)) in *.
  assert (M0 : Rabs y <= b2r m) by (rewrite E1; apply rnd_ge_fmt; [unfold y, fmt; apply generic_format_abs, fmt_b2r|lra]).
  assert (M1 : b2r m <= 1) by (rewrite E1; apply rnd_le_fmt; [apply fmt_1|lra]).
  assert (Z0 : 0 <= b2r z) by (rewrite E2; apply rnd_pos; lra).
  assert (NB : Bltb z (f32_lit 0 0) = false).
  { rewrite Bltb_xr by (trivial; apply finite_nn, W2). rewrite (xr_finite z) by apply W2. change (xr (f32_lit 0 0)) with 0. apply Rlt_bool_false. exact Z0. }
  rewrite (dec_eq L xe ye NB). fold m. fold z.
  set (Z := 1 - Rabs x - Rabs y).
  assert (ZE : Rabs (b2r z - Z) <= 201/100 * u).
  { destruct (rnd_plus_error (f32_lit 1 0) (Bopp (Babs xe))) as (d1 & H1 & K1). rewrite Bopp_b2r, b2r_lit1, Ex in K1. fold x in K1.
    destruct (rnd_plus_error m (Bopp (Babs ye))) as (d2 & H2 & K2). rewrite Bopp_b2r, Ey in K2. fold y in K2. unfold Rminus in E1, E2. rewrite K1 in E1. rewrite K2 in E2. rewrite E2.
    rewrite u32_u in H1, H2. apply Rabs_le_inv in H1, H2. unfold Z. clearbody x y. set (b := b2r m) in *. clearbody b. set (a := Rabs x) in *. set (c := Rabs y) in *. clearbody a c.
    replace ((b + - c) * (1 + d2) - (1 - a - c)) with ((1 - a) * d1 + (b - c) * d2) by (rewrite E1; ring).
    assert (- u <= (1 - a) * d1 <= u) by nra. assert (- u <= (b - c) * d2 <= u) by nra. apply Rabs_le. lra. }
  assert (ZA : Rabs Z = Z) by (apply Rabs_pos_eq; unfold Z; lra).
  assert (NC := octa_norm x y Z ltac:(rewrite ZA; unfold Z; ring)). assert (NH := octa_norm_hi x y Z ltac:(rewrite ZA; unfold Z; ring)).
  assert (V : vnear (201/100 * u) (V3 xe ye z) [x; y; Z]).
  { split; [reflexivity|]. split; [unfold l3; cbn [x3 y3 z3]; repeat (apply Forall_cons; [first [assumption|apply W2]|]); apply Forall_nil|].
    unfold l3, vals. cbn [map x3 y3 z3]. unfold vsub. cbn [zip]. fold x. fold y. replace (x - x) with 0 by ring. replace (y - y) with 0 by ring. rewrite norm_axis. exact ZE. }
  destruct (near_norm _ _ _ V) as (N1 & N2 & _).
  assert (K : vnear (2 * (201/100 * u) / norm [x; y; Z] + 15/2 * u + 2 * tiny) (normalize3 (F32 L) (V3 xe ye z)) (unit_of [x; y; Z])).
  { apply normalize_near; [exact V|lra|]. split.
    - apply Rle_trans with (/ 2); [apply Rinv_le_contravar; [lra|now apply (IZR_le 2)]|lra].
    - apply Rle_trans with 2; [lra|now apply (IZR_le 2)]. }
  apply near_all_close. eapply near_weaken; [|exact K]. set (N := norm [x; y; Z]) in *. clearbody N.
  assert (2 * (201/100 * u) / N <= 7 * u) by (apply Rmult_le_reg_r with N; [lra|]; unfold Rdiv; rewrite Rmult_assoc, Rinv_l by lra; nra). lra.
Qed.
Lemma unit_of_scale k A : 0 < k -> unit_of (vscale k A) = unit_of A.
Proof.
  intros H. unfold unit_of. rewrite norm_scale3, (Rabs_pos_eq k) by lra. unfold vscale. rewrite map_map. apply map_ext. intros a.
  destruct (Req_dec (norm A) 0) as [Z|Z]; [|field; lra]. rewrite Z. rewrite Rmult_0_r, Rinv_0. ring.
Qed.
Lemma all_close_shift e d c A B : all_close e c A -> Forall2 (fun a b => Rabs (a - b) <= d) A B -> all_close (e + d) c B.
Proof.
  intros H. revert B. induction H as [|x a c A [F E] _ IH]; intros B K; inversion K; subst; [apply Forall2_nil|]. apply Forall2_cons; [|now apply IH].
  split; [exact F|]. replace (b2r x - y) with ((b2r x - a) + (a - y)) by ring. eapply Rle_trans; [apply Rabs_triang|]. lra.
Qed.
Lemma vsub_each A B d : length A = 3%nat -> length B = 3%nat -> norm (vsub A B) <= d -> Forall2 (fun a b => Rabs (a - b) <= d) A B.
Proof.
  intros HA HB H. list3 A. list3 B. assert (C : forall r, In r (vsub [a; a0; a1] [a2; a3; a4]) -> Rabs r <= d) by (intros r Hr; eapply Rle_trans; [apply (comp_norm _ r (vsub_len _ _ HA HB) Hr)|exact H]).
  repeat (apply Forall2_cons; [apply C; cbn; auto|]). apply Forall2_nil.
Qed.
(** On the upper hemisphere, except within 5 half-ulps of the equator, decoding the encoded direction gives it back to 35 half-ulps. *)
Lemma C90_roundtrip_pf : forall (L : Libm) (v : vec3 f32), sized 60 (l3 v) -> 5 * ulp_half * taxicab (vals (l3 v)) <= b2r (z3 v) ->
  all_close (35 * ulp_half) (l3 (decode_octahedral (F32 L) (encode_octahedral (F32 L) v))) (unit_of (vals (l3 v))).
Proof.
  intros L [x y z] H HZ. unfold l3 in H, HZ. cbn [x3 y3 z3] in H, HZ. destruct (sized_sum x y z H) as (Wx & Wy & Wz & HS).
  unfold taxicab, vals in HZ. cbn [map fold_right] in HZ. rewrite Rplus_0_r, <- Rplus_assoc in HZ.
  pose proof (Rabs_pos (b2r x)) as Px. pose proof (Rabs_pos (b2r y)) as Py. pose proof (Rabs_pos (b2r z)) as Pz. pose proof (bpow_gt_0 radix2 (-60)) as P60.
  destruct (coord x y z Wx Wy Wz HS x Wx ltac:(lra)) as [Fp Ep]. destruct (coord x y z Wx Wy Wz HS y Wy ltac:(lra)) as [Fq Eq].
  rewrite enc_eq. cbv zeta in *. set (r := Bdiv mode_NE (f32_lit 1 0) (Bplus mode_NE (Bplus mode_NE (Babs x) (Babs y)) (Babs z))) in *.
  set (S := Rabs (b2r x) + Rabs (b2r y) + Rabs (b2r z)) in *. pose proof u_val as U. pose proof tiny_small as T. assert (PS : 0 < S) by lra.
  assert (PZ : 0 < b2r z) by (eapply Rlt_le_trans; [|exact HZ]; apply Rmult_lt_0_compat; lra).
  assert (NB : Bleb z (f32_lit 0 0) = false).
  { rewrite Bleb_xr by (trivial; apply finite_nn, Wz). rewrite (xr_finite z) by apply Wz. change (xr (f32_lit 0 0)) with 0. apply Rle_bool_false. exact PZ. }
  rewrite NB. clear NB. set (p := Bmult mode_NE x r) in *. set (q := Bmult mode_NE y r) in *.
  set (A := b2r x / S) in *. set (B := b2r y / S) in *. set (C := b2r z / S).
  assert (SUM : Rabs A + Rabs B + C = 1).
  { unfold A, B, C, Rdiv. rewrite !Rabs_mult, (Rabs_pos_eq (/ S)) by (left; now apply Rinv_0_lt_compat). rewrite <- !Rmult_plus_distr_r. rewrite <- (Rabs_pos_eq (b2r z)) by lra. fold S. field. lra. }
  assert (PC : 5 * u <= C) by (unfold C; apply Rmult_le_reg_r with S; [lra|]; replace (b2r z / S * S) with (b2r z) by (field; lra); lra).
  pose proof (Rabs_pos A) as PA. pose proof (Rabs_pos B) as PB. pose proof (Rabs_triang_inv2 (b2r p) A) as TP. pose proof (Rabs_triang_inv2 (b2r q) B) as TQ.
  assert (DP : Rabs (Rabs (b2r p) - Rabs A) <= 405/100 * u * Rabs A + tiny) by lra. assert (DQ : Rabs (Rabs (b2r q) - Rabs B) <= 405/100 * u * Rabs B + tiny) by lra.
  apply Rabs_le_inv in DP, DQ.
  assert (LE : Rabs (b2r p) + Rabs (b2r q) <= 1) by nra.
  assert (D := C90_decode_pf L (V2 p q)). cbv zeta in D. unfold l2 in D. cbn [x2 y2] in D. specialize (D ltac:(repeat (apply Forall_cons; [assumption|]); apply Forall_nil) LE).
  replace (35 * u) with (15 * u + 20 * u) by ring. eapply all_close_shift; [exact D|]. clear D.
  assert (EU : unit_of (vals (l3 (V3 x y z))) = unit_of [A; B; C]).
  { rewrite <- (unit_of_scale (/ S)) by (now apply Rinv_0_lt_compat). f_equal. unfold vals, l3, vscale, A, B, C, Rdiv. cbn [map x3 y3 z3]. rewrite !(Rmult_comm (/ S)). reflexivity. }
  rewrite EU. clear EU. assert (AC : Rabs C = C) by (apply Rabs_pos_eq; lra). assert (NC := octa_norm A B C ltac:(rewrite AC; exact SUM)).
  set (W := 1 - Rabs (b2r p) - Rabs (b2r q)). assert (AW : Rabs W = W) by (apply Rabs_pos_eq; unfold W; lra). assert (NW := octa_norm (b2r p) (b2r q) W ltac:(rewrite AW; unfold W; ring)).
  apply vsub_each; [unfold unit_of; now rewrite vscale_len|unfold unit_of; now rewrite vscale_len|].
  eapply Rle_trans; [apply unit_perturb; try reflexivity; lra|].
  assert (ND : norm (vsub [b2r p; b2r q; W] [A; B; C]) <= 575/100 * u).
  { apply sq_le_norm; [lra|]. unfold vsub, ip. cbn. apply Rabs_le_inv in Ep, Eq. set (d1 := b2r p - A) in *. set (d2 := b2r q - B) in *. set (d3 := W - C).
    assert (K3 : - (406/100 * u) <= d3 <= 406/100 * u) by (unfold d3, W; nra). assert (K12 : exists h1 h2, 0 <= h1 /\ 0 <= h2 /\ - h1 <= d1 <= h1 /\ - h2 <= d2 <= h2 /\ h1 + h2 <= 406/100 * u).
    { exists (405/100 * u * Rabs A + tiny), (405/100 * u * Rabs B + tiny). split; [nra|]. split; [nra|]. split; [lra|]. split; [lra|]. nra. }
    clear - K3 K12 U. clearbody d1 d2 d3. destruct K12 as (h1 & h2 & P1 & P2 & Q1 & Q2 & Q). assert (d1 * d1 <= h1 * h1) by nra. assert (d2 * d2 <= h2 * h2) by nra. assert (h1 * h1 + h2 * h2 <= 406/100 * u * (406/100 * u)) by nra.
    assert (d3 * d3 <= 406/100 * u * (406/100 * u)) by nra. nra. }
  set (N := norm [A; B; C]) in *. clearbody N. set (D := norm (vsub [b2r p; b2r q; W] [A; B; C])) in *. clearbody D. apply Rmult_le_reg_r with N; [lra|]. replace (2 * D / N * N) with (2 * D) by (field; lra). nra.
Qed.
(** Closer to the equator it need not: (-2, 1, 2^-24), in the upper hemisphere, decodes to a direction with x and y of the opposite signs,
    because 1 - |x| - |y| rounds to a negative number. *)
Lemma C90_equator_refuted_pf : forall L : Libm, exists v : vec3 f32, sized 60 (l3 v) /\ 0 < b2r (z3 v) /\
  let d := decode_octahedral (F32 L) (encode_octahedral (F32 L) v) in all_finite (l3 d) /\ b2r (x3 v) < 0 < b2r (x3 d) /\ b2r (y3 d) < 0 < b2r (y3 v).
Proof.
  intros L. assert (P1 : 1 <= IZR (2 ^ 60)) by (now apply (IZR_le 1)). assert (P2 : 2 <= IZR (2 ^ 60)) by (now apply (IZR_le 2)). exists (V3 (f32_lit (-2) 0) (f32_lit 1 0) (f32_lit 59604644775390625 (-24))).
  assert (Sg : forall (a : f32) s m e, sf a = SpecFloat.S754_finite s m e -> finite a /\ if s then b2r a < 0 else 0 < b2r a).
  { intros a s m e Ha. destruct a as [|[]| |s' m' e' He]; try discriminate Ha. cbn in Ha. injection Ha as -> -> ->. split; [reflexivity|]. destruct s; [now apply (F2R_lt_0 radix2 (Float radix2 (Zneg m) e))|now apply (F2R_gt_0 radix2 (Float radix2 (Zpos m) e))]. }
  assert (V2' : b2r (f32_lit (-2) 0) = -2) by (unfold f32_lit; vm_compute; lra).
  assert (V3' : b2r (f32_lit 59604644775390625 (-24)) = / 16777216) by (unfold f32_lit; vm_compute; lra).
  split; [|split; [cbn [z3]; rewrite V3'; lra|]].
  - unfold l3. cbn [x3 y3 z3]. split; [repeat (apply Forall_cons; [reflexivity|]); apply Forall_nil|]. split.
    + unfold bounded_by.
      apply Forall_cons; [rewrite V2', Rabs_left by lra; lra|]. apply Forall_cons; [rewrite b2r_lit1, Rabs_R1; lra|]. apply Forall_cons; [rewrite V3', Rabs_pos_eq; lra|]. apply Forall_nil.
    + apply Exists_cons_tl, Exists_cons_hd. rewrite b2r_lit1, Rabs_R1. rewrite <- Rinv_1. apply Rinv_le_contravar; lra.
  - intros d. destruct (Sg (x3 d) false 16276290%positive (-24)%Z) as [F1 G1]; [vm_compute; reflexivity|]. destruct (Sg (y3 d) true 16276291%positive (-26)%Z) as [F2 G2]; [vm_compute; reflexivity|].
    destruct (Sg (z3 d) true 12207217%positive (-49)%Z) as [F3 _]; [vm_compute; reflexivity|].
    split; [repeat (apply Forall_cons; [assumption|]); apply Forall_nil|]. split; (split; [|]); trivial; cbn [x3 y3]; [rewrite V2'|rewrite b2r_lit1]; lra.
Qed.
(*PROPS
(** the hypotheses are met by (2, -1, 3) and, for the encoding on the lower hemisphere, by (0, -7, -2) *)
Example C90_case : sized 60 (l3 (V3 (f32_lit 2 0) (f32_lit (-1) 0) (f32_lit 3 0))) /\
  5 * ulp_half * taxicab (vals (l3 (V3 (f32_lit 2 0) (f32_lit (-1) 0) (f32_lit 3 0)))) <= b2r (z3 (V3 (f32_lit 2 0) (f32_lit (-1) 0) (f32_lit 3 0))) /\
  sized 60 (l3 (V3 (f32_lit 0 0) (f32_lit (-7) 0) (f32_lit (-2) 0))) /\ zero_or_above 60 (f32_lit 0 0) /\ zero_or_above 60 (f32_lit (-7) 0).
Proof.
  assert (A : b2r (f32_lit 2 0) = 2) by (unfold f32_lit; vm_compute; lra). assert (B : b2r (f32_lit (-1) 0) = -1) by (unfold f32_lit; vm_compute; lra).
  assert (C : b2r (f32_lit 3 0) = 3) by (unfold f32_lit; vm_compute; lra). assert (D : b2r (f32_lit 0 0) = 0) by reflexivity.
  assert (E : b2r (f32_lit (-7) 0) = -7) by (unfold f32_lit; vm_compute; lra). assert (F : b2r (f32_lit (-2) 0) = -2) by (unfold f32_lit; vm_compute; lra).
  assert (M : 7 <= IZR (2 ^ 60)) by (now apply (IZR_le 7)). assert (I : / IZR (2 ^ 60) <= 1) by (rewrite <- Rinv_1; apply Rinv_le_contravar; lra).
  assert (G : forall r, -7 <= r <= 7 -> Rabs r <= IZR (2 ^ 60)) by (intros r Hr; apply Rabs_le; lra).
  unfold l3. cbn [x3 y3 z3]. split; [|split; [|split; [|split]]].
  - split; [repeat (apply Forall_cons; [reflexivity|]); apply Forall_nil|]. split; [repeat (apply Forall_cons; [apply G; lra|]); apply Forall_nil|]. apply Exists_cons_hd. rewrite A, Rabs_pos_eq; lra.
  - unfold taxicab, vals. cbn [map fold_right]. rewrite A, B, C. rewrite (Rabs_pos_eq 2), (Rabs_left (-1)), (Rabs_pos_eq 3) by lra. unfold ulp_half. change (2 ^ 24)%Z with 16777216%Z. lra.
  - split; [repeat (apply Forall_cons; [reflexivity|]); apply Forall_nil|]. split; [repeat (apply Forall_cons; [apply G; lra|]); apply Forall_nil|]. apply Exists_cons_tl, Exists_cons_hd. rewrite E, Rabs_left; lra.
  - left. exact D.
  - right. rewrite E, Rabs_left; lra.
Qed.
PROPS*)
