(** * Proofs: device coordinates of projected points in binary32 *)
From Coq Require Import ZArith Bool Reals List Lra Lia.
From Flocq Require Import Core IEEE754.BinarySingleNaN.
From Verif Require Import Scalar IEEE32 RealInst Types Outcome Spec SpecR SpecF32 SpecErr SpecProj SpecDepth FloatBasics FloatOps
  ModelVec ModelMat ModelTrig ModelTransform.
Import ListNotations.
Local Open Scope R_scope.
From Verif Require Import ErrLib LenLib OvfLib RelLib DomLib NumLib PfProj PfOctAcc.
(*HEADER END*)

(** *** exact operations *)
Lemma zero_mult (a x : f32) : finite a -> b2r a = 0 -> finite x -> finite (Bmult mode_NE a x) /\ b2r (Bmult mode_NE a x) = 0.
Proof.
  intros Fa Za Fx. assert (Z : rnd (b2r a * b2r x) = 0) by (rewrite Za, Rmult_0_l; apply rnd_0).
  destruct (mult_ok a x Fa Fx) as [F E]; [rewrite Z, Rabs_R0; apply bpow_gt_0|]. split; [exact F|]. now rewrite E.
Qed.
Lemma b2r_lt_big (x : f32) : finite x -> Rabs (b2r x) < big.
Proof. intros F. apply abs_B2R_lt_emax. Qed.
Lemma zero_plus (a c : f32) : finite a -> b2r a = 0 -> finite c -> finite (Bplus mode_NE a c) /\ b2r (Bplus mode_NE a c) = b2r c.
Proof.
  intros Fa Za Fc. assert (Z : rnd (b2r a + b2r c) = b2r c) by (rewrite Za, Rplus_0_l; apply rnd_b2r).
  destruct (plus_ok a c Fa Fc) as [F E]; [rewrite Z; now apply b2r_lt_big|]. split; [exact F|]. now rewrite E.
Qed.
Lemma plus_zero (a c : f32) : finite a -> b2r a = 0 -> finite c -> finite (Bplus mode_NE c a) /\ b2r (Bplus mode_NE c a) = b2r c.
Proof.
  intros Fa Za Fc. assert (Z : rnd (b2r c + b2r a) = b2r c) by (rewrite Za, Rplus_0_r; apply rnd_b2r).
  destruct (plus_ok c a Fc Fa) as [F E]; [rewrite Z; now apply b2r_lt_big|]. split; [exact F|]. now rewrite E.
Qed.
Lemma mult_unit (a c : f32) s : s = 1 \/ s = -1 -> finite a -> b2r a = s -> finite c -> finite (Bmult mode_NE a c) /\ b2r (Bmult mode_NE a c) = s * b2r c.
Proof.
  intros S Fa Za Fc. assert (Z : rnd (b2r a * b2r c) = s * b2r c).
  { rewrite Za. destruct S as [->| ->]; [rewrite Rmult_1_l; apply rnd_b2r|]. replace (-1 * b2r c) with (- b2r c) by ring. now rewrite rnd_opp, rnd_b2r. }
  destruct (mult_ok a c Fa Fc) as [F E]; [rewrite Z; destruct S as [->| ->]; rewrite ?Rmult_1_l;
    [|replace (-1 * b2r c) with (- b2r c) by ring; rewrite Rabs_Ropp]; now apply b2r_lt_big|]. split; [exact F|]. now rewrite E.
Qed.
Lemma mult_one (c : f32) : finite c -> finite (Bmult mode_NE c (f32_lit 1 0)) /\ b2r (Bmult mode_NE c (f32_lit 1 0)) = b2r c.
Proof.
  intros Fc. assert (Z : rnd (b2r c * b2r (f32_lit 1 0)) = b2r c) by (rewrite b2r_lit1, Rmult_1_r; apply rnd_b2r).
  destruct (mult_ok c (f32_lit 1 0) Fc fin_lit1) as [F E]; [rewrite Z; now apply b2r_lt_big|]. split; [exact F|]. now rewrite E.
Qed.

(** *** the components of a matrix-vector product *)
Lemma device_eq (L : Libm) (m : mat4 f32) (x y z : f32) :
  let row i := Bplus mode_NE (Bplus mode_NE (Bmult mode_NE (at4 m 0 i) x) (Bmult mode_NE (at4 m 1 i) y))
                             (Bplus mode_NE (Bmult mode_NE (at4 m 2 i) z) (Bmult mode_NE (at4 m 3 i) (f32_lit 1 0))) in
  device L m x y z = V4 (Bdiv mode_NE (row 0%nat) (row 3%nat)) (Bdiv mode_NE (row 1%nat) (row 3%nat))
                        (Bdiv mode_NE (row 2%nat) (row 3%nat)) (Bdiv mode_NE (row 3%nat) (row 3%nat)).
Proof. reflexivity. Qed.

Section ROWS.
  Variables (x y z o a0 b0 c e : f32).
  Hypothesis (Fo : finite o) (Zo : b2r o = 0) (Fx : finite x) (Fy : finite y) (Fz : finite z).
  Lemma row_w s : s = 1 \/ s = -1 -> finite c -> b2r c = s ->
    let w := Bplus mode_NE (Bplus mode_NE (Bmult mode_NE o x) (Bmult mode_NE o y)) (Bplus mode_NE (Bmult mode_NE c z) (Bmult mode_NE o (f32_lit 1 0))) in
    finite w /\ b2r w = s * b2r z.
  Proof.
    intros S Fc Ec. destruct (zero_mult o x Fo Zo Fx) as [F1 E1]. destruct (zero_mult o y Fo Zo Fy) as [F2 E2].
    destruct (zero_mult o _ Fo Zo fin_lit1) as [F3 E3]. destruct (mult_unit c z s S Fc Ec Fz) as [F4 E4].
    destruct (zero_plus _ _ F1 E1 F2) as [F5 E5]. rewrite E2 in E5. destruct (plus_zero _ _ F3 E3 F4) as [F6 E6]. rewrite E4 in E6.
    destruct (zero_plus _ _ F5 E5 F6) as [F7 E7]. rewrite E6 in E7. now split.
  Qed.
  Lemma row_z : finite c -> finite e -> finite (Bplus mode_NE (Bmult mode_NE c z) (Bmult mode_NE e (f32_lit 1 0))) ->
    let w := Bplus mode_NE (Bplus mode_NE (Bmult mode_NE o x) (Bmult mode_NE o y)) (Bplus mode_NE (Bmult mode_NE c z) (Bmult mode_NE e (f32_lit 1 0))) in
    finite w /\ b2r w = b2r (Bplus mode_NE (Bmult mode_NE c z) (Bmult mode_NE e (f32_lit 1 0))).
  Proof.
    intros Fc Fe Fs. destruct (zero_mult o x Fo Zo Fx) as [F1 E1]. destruct (zero_mult o y Fo Zo Fy) as [F2 E2].
    destruct (zero_plus _ _ F1 E1 F2) as [F5 E5]. rewrite E2 in E5. now apply zero_plus.
  Qed.
  Lemma row_x : finite (Bmult mode_NE c x) ->
    let w := Bplus mode_NE (Bplus mode_NE (Bmult mode_NE c x) (Bmult mode_NE o y)) (Bplus mode_NE (Bmult mode_NE o z) (Bmult mode_NE o (f32_lit 1 0))) in
    finite w /\ b2r w = b2r (Bmult mode_NE c x).
  Proof.
    intros Fc. destruct (zero_mult o z Fo Zo Fz) as [F1 E1]. destruct (zero_mult o y Fo Zo Fy) as [F2 E2].
    destruct (zero_mult o _ Fo Zo fin_lit1) as [F3 E3]. destruct (zero_plus _ _ F1 E1 F3) as [F5 E5]. rewrite E3 in E5.
    destruct (plus_zero _ _ F2 E2 Fc) as [F6 E6]. destruct (plus_zero _ _ F5 E5 F6) as [F7 E7]. split; [exact F7|]. now rewrite E7.
  Qed.
  Lemma row_y : finite (Bmult mode_NE c y) ->
    let w := Bplus mode_NE (Bplus mode_NE (Bmult mode_NE o x) (Bmult mode_NE c y)) (Bplus mode_NE (Bmult mode_NE o z) (Bmult mode_NE o (f32_lit 1 0))) in
    finite w /\ b2r w = b2r (Bmult mode_NE c y).
  Proof.
    intros Fc. destruct (zero_mult o z Fo Zo Fz) as [F1 E1]. destruct (zero_mult o x Fo Zo Fx) as [F2 E2].
    destruct (zero_mult o _ Fo Zo fin_lit1) as [F3 E3]. destruct (zero_plus _ _ F1 E1 F3) as [F5 E5]. rewrite E3 in E5.
    destruct (zero_plus _ _ F2 E2 Fc) as [F6 E6]. destruct (plus_zero _ _ F5 E5 F6) as [F7 E7]. split; [exact F7|]. now rewrite E7.
  Qed.
End ROWS.

(** *** the depth of one point *)
Lemma two_err a b i : 0 <= i <= 10 -> Rabs a <= i * ulp_half -> Rabs b <= 1 * ulp_half -> Rabs ((1 + a) * (1 + b) - 1) <= (i + 1 + / 100) * ulp_half.
Proof.
  intros Hi Ha Hb. rewrite uval in *. replace ((1 + a) * (1 + b) - 1) with (a + b + a * b) by ring.
  assert (Rabs (a * b) <= / 1000 * / 16777216). { rewrite Rabs_mult. pose proof (Rabs_pos a). pose proof (Rabs_pos b). nra. }
  eapply Rle_trans; [apply Rabs_triang|]. eapply Rle_trans; [apply Rplus_le_compat_r, Rabs_triang|]. lra.
Qed.
Lemma quot_bound (S D V W : R) : 1 <= W <= IZR (2 ^ 20) -> Rabs (S / D - V) <= (614 / 100) * ulp_half * W -> Rabs V <= W ->
  Rabs (rnd (S / D)) < big /\ Rabs (rnd (S / D) - V) <= 8 * ulp_half * W.
Proof.
  intros HW H HV. pose proof tiny_small as T. pose proof uval as U.
  assert (B : Rabs (S / D) <= 101 / 100 * W).
  { replace (S / D) with (S / D - V + V) by ring. eapply Rle_trans; [apply Rabs_triang|]. rewrite U in H. lra. }
  pose proof (rnd_err_t _ _ B) as E. change PfQuatAcc.u with ulp_half in *. split.
  - apply Rle_lt_trans with (bpow radix2 22); [|apply bpow_lt; lia]. apply rnd_abs_le; [apply fmt_bpow; lia|]. eapply Rle_trans; [exact B|].
    change (bpow radix2 22) with (IZR (4 * 2 ^ 20)). rewrite mult_IZR. lra.
  - replace (rnd (S / D) - V) with (rnd (S / D) - S / D + (S / D - V)) by ring. eapply Rle_trans; [apply Rabs_triang|]. rewrite U in *. nra.
Qed.
Lemma depth_core (x y z o c e g : f32) (s za zb D : R) : s = 1 \/ s = -1 ->
  all_finite [x; y; z] -> finite o -> b2r o = 0 -> finite g -> b2r g = s ->
  rel_close (41 / 10) c za -> rel_close (41 / 10) e zb -> D = s * b2r z -> moderate D -> 0 < D ->
  1 <= Rabs za <= 3 -> Rabs zb <= 4 * D ->
  let wrow := Bplus mode_NE (Bplus mode_NE (Bmult mode_NE o x) (Bmult mode_NE o y)) (Bplus mode_NE (Bmult mode_NE g z) (Bmult mode_NE o (f32_lit 1 0))) in
  let zrow := Bplus mode_NE (Bplus mode_NE (Bmult mode_NE o x) (Bmult mode_NE o y)) (Bplus mode_NE (Bmult mode_NE c z) (Bmult mode_NE e (f32_lit 1 0))) in
  finite wrow /\ b2r wrow = D /\
  finite (Bdiv mode_NE zrow wrow) /\ Rabs (b2r (Bdiv mode_NE zrow wrow) - (za * s + zb / D)) <= 8 * ulp_half * (Rabs za + Rabs zb / D) /\
  b2r (Bdiv mode_NE wrow wrow) = 1.
Proof.
  intros S F Fo Zo Fg Eg Hc He ED MD PD Ha Hb wrow zrow. unfold all_finite in F. frange F.
  destruct (row_w x y z o g Fo Zo ltac:(assumption) ltac:(assumption) ltac:(assumption) s S Fg Eg) as [Fw Ew].
  fold wrow in Fw, Ew. rewrite <- ED in Ew.
  assert (SS : s * s = 1) by (destruct S as [->| ->]; ring). assert (Ez : b2r z = s * D) by (rewrite ED; nra).
  assert (AS : Rabs s = 1) by (destruct S as [->| ->]; unfold Rabs; destruct Rcase_abs; lra).
  destruct MD as [MD1 MD2]. rewrite Rabs_pos_eq in MD1, MD2 by lra.
  assert (RP : in_range (za * b2r z)).
  { right. rewrite Ez, !Rabs_mult, AS, Rmult_1_l, (Rabs_pos_eq D) by lra. split.
    - apply Rle_trans with (/ IZR (2 ^ 50)); [apply Rinv_le_contravar; [now apply IZR_lt|now apply IZR_le]|]. nra.
    - apply Rle_trans with (4 * IZR (2 ^ 50)); [nra|]. rewrite <- mult_IZR. now apply IZR_le. }
  assert (Fz : finite z) by assumption.
  pose proof (rel_mul (41 / 10) 0 c z za (b2r z) ltac:(lra) ltac:(lra) Hc (rel_exact z Fz) RP) as HP.
  destruct He as [Fe He]. destruct (mult_one e Fe) as [F1 E1]. pose proof (conj Fe He : rel_close (41/10) e zb) as He'.
  apply rel_factor in HP as [FP [e1 [He1 EP]]]; [|lra]. apply rel_factor in He' as [_ [e2 [He2 Ee]]]; [|lra].
  assert (U := uval).
  assert (BP : Rabs (b2r (Bmult mode_NE c z)) <= IZR (2 ^ 120)).
  { rewrite EP, Ez, !Rabs_mult, AS, Rmult_1_l, (Rabs_pos_eq D) by lra. apply Rle_trans with (3 * D * 2).
    - apply Rmult_le_compat; try apply Rmult_le_pos; try apply Rabs_pos; try lra; [nra|]. rewrite U in He1. apply Rabs_le_inv in He1. apply Rabs_le. lra.
    - apply Rle_trans with (8 * IZR (2 ^ 50)); [lra|]. rewrite <- mult_IZR. now apply IZR_le. }
  assert (BE : Rabs (b2r (Bmult mode_NE e (f32_lit 1 0))) <= IZR (2 ^ 120)).
  { rewrite E1, Ee, Rabs_mult. apply Rle_trans with (4 * D * 2).
    - apply Rmult_le_compat; try apply Rabs_pos; try lra. rewrite U in He2. apply Rabs_le_inv in He2. apply Rabs_le. lra.
    - apply Rle_trans with (8 * IZR (2 ^ 50)); [lra|]. rewrite <- mult_IZR. now apply IZR_le. }
  pose proof (rel_plus _ _ FP F1 BP BE) as HS. apply rel_factor in HS as [FS [e3 [He3 ES]]]; [|lra].
  destruct (row_z x y z o c e Fo Zo ltac:(assumption) ltac:(assumption) (proj1 Hc) Fe FS) as [Fr Er]. fold zrow in Fr, Er.
  rewrite ES, EP, E1, Ee, Ez in Er.
  assert (ND : D <> 0) by lra.
  assert (Q : b2r zrow / D - (za * s + zb / D) = za * s * ((1 + e1) * (1 + e3) - 1) + zb / D * ((1 + e2) * (1 + e3) - 1)) by (rewrite Er; field; exact ND).
  assert (PB : 0 <= Rabs zb / D <= 4).
  { split; [apply Rmult_le_pos; [apply Rabs_pos|left; now apply Rinv_0_lt_compat]|]. apply Rmult_le_reg_r with D; [exact PD|]. unfold Rdiv. rewrite Rmult_assoc, Rinv_l; lra. }
  assert (AB : Rabs (zb / D) = Rabs zb / D) by (unfold Rdiv; rewrite Rabs_mult, Rabs_inv, (Rabs_pos_eq D) by lra; reflexivity).
  destruct (quot_bound (b2r zrow) D (za * s + zb / D) (Rabs za + Rabs zb / D)) as [BQ HQ].
  - split; [lra|]. apply Rle_trans with 8; [lra|now apply (IZR_le 8)].
  - rewrite Q. eapply Rle_trans; [apply Rabs_triang|]. rewrite !(Rabs_mult (_ * s)), !(Rabs_mult (_ / D)), AB, Rabs_mult, AS, Rmult_1_r.
    pose proof (two_err e1 e3 (41 / 10 + 0 + 1 + / 100) ltac:(lra) He1 He3) as T1. pose proof (two_err e2 e3 (41 / 10) ltac:(lra) He2 He3) as T2. rewrite U in *.
    assert (X1 : Rabs za * Rabs ((1 + e1) * (1 + e3) - 1) <= Rabs za * (614 / 100 * / 16777216)) by (apply Rmult_le_compat_l; lra).
    assert (X2 : Rabs zb / D * Rabs ((1 + e2) * (1 + e3) - 1) <= Rabs zb / D * (614 / 100 * / 16777216)) by (apply Rmult_le_compat_l; lra).
    lra.
  - eapply Rle_trans; [apply Rabs_triang|]. rewrite AB, Rabs_mult, AS. lra.
  - assert (NW : b2r wrow <> 0) by (rewrite Ew; exact ND). rewrite <- Ew in BQ. destruct (div_ok zrow wrow Fr Fw NW BQ) as [Fd Ed]. rewrite Ew in Ed.
    split; [exact Fw|]. split; [exact Ew|]. split; [exact Fd|]. split; [rewrite Ed; exact HQ|].
    assert (O : rnd (b2r wrow / b2r wrow) = 1) by (unfold Rdiv; rewrite Rinv_r by exact NW; apply rnd_id, fmt_1).
    destruct (div_ok wrow wrow Fw Fw NW) as [_ E]; [rewrite O, Rabs_R1; change 1 with (bpow radix2 0); apply bpow_lt; lia|]. now rewrite E.
Qed.

(** *** the four matrices *)
Section RANGE.
  Variables n f : f32.
  Hypothesis R : depth_range n f.
  Let N := b2r n. Let G := b2r f / (b2r f - b2r n).
  Lemma g_facts : 0 < N /\ 1 <= G <= 2 /\ G * (b2r f - b2r n) = b2r f /\ b2r n <> b2r f /\ 0 < b2r f - b2r n.
  Proof.
    destruct R as (_ & P & Q & _). unfold N, G. assert (D : 0 < b2r f - b2r n) by lra.
    assert (E : b2r f / (b2r f - b2r n) * (b2r f - b2r n) = b2r f) by (field; lra).
    repeat split; try lra; apply Rmult_le_reg_r with (b2r f - b2r n); trivial; lra.
  Qed.
  Lemma pos_range v : / IZR (2 ^ 50) <= v <= 8 * IZR (2 ^ 50) -> in_range v.
  Proof.
    intros [A B]. assert (0 < / IZR (2 ^ 50)) by (apply Rinv_0_lt_compat; now apply IZR_lt). right. rewrite Rabs_pos_eq by lra. split.
    - eapply Rle_trans; [|exact A]. apply Rinv_le_contravar; [now apply IZR_lt|now apply IZR_le].
    - eapply Rle_trans; [exact B|]. rewrite <- mult_IZR. now apply IZR_le.
  Qed.
  Lemma unit_range v : 1 <= v <= 4 -> in_range v.
  Proof.
    intros H. apply pos_range. split.
    - apply Rle_trans with (/ 1); [|lra]. apply Rinv_le_contravar; [lra|now apply (IZR_le 1)].
    - assert (1 <= IZR (2 ^ 50)) by now apply (IZR_le 1). lra.
  Qed.
  Lemma near_range v : 1 <= v <= 4 -> in_range (v * N).
  Proof.
    intros H. destruct R as (_ & P & _ & [A B] & _). rewrite Rabs_pos_eq in A, B by lra. apply pos_range. unfold N. split; nra.
  Qed.
  Lemma za_1 : b2r f / (b2r n - b2r f) = - G. Proof. pose proof g_facts. unfold G. field. lra. Qed.
  Lemma zb_1 : - (b2r f * b2r n) / (b2r f - b2r n) = - (G * N). Proof. pose proof g_facts. unfold G, N. field. lra. Qed.
  Lemma za_2 : (b2r f + b2r n) / (b2r f - b2r n) = 2 * G - 1. Proof. pose proof g_facts. unfold G. field. lra. Qed.
  Lemma za_2' : - (b2r f + b2r n) / (b2r f - b2r n) = - (2 * G - 1). Proof. pose proof g_facts. unfold G. field. lra. Qed.
  Lemma zb_2 : - (2 * b2r f * b2r n) / (b2r f - b2r n) = - (2 * G * N). Proof. pose proof g_facts. unfold G, N. field. lra. Qed.
  Lemma depth_1 d : 0 < d -> depth01 (b2r n) (b2r f) d = G + - (G * N) / d.
  Proof. intros H. pose proof g_facts. unfold depth01, G, N. field. lra. Qed.
  Lemma depth_2 d : 0 < d -> depth11 (b2r n) (b2r f) d = 2 * G - 1 + - (2 * G * N) / d.
  Proof. intros H. pose proof g_facts. unfold depth11, G, N. field. lra. Qed.

  Lemma depth_any L (m : mat4 f32) (x y z o : f32) (s width za zb V : Rdefinitions.R) :
    s = 1 \/ s = -1 -> finite o -> b2r o = 0 ->
    at4 m 0 2 = o -> at4 m 1 2 = o -> at4 m 0 3 = o -> at4 m 1 3 = o -> at4 m 3 3 = o -> finite (at4 m 2 3) -> b2r (at4 m 2 3) = s ->
    rel_close (41 / 10) (at4 m 2 2) za -> rel_close (41 / 10) (at4 m 3 2) zb ->
    all_finite [x; y; z] -> N <= s * b2r z <= b2r f ->
    1 <= Rabs za <= 3 -> Rabs zb <= 4 * N -> Rabs za + Rabs zb / N <= 2 * width * G -> V = za * s + zb / (s * b2r z) ->
    let p := device L m x y z in
    finite (z4 p) /\ b2r (w4 p) = 1 /\ Rabs (b2r (z4 p) - V) <= 16 * width * ulp_half * G.
  Proof.
    intros S Fo Zo E02 E12 E03 E13 E33 F23 E23 Hc He F B A1 B1 W -> p. unfold p. rewrite device_eq. cbn [z4 w4].
    rewrite E02, E12, E03, E13, E33. destruct g_facts as [PN _].
    assert (PD : 0 < s * b2r z) by lra.
    destruct (depth_core x y z o (at4 m 2 2) (at4 m 3 2) (at4 m 2 3) s za zb (s * b2r z)) as (_ & _ & X1 & X2 & X3); trivial; try lra.
    { destruct R as (_ & _ & _ & [M1 _] & [_ M2]). rewrite Rabs_pos_eq in M1, M2 by (unfold N in *; lra). unfold N in *. split; rewrite Rabs_pos_eq by lra; lra. }
    split; [exact X1|]. split; [exact X3|]. eapply Rle_trans; [exact X2|].
    assert (Q : Rabs zb / (s * b2r z) <= Rabs zb / N). { apply Rmult_le_compat_l; [apply Rabs_pos|]. apply Rinv_le_contravar; lra. }
    rewrite uval. lra.
  Qed.
End RANGE.
Ltac persp_open E := unfold perspectiveRH_ZO, perspectiveRH_NO, perspectiveLH_ZO, perspectiveLH_NO, bind in E;
    match type of E with (match ?c with _ => _ end = _) => destruct c; try discriminate end; injection E as <-.
Lemma b2r_Bopp1 : b2r (Bopp (f32_lit 1 0)) = -1. Proof. rewrite Bopp_b2r, b2r_lit1. reflexivity. Qed.
Ltac depth_side R := try reflexivity; try exact b2r_lit1; try exact b2r_Bopp1; try (first [now left|now right]); trivial.

(** Device depth, for each of the four perspective matrices: the fourth component is exactly 1 and the depth of a point
    between the planes is within 16 half-ulps of the ideal one, times the length of the range and f / (f - n). *)
Lemma C99_depth_pf : forall (L : Libm) (b : build),
  depth_accurate L (perspectiveRH_ZO (F32 L) b) (-1) 1 depth01 /\
  depth_accurate L (perspectiveLH_ZO (F32 L) b) 1 1 depth01 /\
  depth_accurate L (perspectiveRH_NO (F32 L) b) (-1) 2 depth11 /\
  depth_accurate L (perspectiveLH_NO (F32 L) b) 1 2 depth11.
Proof.
  intros L b.
  split; [|split; [|split]]; intros fovy aspect n f x y z m E R F B; persp_open E;
    pose proof (g_facts n f R) as (PN & PG & EG & NE & PD);
    pose proof (depth_1 n f R) as D1; pose proof (depth_2 n f R) as D2; pose proof (za_1 n f R) as A1; pose proof (zb_1 n f R) as B1;
    pose proof (za_2 n f R) as A2; pose proof (za_2' n f R) as A2'; pose proof (zb_2 n f R) as B2;
    pose proof (near_range n f R) as NR; pose proof R as ([Fn Ff]%Forall_cons_iff & _ & _ & Mn & Mf); apply Forall_inv in Ff;
    set (G := b2r f / (b2r f - b2r n)) in *; set (N := b2r n) in *.
  - apply (depth_any n f R L _ x y z (f32_lit 0 0) (-1) 1 (- G) (- (G * N))); depth_side R.
    + rewrite <- A1. replace (41 / 10) with (0 + 41 / 10) by ring. apply (d_far' n f); trivial; [lra|]. fold N. rewrite A1. apply in_range_opp, unit_range; lra.
    + rewrite <- B1. replace (41 / 10) with (0 + 41 / 10) by ring. apply (d_prod n f); trivial; [lra|]. fold N. rewrite B1. apply in_range_opp, NR; lra.
    + rewrite Rabs_Ropp, Rabs_pos_eq by lra; split; lra.
    + fold N. rewrite Rabs_Ropp, Rabs_pos_eq; nra.
    + fold N. fold G. rewrite Rabs_Ropp, Rabs_Ropp, !Rabs_pos_eq by nra. replace (G * N / N) with G by (field; lra). lra.
    + rewrite D1 by lra. field. lra.
  - apply (depth_any n f R L _ x y z (f32_lit 0 0) 1 1 G (- (G * N))); depth_side R.
    + unfold G. replace (41 / 10) with (0 + 41 / 10) by ring. apply (d_far n f); trivial; [lra|]. apply unit_range; fold N; fold G; lra.
    + rewrite <- B1. replace (41 / 10) with (0 + 41 / 10) by ring. apply (d_prod n f); trivial; [lra|]. fold N. rewrite B1. apply in_range_opp, NR; lra.
    + rewrite Rabs_pos_eq by lra; split; lra.
    + fold N. rewrite Rabs_Ropp, Rabs_pos_eq; nra.
    + fold N. fold G. rewrite Rabs_Ropp, !Rabs_pos_eq by nra. replace (G * N / N) with G by (field; lra). lra.
    + rewrite D1 by lra. field. lra.
  - apply (depth_any n f R L _ x y z (f32_lit 0 0) (-1) 2 (- (2 * G - 1)) (- (2 * G * N))); depth_side R.
    + rewrite <- A2'. replace (41 / 10) with (0 + 41 / 10) by ring. apply (d_sum n f); trivial; [lra|]. fold N. rewrite A2'. apply in_range_opp, unit_range; lra.
    + rewrite <- B2. replace (41 / 10) with (0 + 41 / 10) by ring. apply (d_prod2 n f); trivial; [lra|]. fold N. rewrite B2. apply in_range_opp, NR; lra.
    + rewrite Rabs_Ropp, Rabs_pos_eq by lra; split; lra.
    + fold N. rewrite Rabs_Ropp, Rabs_pos_eq; nra.
    + fold N. fold G. rewrite Rabs_Ropp, Rabs_Ropp, !Rabs_pos_eq by nra. replace ((2 * G) * N / N) with (2 * G) by (field; lra). lra.
    + rewrite D2 by lra. field. lra.
  - apply (depth_any n f R L _ x y z (f32_lit 0 0) 1 2 (2 * G - 1) (- (2 * G * N))); depth_side R.
    + rewrite <- A2. replace (41 / 10) with (0 + 41 / 10) by ring. apply (d_sum' n f); trivial; [lra|]. fold N. rewrite A2. apply unit_range; lra.
    + rewrite <- B2. replace (41 / 10) with (0 + 41 / 10) by ring. apply (d_prod2 n f); trivial; [lra|]. fold N. rewrite B2. apply in_range_opp, NR; lra.
    + rewrite Rabs_pos_eq by lra; split; lra.
    + fold N. rewrite Rabs_Ropp, Rabs_pos_eq; nra.
    + fold N. fold G. rewrite Rabs_Ropp, !Rabs_pos_eq by nra. replace ((2 * G) * N / N) with (2 * G) by (field; lra). lra.
    + rewrite D2 by lra. field. lra.
Qed.

Lemma ordered_from L matrix s width depth : 0 < width -> depth_accurate L matrix s width depth ->
  (forall n f d d', 0 < n < f -> 0 < d -> 0 < d' -> depth n f d' - depth n f d = width * (f / (f - n)) * (n * (/ d - / d'))) ->
  depth_ordered L matrix s.
Proof.
  intros W A H fovy aspect n f x y z x' y' z' m E R F d d' B B' X. unfold all_finite in F. frange F.
  assert (F1 : all_finite [x; y; z]) by (repeat apply Forall_cons; try apply Forall_nil; trivial).
  assert (F2 : all_finite [x'; y'; z']) by (repeat apply Forall_cons; try apply Forall_nil; trivial).
  destruct (A _ _ _ _ _ _ _ _ E R F1 B) as (G1 & _ & E1). destruct (A _ _ _ _ _ _ _ _ E R F2 B') as (G2 & _ & E2).
  rewrite bltb_b2r by assumption. apply Rlt_bool_true. fold d in E1. fold d' in E2.
  destruct (g_facts n f R) as (PN & PG & _ & _ & PD). cbv zeta in *.
  assert (Q := H (b2r n) (b2r f) d d' ltac:(lra) ltac:(lra) ltac:(lra)).
  set (G := b2r f / (b2r f - b2r n)) in *. set (t := b2r n * (/ d - / d')) in *.
  assert (Y : 32 * width * ulp_half * G < width * G * t).
  { replace (32 * width * ulp_half * G) with (width * G * (32 * ulp_half)) by ring. apply Rmult_lt_compat_l; [|exact X]. apply Rmult_lt_0_compat; lra. }
  apply Rabs_le_inv in E1. apply Rabs_le_inv in E2. lra.
Qed.
(** The depth test: of two points between the planes, at distances d and d', the nearer one gets a strictly smaller device
    depth as soon as n (1/d - 1/d') exceeds 32 half-ulps. *)
Lemma C99_order_pf : forall (L : Libm) (b : build),
  depth_ordered L (perspectiveRH_ZO (F32 L) b) (-1) /\ depth_ordered L (perspectiveLH_ZO (F32 L) b) 1 /\
  depth_ordered L (perspectiveRH_NO (F32 L) b) (-1) /\ depth_ordered L (perspectiveLH_NO (F32 L) b) 1.
Proof.
  intros L b. destruct (C99_depth_pf L b) as (A1 & A2 & A3 & A4).
  assert (D1 : forall n f d d', 0 < n < f -> 0 < d -> 0 < d' -> depth01 n f d' - depth01 n f d = 1 * (f / (f - n)) * (n * (/ d - / d')))
    by (intros; unfold depth01; field; lra).
  assert (D2 : forall n f d d', 0 < n < f -> 0 < d -> 0 < d' -> depth11 n f d' - depth11 n f d = 2 * (f / (f - n)) * (n * (/ d - / d')))
    by (intros; unfold depth11; field; lra).
  repeat split; [apply (ordered_from _ _ _ 1 depth01)|apply (ordered_from _ _ _ 1 depth01)|apply (ordered_from _ _ _ 2 depth11)|apply (ordered_from _ _ _ 2 depth11)];
    trivial; lra.
Qed.

(** *** screen position *)
Lemma screen_any L (m : mat4 f32) (aspect x y z o h : f32) (s k a T : R) : s = 1 \/ s = -1 ->
  finite o -> b2r o = 0 -> finite (at4 m 2 3) -> b2r (at4 m 2 3) = s ->
  at4 m 0 3 = o -> at4 m 1 3 = o -> at4 m 3 3 = o -> at4 m 1 0 = o -> at4 m 2 0 = o -> at4 m 3 0 = o -> at4 m 0 1 = o -> at4 m 2 1 = o -> at4 m 3 1 = o ->
  at4 m 0 0 = Bdiv mode_NE (f32_lit 1 0) (Bmult mode_NE aspect h) -> at4 m 1 1 = Bdiv mode_NE (f32_lit 1 0) h ->
  finite aspect -> b2r aspect = a -> 0 <= k <= 40 -> rel_close k h T -> moderate a -> moderate T -> all_finite [x; y; z] -> 0 < s * b2r z ->
  Forall in_range [1 / (a * T); b2r x / (a * T); b2r x / (a * T) / (s * b2r z); 1 / T; b2r y / T; b2r y / T / (s * b2r z)] ->
  rel_close (k + 5) (x4 (device L m x y z)) (b2r x / (a * T * (s * b2r z))) /\
  rel_close (k + 5) (y4 (device L m x y z)) (b2r y / (T * (s * b2r z))).
Proof.
  intros S Fo Zo F23 E23 E03 E13 E33 E10 E20 E30 E01 E21 E31 E00 E11 Fa Ea Hk Hh Ma MT F PD R. rewrite device_eq. cbn [x4 y4].
  rewrite E03, E13, E33, E10, E20, E30, E01, E21, E31. unfold all_finite in F. frange F. frange R.
  destruct (row_w x y z o (at4 m 2 3) Fo Zo ltac:(assumption) ltac:(assumption) ltac:(assumption) s S F23 E23) as [Fw Ew].
  match type of Fw with finite ?t => set (w := t) in * end.
  assert (NT : T <> 0) by now apply moderate_nz. assert (NA : a <> 0) by now apply moderate_nz. assert (ND : s * b2r z <> 0) by lra.
  assert (NAT : a * T <> 0) by now apply Rmult_integral_contrapositive.
  assert (L1 : rel_close 0 (f32_lit 1 0) 1) by (apply (lit_rel 0 1); [lra|reflexivity]).
  assert (HW : rel_close 0 w (s * b2r z)) by (rewrite <- Ew; now apply rel_exact).
  assert (X0 : rel_close (k + 204 / 100) (at4 m 0 0) (1 / (a * T))).
  { rewrite E00. eapply rel_weaken; [|apply (rel_div 0 (0 + k + 1 + / 100) _ _ 1 (a * T))]; trivial; try lra.
    apply rel_mul; trivial; try lra; [rewrite <- Ea; now apply rel_exact|now apply moderate_mul]. }
  assert (Y0 : rel_close (k + 204 / 100) (at4 m 1 1) (1 / T)).
  { rewrite E11. eapply rel_weaken; [|apply (rel_div 0 k _ _ 1 T)]; trivial; try lra. }
  assert (X1 : rel_close (k + 306 / 100) (Bmult mode_NE (at4 m 0 0) x) (b2r x / (a * T))).
  { replace (b2r x / (a * T)) with (1 / (a * T) * b2r x) by (field; auto). eapply rel_weaken; [|apply (rel_mul (k + 204 / 100) 0)]; trivial; try lra;
      [now apply rel_exact|]. replace (1 / (a * T) * b2r x) with (b2r x / (a * T)) by (field; auto). assumption. }
  assert (Y1 : rel_close (k + 306 / 100) (Bmult mode_NE (at4 m 1 1) y) (b2r y / T)).
  { replace (b2r y / T) with (1 / T * b2r y) by (field; auto). eapply rel_weaken; [|apply (rel_mul (k + 204 / 100) 0)]; trivial; try lra;
      [now apply rel_exact|]. replace (1 / T * b2r y) with (b2r y / T) by (field; auto). assumption. }
  destruct (row_x x y z o (at4 m 0 0) Fo Zo ltac:(assumption) ltac:(assumption) (proj1 X1)) as [FX EX].
  destruct (row_y x y z o (at4 m 1 1) Fo Zo ltac:(assumption) ltac:(assumption) (proj1 Y1)) as [FY EY].
  match type of FX with finite ?t => set (rx := t) in * end. match type of FY with finite ?t => set (ry := t) in * end.
  assert (X2 : rel_close (k + 306 / 100) rx (b2r x / (a * T))) by (split; [exact FX|rewrite EX; exact (proj2 X1)]).
  assert (Y2 : rel_close (k + 306 / 100) ry (b2r y / T)) by (split; [exact FY|rewrite EY; exact (proj2 Y1)]).
  split.
  - replace (b2r x / (a * T * (s * b2r z))) with (b2r x / (a * T) / (s * b2r z)) by (field; repeat split; trivial; intro Z; rewrite Z in *; lra).
    eapply rel_weaken; [|apply (rel_div (k + 306 / 100) 0 _ _ _ (s * b2r z))]; trivial; lra.
  - replace (b2r y / (T * (s * b2r z))) with (b2r y / T / (s * b2r z)) by (field; repeat split; trivial; intro Z; rewrite Z in *; lra).
    eapply rel_weaken; [|apply (rel_div (k + 306 / 100) 0 _ _ _ (s * b2r z))]; trivial; lra.
Qed.
(** Screen position, for each of the four perspective matrices and a tangent accurate to k half-ulps: within k + 5
    half-ulps, relatively, of x / (aspect tan(fovy/2) d) and y / (tan(fovy/2) d). *)
Lemma C99_screen_pf : forall (L : Libm) (b : build),
  screen_accurate L (perspectiveRH_ZO (F32 L) b) (-1) /\ screen_accurate L (perspectiveLH_ZO (F32 L) b) 1 /\
  screen_accurate L (perspectiveRH_NO (F32 L) b) (-1) /\ screen_accurate L (perspectiveLH_NO (F32 L) b) 1.
Proof.
  intros L b. split; [|split; [|split]]; intros fovy aspect n f x y z k m T a d E R F B RF M Hk HT I; persp_open E;
    pose proof (g_facts n f R) as (PN & _); unfold all_finite in F; frange F; frange M;
    (destruct (half_exact fovy) as [HF HE]; [assumption|assumption|]); pose proof (HT _ HF HE) as Hh;
    (eapply (screen_any L _ aspect x y z (f32_lit 0 0) _ _ k a T); [..|exact I]); depth_side R;
    try exact Hh; try (repeat apply Forall_cons; try apply Forall_nil; assumption); unfold d in *; lra.
Qed.

(** *** two points that are too close *)
Lemma same_float (x y : f32) : finite x -> is_finite_strict y = true -> b2r x = b2r y -> x = y.
Proof.
  intros F S E. apply B2R_inj; [|exact S|exact E].
  destruct x as [sx|sx| |sx mx ex Hx]; try discriminate F; [|reflexivity]. destruct y as [sy|sy| |sy my ey Hy]; try discriminate S.
  exfalso. cbn in E. assert (B2R (B754_finite sy my ey Hy : f32) <> 0).
  { intro Z. unfold B2R in Z. apply eq_0_F2R in Z. destruct sy; discriminate Z. }
  apply H. cbn. symmetry. exact E.
Qed.
Lemma rh_zo_entries L b fovy aspect n f (m : mat4 f32) : perspectiveRH_ZO (F32 L) b fovy aspect n f = Ret m ->
  at4 m 0 2 = f32_lit 0 0 /\ at4 m 1 2 = f32_lit 0 0 /\ at4 m 0 3 = f32_lit 0 0 /\ at4 m 1 3 = f32_lit 0 0 /\ at4 m 3 3 = f32_lit 0 0 /\
  at4 m 2 3 = Bopp (f32_lit 1 0) /\ at4 m 2 2 = Bdiv mode_NE f (Bminus mode_NE n f) /\
  at4 m 3 2 = Bdiv mode_NE (Bopp (Bmult mode_NE f n)) (Bminus mode_NE f n).
Proof. intros E. persp_open E. repeat split; reflexivity. Qed.
Definition close_n : f32 := f32_ofZ 1.
Definition close_f : f32 := f32_ofZ 100.
Definition close_z : f32 := Bdiv mode_NE (f32_ofZ (-16658263)) (f32_ofZ 524288).
Definition close_z' : f32 := Bdiv mode_NE (f32_ofZ (-2082283)) (f32_ofZ 65536).
Definition close_depth (z : f32) : f32 :=
  Bdiv mode_NE (Bplus mode_NE (Bmult mode_NE (Bdiv mode_NE close_f (Bminus mode_NE close_n close_f)) z)
                              (Bmult mode_NE (Bdiv mode_NE (Bopp (Bmult mode_NE close_f close_n)) (Bminus mode_NE close_f close_n)) (f32_lit 1 0)))
               (Bopp z).
Lemma close_device L b fovy aspect (m : mat4 f32) x y z : finite x -> finite y -> is_finite_strict z = true -> perspectiveRH_ZO (F32 L) b fovy aspect close_n close_f = Ret m ->
  is_finite_strict (Bplus mode_NE (Bmult mode_NE (Bdiv mode_NE close_f (Bminus mode_NE close_n close_f)) z)
      (Bmult mode_NE (Bdiv mode_NE (Bopp (Bmult mode_NE close_f close_n)) (Bminus mode_NE close_f close_n)) (f32_lit 1 0))) = true ->
  z4 (device L m x y z) = close_depth z.
Proof.
  intros Fx Fy Fz E FS. rewrite device_eq. cbn [z4].
  assert (Fz' : finite z) by (destruct z; try discriminate Fz; reflexivity).
  assert (FS' : forall v : f32, is_finite_strict v = true -> finite v) by (intros [] H; try discriminate H; reflexivity).
  destruct (rh_zo_entries L b fovy aspect close_n close_f m E) as (-> & -> & -> & -> & -> & -> & -> & ->). unfold close_depth.
  assert (C1 : finite (Bdiv mode_NE close_f (Bminus mode_NE close_n close_f))) by (vm_compute; reflexivity).
  assert (C2 : finite (Bdiv mode_NE (Bopp (Bmult mode_NE close_f close_n)) (Bminus mode_NE close_f close_n))) by (vm_compute; reflexivity).
  assert (Z0 : finite (f32_lit 0 0)) by reflexivity. assert (Z1 : b2r (f32_lit 0 0) = 0) by reflexivity.
  destruct (row_z x y z (f32_lit 0 0) _ _ Z0 Z1 Fx Fy C1 C2 (FS' _ FS)) as [F1 E1].
  destruct (row_w x y z (f32_lit 0 0) (Bopp (f32_lit 1 0)) Z0 Z1 Fx Fy Fz' (-1) (or_intror eq_refl) eq_refl b2r_Bopp1) as [F2 E2].
  f_equal; apply same_float; trivial; [now rewrite is_finite_strict_Bopp|]. rewrite E2, Bopp_b2r. ring.
Qed.
(** Without a margin the order is lost: with planes at 1 and 100, of two points about 31.77 away the one that is 2^-19
    farther gets a strictly smaller depth, for every field of view and aspect. *)
Lemma C99_close_points_refuted_pf : forall (L : Libm) (b : build), exists n f z z' : f32,
  depth_range n f /\ all_finite [z; z'] /\ b2r n <= - b2r z < - b2r z' /\ - b2r z' <= b2r f /\
  (exists fovy aspect m, perspectiveRH_ZO (F32 L) b fovy aspect n f = Ret m) /\
  (forall fovy aspect m x y, finite x -> finite y -> perspectiveRH_ZO (F32 L) b fovy aspect n f = Ret m ->
     Bltb (z4 (device L m x y z')) (z4 (device L m x y z)) = true).
Proof.
  intros L b. exists close_n, close_f, close_z, close_z'.
  assert (En : b2r close_n = 1) by (unfold close_n; now rewrite (ofZ_exact 1 eq_refl)).
  assert (Ef : b2r close_f = 100) by (unfold close_f; now rewrite (ofZ_exact 100 eq_refl)).
  assert (Ed : b2r close_z = -16658263 / 524288) by (vm_compute; lra).
  assert (Ed' : b2r close_z' = -2082283 / 65536) by (vm_compute; lra).
  assert (M1 : moderate 1) by (apply mid_moderate; absl).
  assert (M2 : moderate 100).
  { destruct M1 as [A B]. split; rewrite Rabs_pos_eq in * by lra; [lra|]. apply Rle_trans with (IZR (2 ^ 7)); [apply IZR_le; lia|now apply IZR_le]. }
  split; [|split; [|split; [lra|split; [lra|split]]]].
  - split; [repeat apply Forall_cons; try apply Forall_nil; reflexivity|]. rewrite En, Ef. repeat split; try lra; apply M1 || apply M2.
  - repeat apply Forall_cons; try apply Forall_nil; vm_compute; reflexivity.
  - exists (f32_ofZ 1), (f32_ofZ 1).
    match goal with |- exists m, perspectiveRH_ZO ?S _ ?x ?y ?u ?v = _ => let p := eval unfold perspectiveRH_ZO in (perspectiveRH_ZO S b x y u v) in change (exists m, p = Ret m) end.
    match goal with |- context [cassert ?b ?t] => assert (G : cassert b t = Ret tt) by (destruct b; vm_compute; reflexivity); rewrite G end. eexists. reflexivity.
  - intros fovy aspect m x y Fx Fy E.
    rewrite (close_device L b fovy aspect m x y close_z), (close_device L b fovy aspect m x y close_z'); trivial; try (vm_compute; reflexivity).

Qed.

(*PROPS
(** Points 10 and 11 away between planes at 1 and 100 are told apart: 1/10 - 1/11 is more than 32 half-ulps. *)
Example C99_case : let n := f32_ofZ 1 in let f := f32_ofZ 100 in let z := f32_ofZ (-10) in let z' := f32_ofZ (-11) in
  depth_range n f /\ all_finite [z; z'] /\ b2r n <= -1 * b2r z <= b2r f /\ b2r n <= -1 * b2r z' <= b2r f /\
  32 * ulp_half < b2r n * (/ (-1 * b2r z) - / (-1 * b2r z')).
Proof.
  cbv zeta. rewrite (ofZ_exact 1 eq_refl), (ofZ_exact (-10) eq_refl), (ofZ_exact (-11) eq_refl), (ofZ_exact 100 eq_refl).
  assert (M1 : moderate 1) by (apply mid_moderate; absl).
  assert (M2 : moderate 100).
  { destruct M1 as [A B]. split; rewrite Rabs_pos_eq in * by lra; [lra|]. apply Rle_trans with (IZR (2 ^ 7)); [apply IZR_le; lia|now apply IZR_le]. }
  split; [|split; [|split; [lra|split; [lra|rewrite uval; lra]]]].
  - unfold depth_range. rewrite (ofZ_exact 1 eq_refl), (ofZ_exact 100 eq_refl). repeat split; try lra; try apply M1; try apply M2.
    repeat apply Forall_cons; try apply Forall_nil; vm_compute; reflexivity.
  - repeat apply Forall_cons; try apply Forall_nil; vm_compute; reflexivity.
Qed.
(** A point one to the right and one up, 4 away, seen with a right-angle-ish field of view of 2 and aspect 2, is in range. *)
Example C99_screen_case : let a := 2 in let T := tan 1 in let d := 4 in
  Forall moderate [a; T] /\ Forall in_range [1 / (a * T); 1 / (a * T); 1 / (a * T) / d; 1 / T; 1 / T; 1 / T / d].
Proof.
  cbv zeta. pose proof tan1_bounds as T1.
  assert (D : 1 / 2 <= 1 / tan 1 <= 1).
  { assert (E : 1 / tan 1 * tan 1 = 1) by (field; lra). split; apply Rmult_le_reg_r with (tan 1); lra. }
  replace (1 / (2 * tan 1)) with (1 / tan 1 / 2) by (field; lra).
  split; repeat apply Forall_cons; try apply Forall_nil; try (apply mid_moderate; absl); apply mid_range; absl.
Qed.
PROPS*)
