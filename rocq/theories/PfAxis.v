(** * Proofs: angle and axis of a quaternion in binary32 *)
From Coq Require Import ZArith Bool Reals List Lra Lia.
From Flocq Require Import Core IEEE754.BinarySingleNaN.
From Verif Require Import Scalar IEEE32 RealInst Types Outcome Spec SpecR SpecMat SpecGeo SpecF32 SpecErr SpecOrd SpecDom SpecAcc SpecEuler SpecAxis FloatBasics FloatOps
  ModelVec ModelCommon ModelExp ModelGeom ModelQuat ModelTrig ModelQuaternion ErrLib OvfLib F32Tac RealTac PfSlerp PfEuler.
Import ListNotations.
Local Open Scope R_scope.
(*HEADER END*)
From Coq Require Import Psatz Ratan.
From Verif Require Import FloatAlg NumLib ScaleLib LenLib RelLib MonoLib DomLib PfQuatAcc PfOctAcc AbsLib PfRound PfEuler PfSlerp.

(** ** The reciprocal of the sine *)
Lemma inv_sqrt_change T t d : 0 < T -> 0 <= d <= / 40 -> - (d * T) <= t - T <= d * T ->
  0 < t /\ - (11/20 * d * / sqrt T) <= / sqrt t - / sqrt T <= 11/20 * d * / sqrt T.
Proof.
  intros PT Hd Ht. assert (DT : 0 <= d * T <= / 40 * T) by (split; [apply Rmult_le_pos; lra|apply Rmult_le_compat_r; lra]).
  assert (Pt : 0 < t) by lra. split; [exact Pt|].
  pose proof (sqrt_lt_R0 T PT) as PS. pose proof (sqrt_lt_R0 t Pt) as Ps. pose proof (sqrt_sqrt T ltac:(lra)) as QT. pose proof (sqrt_sqrt t ltac:(lra)) as Qt.
  set (a := sqrt T) in *. set (b := sqrt t) in *.
  assert (BA : 98/100 * a <= b) by (apply Rnot_lt_le; intros H; assert (b * b < (98/100 * a) * (98/100 * a)) by (apply Rmult_le_0_lt_compat; lra); nra).
  set (i := / a). set (j := / b). assert (Ii : i * a = 1) by (unfold i; field; lra). assert (Jj : j * b = 1) by (unfold j; field; lra).
  assert (Pi : 0 < i) by now apply Rinv_0_lt_compat. assert (Pj : 0 < j) by now apply Rinv_0_lt_compat.
  assert (JI : j <= 100/98 * i). { unfold j, i. replace (100/98 * / a) with (/ (98/100 * a)) by (field; lra). apply Rinv_le_contravar; lra. }
  (* j - i = (T - t) i j / (a + b), and i j / (a+b) <= ... *)
  assert (E : j - i = (T - t) * (i * j * / (a + b))). { unfold i, j. rewrite <- QT, <- Qt. field. lra. }
  assert (K : 0 <= i * j * / (a + b) <= 11/20 * i * (i * i)).
  { assert (AB : 0 < / (a + b) <= 100/198 * i). { split; [apply Rinv_0_lt_compat; lra|]. unfold i. replace (100/198 * / a) with (/ (198/100 * a)) by (field; lra). apply Rinv_le_contravar; lra. }
    assert (IJ : 0 <= i * j <= 100/98 * (i * i)) by (split; [apply Rmult_le_pos; lra|]; replace (100/98 * (i * i)) with (i * (100/98 * i)) by ring; apply Rmult_le_compat_l; lra).
    split; [apply Rmult_le_pos; lra|]. apply Rle_trans with (100/98 * (i * i) * (100/198 * i)); [apply Rmult_le_compat; lra|].
    assert (0 <= i * (i * i)) by (apply Rmult_le_pos; [lra|apply Rmult_le_pos; lra]). lra. }
  assert (B : - (d * T * (11/20 * i * (i * i))) <= j - i <= d * T * (11/20 * i * (i * i))).
  { rewrite E. apply prod_bound; lra. }
  replace (d * T * (11/20 * i * (i * i))) with (11/20 * d * i) in B; [exact B|]. rewrite <- QT. transitivity (11/20 * d * i * ((i * a) * (i * a))); [rewrite Ii; ring|ring].
Qed.

Section Sine.
Variables (L : Libm) (w : f32).
Let T := 1 - b2r w * b2r w.
Hypothesis Fw : finite w.
Hypothesis HT : 100 * u <= T.
Let t := Bminus mode_NE (f32_lit 1 0) (Bmult mode_NE w w).
Let r := Bdiv mode_NE (f32_lit 1 0) (Bsqrt mode_NE t).
Lemma w_lt : -1 < b2r w < 1.
Proof. pose proof u_val. unfold T in HT. split; nra. Qed.
Lemma T_bounds : 0 < T <= 1.
Proof. pose proof u_val. pose proof (Rle_0_sqr (b2r w)). unfold Rsqr in *. unfold T in *. lra. Qed.
Lemma tmp1_near : finite t /\ - (205/100 * u) <= b2r t - T <= 205/100 * u.
Proof.
  pose proof w_lt as W. pose proof u_val as U. assert (Ww : within 0 w) by (split; [exact Fw|]; apply Rabs_le; change (p2 0) with 1; lra).
  destruct (w_mul 0 0 0 w w Ww Ww) as [W2 E2]; try lia. destruct (w_sub 0 0 1 _ _ w_1 W2) as [W3 E3]; try lia. fold t in W3, E3.
  split; [apply W3|]. rewrite E3, E2, b2r_lit1. assert (S : -1 <= b2r w * b2r w <= 1) by nra.
  pose proof (rnd_abs_err _ 1 (conj (proj1 S) (proj2 S))) as K. assert (P : 0 <= rnd (b2r w * b2r w) <= 1).
  { split; [apply rnd_pos; pose proof (Rle_0_sqr (b2r w)); unfold Rsqr in *; lra|]. apply rnd_le_fmt; [apply fmt_1|lra]. }
  assert (S' : - (1) <= 1 - rnd (b2r w * b2r w) <= 1) by lra. pose proof (rnd_abs_err _ _ S') as K'. unfold T. lra.
Qed.
Let rho := (114/100) * (u / T) + 22/10 * u.
Lemma rho_small : 0 <= rho <= / 80.
Proof.
  pose proof u_val as U. pose proof T_bounds as BT. unfold rho. assert (0 <= u / T <= / 100).
  { split; [apply Rmult_le_pos; [lra|left; apply Rinv_0_lt_compat; lra]|]. apply (Rmult_le_reg_r T); [lra|]. unfold Rdiv. rewrite Rmult_assoc, Rinv_l by lra. lra. }
  lra.
Qed.
Lemma recip_near : Bleb t (f32_lit 0 0) = false /\ finite r /\ - (rho * / sqrt T) <= b2r r - / sqrt T <= rho * / sqrt T.
Proof.
  pose proof u_val as U. destruct tmp1_near as [Ft Kt]. destruct T_bounds as [PT T1]. pose proof rho_small as RS0.
  set (d := 205/100 * (u / T)).
  assert (UT : 0 <= u / T <= / 100).
  { split; [apply Rmult_le_pos; [lra|left; apply Rinv_0_lt_compat; lra]|]. apply (Rmult_le_reg_r T); [lra|]. unfold Rdiv. rewrite Rmult_assoc, Rinv_l by lra. lra. }
  assert (ED : d * T = 205/100 * u) by (unfold d; field; lra).
  destruct (inv_sqrt_change T (b2r t) d PT) as [Pt Kd]; [unfold d; lra|rewrite ED; exact Kt|].
  split. { rewrite bleb_b2r; [|exact Ft|reflexivity]. apply Rle_bool_false. replace (b2r (f32_lit 0 0)) with 0 by reflexivity. exact Pt. }
  destruct (finite_sqrt t Ft ltac:(lra)) as (Fs & e1 & He1 & Es). rewrite u32_u in He1. apply Rabs_le_inv in He1.
  pose proof (sqrt_lt_R0 _ Pt) as Ps. pose proof (sqrt_lt_R0 _ PT) as PS.
  assert (Bs : 9/10 * / 10000 <= b2r (Bsqrt mode_NE t)).
  { rewrite Es. assert (/ 10000 <= sqrt (b2r t)).
    { rewrite <- (sqrt_square (/ 10000)) by lra. apply sqrt_le_1_alt. unfold u in *. change (IZR (2 ^ 24)) with 16777216 in *. lra. }
    apply Rle_trans with (/ 10000 * (9/10)); [lra|]. apply Rmult_le_compat; lra. }
  set (g := b2r (Bsqrt mode_NE t)) in *. set (q := / g).
  assert (Pq : 0 < q <= 20000). { split; [apply Rinv_0_lt_compat; lra|]. unfold q. replace 20000 with (/ (/ 20000)) by field. apply Rinv_le_contravar; lra. }
  destruct (div_ok (f32_lit 1 0) (Bsqrt mode_NE t) fin_lit1 Fs ltac:(fold g; lra)) as [Fr Er].
  { fold g. rewrite b2r_lit1. unfold Rdiv. rewrite Rmult_1_l. fold q. eapply Rle_lt_trans; [apply (rnd_abs_le q (bpow radix2 15)); [apply fmt_bpow; lia|rewrite Rabs_pos_eq by lra; change (bpow radix2 15) with 32768; lra]|]. apply (big_p2 15). lia. }
  fold r in Fr, Er. split; [exact Fr|]. fold g in Er. rewrite b2r_lit1 in Er. unfold Rdiv in Er. rewrite Rmult_1_l in Er. fold q in Er. rewrite Er.
  destruct (rnd_rel q) as (e2 & He2 & E2).
  { rewrite Rabs_pos_eq by lra. apply Rle_trans with (/ 2).
    - change (/ 2) with (bpow radix2 (-1)). apply bpow_le. lia.
    - unfold q. apply Rinv_le_contravar; [lra|]. rewrite Es. assert (sqrt (b2r t) <= 11/10).
      { rewrite <- (sqrt_square (11/10)) by lra. apply sqrt_le_1_alt. lra. }
      apply Rle_trans with (11/10 * (11/10)); [apply Rmult_le_compat; lra|lra]. }
  rewrite E2. rewrite u32_u in He2. apply Rabs_le_inv in He2.
  set (I := / sqrt (b2r t)) in *. set (i := / sqrt T) in *.
  assert (Pi : 0 < i) by now apply Rinv_0_lt_compat.
  assert (Eq : q = I * / (1 + e1)) by (unfold q, I; rewrite Es; field; lra).
  assert (KK : - (101/100 * u) <= / (1 + e1) - 1 <= 101/100 * u).
  { assert (J : (/ (1 + e1) - 1) * (1 + e1) = - e1) by (field; lra). split; nra. }
  set (k := / (1 + e1)) in *. assert (KE : - (203/100 * u) <= k * (1 + e2) - 1 <= 203/100 * u).
  { replace (k * (1 + e2) - 1) with ((k - 1) + e2 + (k - 1) * e2) by ring. assert (- (101/100 * u * u) <= (k - 1) * e2 <= 101/100 * u * u) by (apply prod_bound; lra). assert (u * u <= / 1000 * u) by nra. lra. }
  assert (DI : 0 <= d * i <= 205/10000 * i) by (split; [apply Rmult_le_pos; [unfold d; lra|lra]|apply Rmult_le_compat_r; unfold d; lra]).
  assert (BI : - (102/100 * i) <= I <= 102/100 * i) by lra.
  pose proof (prod_bound _ _ _ _ BI KE) as PB.
  replace (q * (1 + e2) - i) with (I * (k * (1 + e2) - 1) + (I - i)) by (rewrite Eq; ring).
  assert (UI : 0 <= u * i) by (apply Rmult_le_pos; lra).
  replace (rho * i) with (114/100 * (u / T * i) + 22/10 * (u * i)) by (unfold rho; ring).
  assert (0 <= u / T * i) by (apply Rmult_le_pos; lra).
  replace (11/20 * d * i) with (11/20 * (205/100) * (u / T * i)) in Kd by (unfold d; ring). lra.
Qed.
(** one component of the axis *)
Lemma axis_comp (x : f32) : finite x -> b2r x * b2r x <= 11/10 * T ->
  finite (Bmult mode_NE x r) /\ Rabs (b2r x / sqrt T) <= 105/100 /\ Rabs (b2r (Bmult mode_NE x r) - b2r x / sqrt T) <= 12/10 * (u / T) + 4 * u.
Proof.
  intros Fx Bx. pose proof u_val as U. destruct T_bounds as [PT T1]. destruct recip_near as (_ & Fr & Kr). pose proof rho_small as Hrho.
  pose proof (sqrt_lt_R0 _ PT) as PS. pose proof (sqrt_sqrt T ltac:(lra)) as QS. set (i := / sqrt T) in *.
  assert (Pi : 0 < i) by now apply Rinv_0_lt_compat. assert (Ii : sqrt T * i = 1) by (unfold i; field; lra).
  assert (XA : - (105/100 * sqrt T) <= b2r x <= 105/100 * sqrt T) by (split; nra).
  assert (XI : - (105/100) <= b2r x * i <= 105/100).
  { assert (- (105/100 * sqrt T * i) <= b2r x * i <= 105/100 * sqrt T * i) by (apply prod_bound; lra).
    replace (105/100 * sqrt T * i) with (105/100 * (sqrt T * i)) in H by ring. rewrite Ii in H. lra. }
  assert (UT : 0 <= u / T) by (apply Rmult_le_pos; [lra|left; apply Rinv_0_lt_compat; lra]).
  set (f := (b2r r - i) * sqrt T). assert (Ef : b2r r - i = f * i) by (unfold f; rewrite Rmult_assoc, Ii; ring).
  assert (Kf : - rho <= f <= rho). { assert (G : - (rho * i * sqrt T) <= f <= rho * i * sqrt T) by (unfold f; split; nra). replace (rho * i * sqrt T) with (rho * (sqrt T * i)) in G by ring. rewrite Ii in G. lra. }
  assert (EP : b2r x * b2r r = b2r x * i + (b2r x * i) * f) by (replace (b2r r) with (i + f * i) by lra; ring).
  pose proof (prod_bound _ _ _ _ XI Kf) as PB.
  assert (BP : - (107/100) <= b2r x * b2r r <= 107/100) by (rewrite EP; lra).
  destruct (mult_ok x r Fx Fr) as [F E].
  { eapply Rle_lt_trans; [apply (rnd_abs_le _ (bpow radix2 1)); [apply fmt_bpow; lia|apply Rabs_le; change (bpow radix2 1) with 2; lra]|]. apply (big_p2 1). lia. }
  split; [exact F|]. change (b2r x / sqrt T) with (b2r x * i). split; [now apply Rabs_le|]. rewrite E. apply Rabs_le.
  pose proof (rnd_abs_err _ _ BP) as K. set (v := rnd _) in *. unfold rho in PB. lra.
Qed.
End Sine.
Lemma axis_shape L (x y z w : f32) : let t := Bminus mode_NE (f32_lit 1 0) (Bmult mode_NE w w) in let r := Bdiv mode_NE (f32_lit 1 0) (Bsqrt mode_NE t) in
  axis (F32 L) (Quat x y z w) = if Bleb t (f32_lit 0 0) then V3 (f32_ofZ 0) (f32_ofZ 0) (f32_ofZ 1) else V3 (Bmult mode_NE x r) (Bmult mode_NE y r) (Bmult mode_NE z r).
Proof. intros t r. unfold axis. cbn [qw qx qy qz]. change (@sle (F32 L) _ _) with (Bleb t (f32_lit 0 0)). destruct (Bleb t (f32_lit 0 0)); reflexivity. Qed.

(** ** Round trip *)
Lemma dbl_half (a : f32) : finite a -> Rabs (b2r a) <= 4 -> let g := Bmult mode_NE a (f32_lit 2 0) in
  finite g /\ b2r g = 2 * b2r a /\ finite (Bmult mode_NE g (f32_lit 5 (-1))) /\ b2r (Bmult mode_NE g (f32_lit 5 (-1))) = b2r a.
Proof.
  intros F B g. assert (R2 : rnd (b2r a * b2r (f32_lit 2 0)) = b2r a * 2) by (rewrite b2r_lit2; apply rnd_id, fmt_double, fmt_b2r).
  destruct (mult_ok a (f32_lit 2 0) F fin_lit2) as [Fg Eg].
  { rewrite R2, Rabs_mult, (Rabs_pos_eq 2) by lra. apply Rle_lt_trans with (p2 3); [change (p2 3) with 8; lra|apply big_p2; lia]. }
  fold g in Fg, Eg. rewrite R2 in Eg. split; [exact Fg|]. split; [lra|].
  assert (R5 : rnd (b2r g * b2r (f32_lit 5 (-1))) = b2r a) by (rewrite b2r_lit_half, Eg; replace (b2r a * 2 * / 2) with (b2r a) by field; apply rnd_b2r).
  destruct (mult_ok g (f32_lit 5 (-1)) Fg fin_lit_half) as [Fh Eh]; [rewrite R5; apply Rabs_def1; apply b2r_lt_big|]. split; [exact Fh|]. now rewrite Eh.
Qed.
Lemma trig_lip a b : Rabs (cos a - cos b) <= Rabs (a - b) /\ Rabs (sin a - sin b) <= Rabs (a - b).
Proof.
  pose proof (chord_arc a b) as H. pose proof (len2_sq (cos a - cos b) (sin a - sin b)) as Q. pose proof (len2_nn (cos a - cos b) (sin a - sin b)) as P.
  set (l := len2 _ _) in *. pose proof (Rle_0_sqr (cos a - cos b)) as S1. pose proof (Rle_0_sqr (sin a - sin b)) as S2. unfold Rsqr in *.
  split; (eapply Rle_trans; [|exact H]); apply Rabs_le; split; nra.
Qed.
Lemma aa_shape L (g : f32) (n0 n1 n2 : f32) : let h := Bmult mode_NE g (f32_lit 5 (-1)) in
  angleAxis (F32 L) g (V3 n0 n1 n2) = Quat (Bmult mode_NE n0 (l_sin L h)) (Bmult mode_NE n1 (l_sin L h)) (Bmult mode_NE n2 (l_sin L h)) (l_cos L h).
Proof. reflexivity. Qed.
Lemma acos_ok L k (w : f32) : arcs_accurate L k -> 0 <= k <= 16 -> between (-1) 1 w ->
  finite (l_acos L w) /\ Rabs (b2r (l_acos L w) - acos (b2r w)) <= k * u /\ Rabs (b2r (l_acos L w)) <= 4.
Proof.
  intros (_ & A) Hk Hw. destruct (A w Hw) as [F K]. pose proof (acos_bound (b2r w)) as B. pose proof NumLib.PI_bounds as P4. pose proof u_val as U.
  split; [exact F|]. split; [exact K|]. apply Rabs_le_inv in K. assert (k * u <= 16 * / 16777216) by (apply Rmult_le_compat; lra). apply Rabs_le. lra.
Qed.

Lemma ip4 a b c d : ip [a; b; c; d] [a; b; c; d] = a * a + b * b + c * c + d * d.
Proof. unfold ip. cbn. ring. Qed.
(** A unit quaternion is rebuilt from its angle and its axis: when the sine of the half-angle is at least s the components come back within
    (5/2 k + 6 + 2/s) half-ulps of 1, where k is the error of acosf, sinf and cosf. *)
Lemma C97_roundtrip_pf : forall (L : Libm) (k s : R) (q : quat f32), arcs_accurate L k -> 0 <= k <= 16 -> all_finite (lq q) ->
  let Q := Quat (b2r (qx q)) (b2r (qy q)) (b2r (qz q)) (b2r (qw q)) in
  0 < s -> s * s <= sine_sq Q -> 100 * ulp_half <= s * s -> ip (lq Q) (lq Q) <= 1 + s * s / 10 ->
  all_close ((5 / 2 * k + 6 + 2 / s) * ulp_half) (lq (angleAxis (F32 L) (angle (F32 L) q) (axis (F32 L) q))) (lq Q).
Proof.
  intros L k s [x y z w] HL Hk F Q Ps HS Hu N. unfold Q, sine_sq in *. clear Q. cbn [qx qy qz qw lq] in *. pose proof u_val as U.
  assert (N' : b2r x * b2r x + b2r y * b2r y + b2r z * b2r z + b2r w * b2r w <= 1 + s * s / 10) by (rewrite <- ip4; exact N). clear N.
  unfold all_finite in F. apply Forall_cons_iff in F as [Fx F]. apply Forall_cons_iff in F as [Fy F]. apply Forall_cons_iff in F as [Fz F]. apply Forall_cons_iff in F as [Fw _].
  set (T := 1 - b2r w * b2r w) in *. assert (HT : 100 * u <= T) by lra. pose proof (T_bounds w HT) as BT. fold T in BT. pose proof (w_lt w HT) as W.
  destruct (recip_near w Fw HT) as (NB & _).
  pose proof (axis_shape L x y z w) as ES. cbv zeta in ES. rewrite NB in ES. rewrite ES. clear ES.
  destruct (acos_ok L k w HL Hk) as (Fa & Ka & Ba); [split; [exact Fw|lra]|].
  destruct (dbl_half _ Fa Ba) as (_ & _ & Fh & Eh).
  change (angle (F32 L) (Quat x y z w)) with (Bmult mode_NE (l_acos L w) (f32_lit 2 0)). rewrite aa_shape. cbv zeta.
  set (h := Bmult mode_NE (Bmult mode_NE (l_acos L w) (f32_lit 2 0)) (f32_lit 5 (-1))) in *.
  set (th := acos (b2r w)) in *. assert (CT : cos th = b2r w) by (apply cos_acos; lra). assert (ST : sin th = sqrt T) by (unfold th; rewrite sin_acos by lra; f_equal).
  destruct (trig_lip (b2r h) th) as [LC LS]. rewrite CT in LC. rewrite ST in LS. rewrite Eh in LC, LS.
  destruct HL as [TR _]. destruct (TR h) as [[FS KS] [FC KC]]; [split; [exact Fh|rewrite Eh; apply Rabs_le_inv in Ba; lra]|]. rewrite Eh in KS, KC.
  set (sg := l_sin L h) in *. set (cg := l_cos L h) in *. clearbody sg cg h. apply Rabs_le_inv in KS, KC, LC, LS, Ka.
  assert (KU : 0 <= k * u <= / 1000000) by (split; [apply Rmult_le_pos; lra|]; apply Rle_trans with (16 * / 16777216); [apply Rmult_le_compat; lra|lra]).
  assert (K1 : - (2 * (k * u)) <= b2r cg - b2r w <= 2 * (k * u)).
  { unfold Rabs in LC. destruct Rcase_abs; lra. }
  assert (K2 : - (2 * (k * u)) <= b2r sg - sqrt T <= 2 * (k * u)).
  { unfold Rabs in LS. destruct Rcase_abs; lra. }
  pose proof (sqrt_lt_R0 T ltac:(lra)) as PS. pose proof (sqrt_sqrt T ltac:(lra)) as QS.
  assert (S1 : sqrt T <= 1) by (clear - PS QS BT; nra). assert (S2 : s <= sqrt T) by (clear - PS QS HS Ps; nra).
  assert (SU : 0 <= 2 / s * u) by (apply Rmult_le_pos; [apply Rmult_le_pos; [lra|left; now apply Rinv_0_lt_compat]|lra]).
  assert (UTT : u / T * sqrt T <= / s * u).
  { assert (EU : u / T * sqrt T = u * / sqrt T) by (rewrite <- QS at 1; field; lra). rewrite EU, (Rmult_comm (/ s)). apply Rmult_le_compat_l; [lra|]. now apply Rinv_le_contravar. }
  assert (UT : 0 <= u / T <= / 100). { split; [apply Rmult_le_pos; [lra|left; apply Rinv_0_lt_compat; lra]|]. apply (Rmult_le_reg_r T); [lra|]. unfold Rdiv. rewrite Rmult_assoc, Rinv_l by lra. lra. }
  assert (G : forall c : f32, finite c -> b2r c * b2r c <= 11/10 * T ->
    finite (Bmult mode_NE (Bmult mode_NE c (Bdiv mode_NE (f32_lit 1 0) (Bsqrt mode_NE (Bminus mode_NE (f32_lit 1 0) (Bmult mode_NE w w))))) sg) /\
    Rabs (b2r (Bmult mode_NE (Bmult mode_NE c (Bdiv mode_NE (f32_lit 1 0) (Bsqrt mode_NE (Bminus mode_NE (f32_lit 1 0) (Bmult mode_NE w w))))) sg) - b2r c) <= (5 / 2 * k + 6 + 2 / s) * u).
  { intros c Fc Bc. destruct (axis_comp w Fw HT c Fc Bc) as (Fn & Bn & Kn). set (n := Bmult mode_NE c _) in *. fold T in Bn, Kn. clearbody n. clear NB.
    apply Rabs_le_inv in Kn, Bn. set (X := b2r c / sqrt T) in *. assert (EX : X * sqrt T = b2r c) by (unfold X; field; lra).
    assert (P1 : - ((12/10 * (u / T) + 4 * u) * (sqrt T + 2 * (k * u))) <= (b2r n - X) * b2r sg <= (12/10 * (u / T) + 4 * u) * (sqrt T + 2 * (k * u))) by (apply prod_bound; lra).
    assert (P2 : - (105/100 * (2 * (k * u))) <= X * (b2r sg - sqrt T) <= 105/100 * (2 * (k * u))) by (apply prod_bound; lra).
    assert (EP : b2r n * b2r sg - b2r c = (b2r n - X) * b2r sg + X * (b2r sg - sqrt T)) by (rewrite <- EX; ring).
    assert (S3 : u * sqrt T <= u * 1) by (apply Rmult_le_compat_l; lra).
    assert (S4 : (12/10 * (u / T) + 4 * u) * (2 * (k * u)) <= (13/1000) * (2 * (k * u))) by (apply Rmult_le_compat_r; lra).
    assert (S5 : (12/10 * (u / T) + 4 * u) * (sqrt T + 2 * (k * u)) <= 12/10 * (/ s * u) + 4 * u + 26/1000 * (k * u)).
    { replace ((12/10 * (u / T) + 4 * u) * (sqrt T + 2 * (k * u))) with (12/10 * (u / T * sqrt T) + 4 * (u * sqrt T) + (12/10 * (u / T) + 4 * u) * (2 * (k * u))) by ring. lra. }
    assert (BC : - (105/100) <= b2r c <= 105/100) by (clear - Bc BT; split; nra).
    assert (TOT : - (12/10 * (/ s * u) + 4 * u + 213/100 * (k * u)) <= b2r n * b2r sg - b2r c <= 12/10 * (/ s * u) + 4 * u + 213/100 * (k * u)) by (rewrite EP; lra).
    assert (US : / s * u <= / 100). { apply (Rmult_le_reg_l s); [exact Ps|]. rewrite <- Rmult_assoc, Rinv_r, Rmult_1_l by lra. clear - Hu Ps S1 S2. nra. }
    assert (BP : - (11/10) <= b2r n * b2r sg <= 11/10) by lra.
    destruct (mult_ok n sg Fn FS) as [F' E'].
    { eapply Rle_lt_trans; [apply (rnd_abs_le _ (bpow radix2 1)); [apply fmt_bpow; lia|apply Rabs_le; change (bpow radix2 1) with 2; lra]|]. apply (big_p2 1). lia. }
    split; [exact F'|]. rewrite E'. pose proof (rnd_abs_err _ _ BP) as K. apply Rabs_le. replace ((5 / 2 * k + 6 + 2 / s) * u) with (5/2 * (k * u) + 6 * u + 2 * (/ s * u)) by (unfold Rdiv; ring).
    assert (0 <= / s * u) by (apply Rmult_le_pos; [left; now apply Rinv_0_lt_compat|lra]). lra. }
  pose proof (Rle_0_sqr (b2r x)). pose proof (Rle_0_sqr (b2r y)). pose proof (Rle_0_sqr (b2r z)). unfold Rsqr in *.
  unfold all_close. apply Forall2_cons; [apply G; [exact Fx|unfold T in *; lra]|]. apply Forall2_cons; [apply G; [exact Fy|unfold T in *; lra]|]. apply Forall2_cons; [apply G; [exact Fz|unfold T in *; lra]|].
  apply Forall2_cons; [|apply Forall2_nil]. split; [exact FC|]. apply Rabs_le. replace ((5 / 2 * k + 6 + 2 / s) * u) with (5/2 * (k * u) + 6 * u + 2 / s * u) by ring. cbn [qw]. lra.
Qed.

Lemma acos_decreasing P Q : -1 <= P -> Q <= 1 -> P < Q -> acos Q < acos P.
Proof.
  intros H1 H2 H. apply Rnot_le_lt. intros K. pose proof (acos_bound P). pose proof (acos_bound Q).
  assert (cos (acos Q) <= cos (acos P)) by (apply cos_decr_1; lra). rewrite !cos_acos in * by lra. lra.
Qed.

(** ** The axis and the angle of a nearby unit quaternion *)
Section Near.
Variables (d s : R) (w : f32) (W : R).
Hypothesis Fw : finite w.
Hypothesis Hs : 0 < s.
Hypothesis HW : s * s <= 1 - W * W.
Hypothesis Hu : 200 * u <= s * s.
Hypothesis Hd : 100 * d <= s * s.
Hypothesis Kw : - d <= b2r w - W <= d.
Let T := 1 - b2r w * b2r w.
Let D := 1 - W * W.
Lemma near_sine : 100 * u <= T /\ - (101/50 * d) <= T - D <= 101/50 * d /\ 0 <= d <= / 50 /\ -1 < W < 1 /\ 0 < D <= 1 /\ s * s <= D.
Proof.
  pose proof u_val as U. pose proof (Rle_0_sqr W) as QW. unfold Rsqr in QW. unfold T, D in *.
  assert (S1 : s * s <= 1) by lra. assert (Bd : 0 <= d <= / 50) by lra. assert (BW : -1 < W < 1) by (split; nra).
  assert (E : 1 - b2r w * b2r w - (1 - W * W) = - ((b2r w - W) * (2 * W + (b2r w - W)))) by ring.
  assert (P : - (d * (101/50)) <= (b2r w - W) * (2 * W + (b2r w - W)) <= d * (101/50)) by (apply prod_bound; lra).
  ands; try lra.
Qed.
Lemma near_axis (x : f32) X : finite x -> - d <= b2r x - X <= d -> X * X <= D ->
  finite (Bmult mode_NE x (Bdiv mode_NE (f32_lit 1 0) (Bsqrt mode_NE (Bminus mode_NE (f32_lit 1 0) (Bmult mode_NE w w))))) /\
  Rabs (b2r (Bmult mode_NE x (Bdiv mode_NE (f32_lit 1 0) (Bsqrt mode_NE (Bminus mode_NE (f32_lit 1 0) (Bmult mode_NE w w))))) - X / sqrt D) <= (3 * d + 6 * u) / (s * s).
Proof.
  intros Fx Kx BX. pose proof u_val as U. destruct near_sine as (HT & KT & Bd & BW & BD & HD). pose proof (T_bounds w HT) as BT. fold T in BT.
  pose proof (sqrt_lt_R0 D ltac:(lra)) as PA. pose proof (sqrt_sqrt D ltac:(lra)) as QA. set (a := sqrt D) in *.
  assert (A1 : a <= 1) by (clear - PA QA BD; nra). assert (AS : s <= a) by (clear - PA QA HD Hs; nra).
  assert (BXa : - a <= X <= a) by (clear - BX QA PA; split; nra).
  assert (Sq : b2r x * b2r x <= 11/10 * T).
  { assert (E : b2r x * b2r x = X * X + (b2r x - X) * (2 * X + (b2r x - X))) by ring. assert (P : - (d * (101/50)) <= (b2r x - X) * (2 * X + (b2r x - X)) <= d * (101/50)) by (apply prod_bound; lra). lra. }
  destruct (axis_comp w Fw HT x Fx Sq) as (F & _ & K). fold T in K. split; [exact F|].
  set (n := Bmult mode_NE x _) in *. clearbody n.
  destruct (inv_sqrt_change D T (101/50 * d / D)) as (PT & KI); [lra| | |].
  { split; [apply Rmult_le_pos; [lra|left; apply Rinv_0_lt_compat; lra]|]. apply (Rmult_le_reg_r D); [lra|]. unfold Rdiv. rewrite Rmult_assoc, Rinv_l by lra. lra. }
  { replace (101/50 * d / D * D) with (101/50 * d) by (field; lra). exact KT. }
  set (I := / sqrt T) in *. set (i := / a) in *. assert (Pi : 0 < i) by now apply Rinv_0_lt_compat. assert (Ii : a * i = 1) by (unfold i; field; lra).
  set (j := / D) in *. assert (Pj : 0 < j) by (apply Rinv_0_lt_compat; lra). assert (Jj : D * j = 1) by (unfold j; field; lra).
  assert (IJ : i <= j) by (unfold i, j; apply Rinv_le_contravar; [lra|]; rewrite <- QA; clear - PA A1; nra).
  set (v := / (s * s)). assert (SS : 0 < s * s) by (apply Rmult_lt_0_compat; lra). assert (JV : j <= v) by (unfold j, v; apply Rinv_le_contravar; lra).
  assert (V1 : 1 <= v) by (unfold v; rewrite <- Rinv_1; apply Rinv_le_contravar; lra).
  fold a in KI. fold i in KI. replace (11/20 * (101/50 * d / D) * i) with (1111/1000 * (d * j * i)) in KI by (unfold j; field; lra).
  assert (DJ : 0 <= d * j <= / 100). { split; [apply Rmult_le_pos; lra|]. apply (Rmult_le_reg_r D); [lra|]. rewrite Rmult_assoc, (Rmult_comm j), Jj. lra. }
  assert (KI' : - (1112/1000 * (d * j) * i) <= I - i <= 1112/1000 * (d * j) * i) by (assert (0 <= d * j * i) by (apply Rmult_le_pos; lra); lra).
  assert (BI : - (102/100 * i) <= I <= 102/100 * i). { assert (d * j * i <= / 100 * i) by (apply Rmult_le_compat_r; lra). lra. }
  assert (P1 : - (d * (102/100 * i)) <= (b2r x - X) * I <= d * (102/100 * i)) by (apply prod_bound; lra).
  assert (P2 : - (a * (1112/1000 * (d * j) * i)) <= X * (I - i) <= a * (1112/1000 * (d * j) * i)) by (apply prod_bound; lra).
  replace (a * (1112/1000 * (d * j) * i)) with (1112/1000 * (d * j) * (a * i)) in P2 by ring. rewrite Ii in P2.
  assert (D1 : d * i <= d * v) by (apply Rmult_le_compat_l; lra). assert (D2 : d * j <= d * v) by (apply Rmult_le_compat_l; lra).
  assert (UT : u / T <= 104/100 * (u * v)).
  { apply Rle_trans with (104/100 * (u * j)); [|assert (u * j <= u * v) by (apply Rmult_le_compat_l; lra); lra].
    apply (Rmult_le_reg_r T); [lra|]. replace (u / T * T) with (u * 1) by (field; lra). replace (104/100 * (u * j) * T) with (u * (104/100 * (j * T))) by ring. apply Rmult_le_compat_l; [lra|].
    assert (G : j * (97/100 * D) <= j * T) by (apply Rmult_le_compat_l; lra). replace (j * (97/100 * D)) with (97/100 * (D * j)) in G by ring. rewrite Jj in G. lra. }
  assert (U1 : u * 1 <= u * v) by (apply Rmult_le_compat_l; lra).
  change (X / a) with (X * i). unfold Rdiv. fold v. change (b2r x / sqrt T) with (b2r x * I) in K. apply Rabs_le_inv in K. apply Rabs_le.
  assert (EX : b2r x * I - X * i = (b2r x - X) * I + X * (I - i)) by ring. lra.
Qed.
Lemma near_angle : Rabs (acos (b2r w) - acos W) <= 105/100 * d / s.
Proof.
  pose proof u_val as U. destruct near_sine as (HT & KT & Bd & BW & BD & HD). pose proof (w_lt w HT) as Bw.
  set (c := 97/100 * s).
  assert (KEY : forall P Q, -1 < P < 1 -> -1 < Q < 1 -> c * c <= 1 - P * P -> c * c <= 1 - Q * Q -> P < Q -> acos P - acos Q <= (Q - P) / c).
  { intros P Q BP BQ CP CQ PQ. assert (Pc : 0 < c) by (unfold c; lra).
    assert (LT : acos Q < acos P) by (apply acos_decreasing; lra).
    destruct (MVT_cor2 cos (fun x => - sin x) (acos Q) (acos P) LT) as (m & Em & Bm); [intros; apply derivable_pt_lim_cos|].
    rewrite !cos_acos in Em by lra. pose proof (acos_bound P) as B1. pose proof (acos_bound Q) as B2.
    assert (M1 : P <= cos m) by (rewrite <- (cos_acos P) by lra; apply cos_decr_1; lra).
    assert (M2 : cos m <= Q) by (rewrite <- (cos_acos Q) by lra; apply cos_decr_1; lra).
    assert (SM : 0 <= sin m) by (apply sin_ge_0; lra). pose proof (sin2_cos2 m) as SC. unfold Rsqr in SC.
    assert (C2 : c * c <= sin m * sin m). { assert (cos m * cos m <= 1 - c * c); [|lra]. destruct (Rle_or_lt 0 (cos m)).
      - assert (cos m * cos m <= Q * Q) by (apply Rmult_le_compat; lra). lra.
      - assert ((- cos m) * (- cos m) <= (- P) * (- P)) by (apply Rmult_le_compat; lra). lra. }
    assert (CS : c <= sin m) by (clear - C2 Pc SM; nra).
    apply (Rmult_le_reg_r c); [exact Pc|]. unfold Rdiv. rewrite (Rmult_assoc (Q - P)), Rinv_l, Rmult_1_r by lra.
    replace (Q - P) with (sin m * (acos P - acos Q)) by lra. rewrite (Rmult_comm (sin m)). apply Rmult_le_compat_l; lra. }
  assert (CC : c * c = 9409/10000 * (s * s)) by (unfold c; field). assert (SP : 0 <= s * s) by (apply Rle_0_sqr).
  assert (C1 : c * c <= 1 - W * W) by (rewrite CC; lra). assert (C2 : c * c <= 1 - b2r w * b2r w) by (rewrite CC; fold T; lra).
  assert (Pc : 0 < c) by (unfold c; lra).
  assert (FIN : forall e, e <= d -> e / c <= 105/100 * d / s).
  { intros e He. apply Rle_trans with (d / c); [apply Rmult_le_compat_r; [left; now apply Rinv_0_lt_compat|exact He]|]. unfold c. replace (d / (97/100 * s)) with (100/97 * (d * / s)) by (field; lra).
    unfold Rdiv. rewrite (Rmult_assoc (105 * / 100)). assert (0 <= d * / s) by (apply Rmult_le_pos; [lra|left; now apply Rinv_0_lt_compat]). lra. }
  apply Rabs_le. destruct (Rtotal_order (b2r w) W) as [H|[H|H]].
  - pose proof (KEY _ _ Bw BW C2 C1 H) as K. pose proof (FIN (W - b2r w) ltac:(lra)) as K'. assert (acos W < acos (b2r w)) by (apply acos_decreasing; lra). lra.
  - rewrite H. pose proof (FIN 0 ltac:(lra)) as K'. unfold Rdiv in K' at 1. rewrite Rmult_0_l in K'. lra.
  - pose proof (KEY _ _ BW Bw C1 C2 H) as K. pose proof (FIN (b2r w - W) ltac:(lra)) as K'. assert (acos (b2r w) < acos W) by (apply acos_decreasing; lra). lra.
Qed.
End Near.

(** The axis and the angle of a quaternion within d of the unit quaternion Q whose half-angle has a sine of at least s: the axis is within
    (3 d + 6 half-ulps)/s^2 of the axis of Q and the angle within 21/10 d/s plus 2 k half-ulps of 2 arccos of its real part. *)
Lemma C97_accuracy_pf : forall (L : Libm) (k d s : R) (q : quat f32) (Q : quat R), arcs_accurate L k -> 0 <= k <= 16 -> unit_quat Q -> all_close d (lq q) (lq Q) ->
  0 < s -> s * s <= sine_sq Q -> 200 * ulp_half <= s * s -> 100 * d <= s * s ->
  all_close ((3 * d + 6 * ulp_half) / (s * s)) (l3 (axis (F32 L) q)) (axis_of Q) /\
  all_close (21 / 10 * (d / s) + 2 * k * ulp_half) [angle (F32 L) q] [2 * acos (qw Q)].
Proof.
  intros L k d s [x y z w] [X Y Z W] HL Hk UQ C Ps HS Hu Hd. unfold sine_sq, axis_of in *. cbn [qx qy qz qw map] in *.
  apply all_close_iff in C. cbn [lq qx qy qz qw] in C. apply Forall2_cons_iff in C as [[Fx Kx] C]. apply Forall2_cons_iff in C as [[Fy Ky] C]. apply Forall2_cons_iff in C as [[Fz Kz] C]. apply Forall2_cons_iff in C as [[Fw Kw] _].
  assert (N : X * X + Y * Y + Z * Z + W * W = 1) by (apply norm1_ip in UQ; rewrite <- ip4; exact UQ).
  pose proof (Rle_0_sqr X). pose proof (Rle_0_sqr Y). pose proof (Rle_0_sqr Z). unfold Rsqr in *.
  destruct (near_sine d s w W HS Hu Hd Kw) as (HT & _ & Bd & _). destruct (recip_near w Fw HT) as (NB & _). pose proof (w_lt w HT) as Bw.
  pose proof (axis_shape L x y z w) as ES. cbv zeta in ES. rewrite NB in ES. rewrite ES. clear ES NB. split.
  - unfold sine_sq. cbn [qw l3 x3 y3 z3]. unfold all_close. repeat (apply Forall2_cons; [apply (near_axis d s w W Fw Ps HS Hu Hd Kw); [assumption|assumption|lra]|]). apply Forall2_nil.
  - unfold all_close. apply Forall2_cons; [|apply Forall2_nil]. destruct (acos_ok L k w HL Hk) as (Fa & Ka & Ba); [split; [exact Fw|lra]|].
    destruct (dbl_half _ Fa Ba) as (Fg & Eg & _). change (angle (F32 L) (Quat x y z w)) with (Bmult mode_NE (l_acos L w) (f32_lit 2 0)). split; [exact Fg|]. rewrite Eg.
    pose proof (near_angle d s w W Ps HS Hu Hd Kw) as NA. apply Rabs_le_inv in NA, Ka. apply Rabs_le. replace (105/100 * d / s) with (105/100 * (d / s)) in NA by (field; lra). lra.
Qed.

(** ** Where the axis and the angle are lost *)
Lemma rnd_near_one x : 1 - / IZR (2 ^ 26) <= x <= 1 -> rnd x = 1.
Proof.
  intros H. assert (P26 : / IZR (2 ^ 26) = / 67108864) by reflexivity. destruct (Rle_lt_or_eq_dec (rnd x) 1) as [LT|E]; [apply rnd_le_fmt; [apply fmt_1|lra]| |exact E]. exfalso.
  assert (B : rnd x <= 1 - p2 (-24)). { assert (P : pred radix2 (SpecFloat.fexp 24 128) 1 = 1 - p2 (-24)) by (change 1 with (p2 0); rewrite pred_bpow; reflexivity).
    rewrite <- P. apply pred_ge_gt; [typeclasses eauto|apply rnd_fmt|apply fmt_1|exact LT]. }
  change (p2 (-24)) with (/ 16777216) in B. assert (A : Rabs x <= 1) by (apply Rabs_le; lra). pose proof (rnd_err_t x 1 A) as K. pose proof tiny_small as Ty. pose proof u_val as U.
  destruct (round_N_pt radix2 (FLT_exp (-149) 24) (fun t => negb (Z.even t)) x) as [_ NN]. specialize (NN 1 fmt_1). change (round _ _ _ x) with (rnd x) in NN.
  rewrite (Rabs_left1 (rnd x - x)), (Rabs_pos_eq (1 - x)) in NN by lra. lra.
Qed.
Lemma cos_small h : Rabs h <= / IZR (2 ^ 13) -> 1 - / IZR (2 ^ 26) <= cos h <= 1.
Proof.
  intros H. pose proof (COS_bound h) as CB. split; [|lra]. assert (C : cos h = 1 - 2 * (sin (h / 2) * sin (h / 2))) by (replace h with (2 * (h / 2)) at 1 by field; rewrite cos_2a_sin; ring).
  assert (S : Rabs (sin (h / 2)) <= / 16384).
  { pose proof (trig_lip (h / 2) 0) as [_ S]. rewrite sin_0, !Rminus_0_r in S. eapply Rle_trans; [exact S|]. unfold Rdiv. rewrite Rabs_mult, (Rabs_pos_eq (/ 2)) by lra. change (/ IZR (2 ^ 13)) with (/ 8192) in H. lra. }
  assert (S2 : sin (h / 2) * sin (h / 2) <= / 16384 * / 16384).
  { replace (sin (h / 2) * sin (h / 2)) with (Rabs (sin (h / 2)) * Rabs (sin (h / 2))) by (rewrite <- Rabs_mult; apply Rabs_pos_eq, Rle_0_sqr). apply Rmult_le_compat; trivial; apply Rabs_pos. }
  change (/ IZR (2 ^ 26)) with (/ 67108864). lra.
Qed.
Lemma value_one (c : f32) : finite c -> b2r c = 1 -> c = f32_lit 1 0.
Proof.
  intros F E. apply B2R_Bsign_inj; [exact F|reflexivity|change (b2r c = b2r (f32_lit 1 0)); rewrite E; symmetry; apply b2r_lit1|].
  destruct (Bsign_b2r c F) as [_ S]. rewrite S by lra. reflexivity.
Qed.
(** A rotation of at most 2^-12 radians loses its angle and its axis: with a correctly rounded cosine the real part is exactly 1, the angle
    read back is 2 acosf(1) and the axis (0,0,1), whatever they were. *)
Lemma C97_small_rotation_refuted_pf : forall (L : Libm), cos_nearest L -> forall (a : f32) (n : vec3 f32), finite a -> Rabs (b2r a) <= / IZR (2 ^ 12) ->
  let q := angleAxis (F32 L) a n in
  qw q = f32_lit 1 0 /\ axis (F32 L) q = V3 (f32_ofZ 0) (f32_ofZ 0) (f32_ofZ 1) /\ angle (F32 L) q = Bmult mode_NE (l_acos L (f32_lit 1 0)) (f32_lit 2 0).
Proof.
  intros L HC a [n0 n1 n2] Fa Ba q. unfold q. rewrite aa_shape. cbv zeta. set (h := Bmult mode_NE a (f32_lit 5 (-1))).
  assert (R13 : Rabs (b2r a * b2r (f32_lit 5 (-1))) <= p2 (-13)). { rewrite b2r_lit_half, Rabs_mult, (Rabs_pos_eq (/ 2)) by lra. change (/ IZR (2 ^ 12)) with (/ 4096) in Ba. change (p2 (-13)) with (/ 8192). lra. }
  assert (RR : Rabs (rnd (b2r a * b2r (f32_lit 5 (-1)))) <= p2 (-13)) by (apply rnd_abs_le; [apply fmt_bpow; lia|exact R13]).
  destruct (mult_ok a (f32_lit 5 (-1)) Fa fin_lit_half) as [Fh Eh]; [eapply Rle_lt_trans; [exact RR|apply big_p2; lia]|]. fold h in Fh, Eh. rewrite <- Eh in RR.
  assert (Bh : Rabs (b2r h) <= / IZR (2 ^ 13)) by exact RR. destruct (HC h) as [Fc Ec].
  { split; [exact Fh|]. change (/ IZR (2 ^ 13)) with (/ 8192) in Bh. apply Rabs_le_inv in Bh. lra. }
  rewrite (rnd_near_one _ (cos_small _ Bh)) in Ec. rewrite (value_one _ Fc Ec).
  split; [reflexivity|]. split; [|reflexivity].
  rewrite axis_shape. cbv zeta. assert (B : Bleb (Bminus mode_NE (f32_lit 1 0) (Bmult mode_NE (f32_lit 1 0) (f32_lit 1 0))) (f32_lit 0 0) = true) by (vm_compute; reflexivity). now rewrite B.
Qed.
(** The same axis is returned whenever the real part is 1 or more in size. *)
Lemma C97_default_axis_pf : forall (L : Libm) (q : quat f32), finite (qw q) -> 1 <= Rabs (b2r (qw q)) <= IZR (2 ^ 60) ->
  axis (F32 L) q = V3 (f32_ofZ 0) (f32_ofZ 0) (f32_ofZ 1).
Proof.
  intros L [x y z w] Fw [B1 B2]. cbn [qw] in *. rewrite axis_shape. cbv zeta.
  assert (Ww : within 60 w) by (split; [exact Fw|exact B2]). destruct (w_mul 60 60 120 w w Ww Ww) as [W2 E2]; try lia.
  destruct (w_sub 120 120 121 (f32_lit 1 0) _ (w_weak 0 120 _ ltac:(lia) w_1) W2) as [W3 E3]; try lia.
  rewrite bleb_b2r; [|apply W3|reflexivity]. rewrite Rle_bool_true; [reflexivity|]. rewrite E3, E2, b2r_lit1. replace (b2r (f32_lit 0 0)) with 0 by reflexivity.
  apply rnd_le_fmt; [apply fmt_0|]. assert (1 <= rnd (b2r w * b2r w)); [|lra]. apply rnd_ge_fmt; [apply fmt_1|].
  replace (b2r w * b2r w) with (Rabs (b2r w) * Rabs (b2r w)) by (rewrite <- Rabs_mult; apply Rabs_pos_eq, Rle_0_sqr). replace 1 with (1 * 1) by ring. apply Rmult_le_compat; lra.
Qed.
Lemma nearest_acos4 t : within_u 4 (nearest (acos t)) (acos t).
Proof. pose proof (acos_bound t). pose proof NumLib.PI_bounds. apply nearest_within, Rabs_le; lra. Qed.
Lemma cos_small_range t : Rabs (rnd (cos t)) < big.
Proof. pose proof (COS_bound t). eapply Rle_lt_trans; [apply (rnd_abs_le _ 1); [apply fmt_1|apply Rabs_le; lra]|apply (big_p2 0); lia]. Qed.
(*PROPS
(** a C library that returns the nearest binary32 number meets both hypotheses, with k = 4 *)
Example C97_rounded_library : forall L0 : Libm, exists L, arcs_accurate L 4 /\ cos_nearest L /\ l_tan L = l_tan L0.
Proof.
  intros L0. exists (mkLibm (fun x => nearest (cos (b2r x))) (fun x => nearest (sin (b2r x))) (l_tan L0) (fun x => nearest (acos (b2r x))) (l_asin L0) (l_atan L0) (l_atan2 L0)
    (l_cosh L0) (l_sinh L0) (l_tanh L0) (l_acosh L0) (l_asinh L0) (l_atanh L0) (l_pow L0) (l_exp L0) (l_log L0) (l_log2 L0) (l_cbrt L0)).
  split; [split|split; [|reflexivity]]; intros x _; [apply nearest_trig|apply nearest_acos4|apply nearest_ok, cos_small_range].
Qed.
(** The turn by 120 degrees about (1,1,1) comes back within 20 half-ulps with such a library, and its axis is within 24 half-ulps of (1,1,1)/sqrt 3. *)
Example C97_case : forall L, arcs_accurate L 4 -> let h := f32_lit 5 (-1) in let q := Quat h h h h in
  all_close (20 * ulp_half) (lq (angleAxis (F32 L) (angle (F32 L) q) (axis (F32 L) q))) [/ 2; / 2; / 2; / 2] /\
  all_close (24 * ulp_half) (l3 (axis (F32 L) q)) (axis_of (Quat (/ 2) (/ 2) (/ 2) (/ 2))).
Proof.
  intros L HL h q. assert (H : b2r h = / 2) by (vm_compute; lra). assert (U : ulp_half = / 16777216) by (unfold ulp_half; cbn; lra). split.
  - pose proof (C97_roundtrip L 4 (/ 2) q HL) as R. cbv zeta in R. unfold q in R at 5. unfold sine_sq in R. cbn [lq qx qy qz qw q] in R. rewrite H in R.
    replace (20 * ulp_half) with ((5 / 2 * 4 + 6 + 2 / / 2) * ulp_half) by (rewrite U; field). apply R; try lra; [repeat constructor|]. unfold ip. cbn. lra.
  - replace (24 * ulp_half) with ((3 * 0 + 6 * ulp_half) / (/ 2 * / 2)) by (rewrite U; field).
    apply (C97_accuracy L 4 0 (/ 2) q (Quat (/ 2) (/ 2) (/ 2) (/ 2)) HL); try lra.
    + unfold unit_quat, norm, ip. cbn. replace (_ + _) with (1 * 1) by lra. apply sqrt_square. lra.
    + unfold all_close, lq. cbn [qx qy qz qw q]. repeat constructor; rewrite H, Rminus_diag_eq, Rabs_R0; trivial; lra.
    + unfold sine_sq. cbn. lra.
Qed.
(** a ten-thousandth of a radian is lost; -1 is a real part to which the fourth theorem applies *)
Example C97_small_case : finite (f32_lit 1 (-4)) /\ Rabs (b2r (f32_lit 1 (-4))) <= / IZR (2 ^ 12) /\ 1 <= Rabs (b2r (f32_ofZ (-1))) <= IZR (2 ^ 60).
Proof.
  split; [reflexivity|]. split.
  - change (/ IZR (2 ^ 12)) with (/ 4096). apply Rabs_le. vm_compute. lra.
  - assert (E : b2r (f32_ofZ (-1)) = -1) by (apply (ErrLib.ofZ_exact (-1)); lia). rewrite E, Rabs_left by lra. split; [lra|]. rewrite <- opp_IZR. apply IZR_le. lia.
Qed.
PROPS*)
