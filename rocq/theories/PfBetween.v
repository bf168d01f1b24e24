(** * Proofs: accuracy of the rotation between two vectors *)
From Coq Require Import ZArith Bool Reals List Lra Lia.
From Flocq Require Import Core IEEE754.BinarySingleNaN.
From Verif Require Import Scalar IEEE32 RealInst Types Outcome Spec SpecR SpecMat SpecGeo SpecF32 SpecErr SpecOrd SpecDom SpecAcc SpecProj FloatBasics FloatOps
  ModelVec ModelCommon ModelExp ModelGeom ModelQuat ModelQuaternion ModelConst F32Tac RealTac.
Import ListNotations.
Local Open Scope R_scope.
(*HEADER END*)
From Coq Require Import Psatz.
From Verif Require Import FloatAlg ErrLib OvfLib LenLib RelLib ScaleLib MonoLib DomLib PfErr PfOvf PfLen PfDomain PfQuatAcc PfOctAcc VecErrLib QuatErrLib.

(** ** Exact rotation *)
Lemma lagrange U V : length U = 3%nat -> length V = 3%nat -> ip (cross_l U V) (cross_l U V) = ip U U * ip V V - ip U V * ip U V.
Proof. intros HU HV. list3 U. list3 V. unfold ip, cross_l. cbn. ring. Qed.
Lemma between_norm U V : length U = 3%nat -> length V = 3%nat -> let n := norm U * norm V in let d := ip U V in
  norm (cross_l U V ++ [n + d]) * norm (cross_l U V ++ [n + d]) = 2 * n * (n + d).
Proof.
  intros HU HV n d. rewrite norm_sq. assert (E : ip (cross_l U V ++ [n + d]) (cross_l U V ++ [n + d]) = ip (cross_l U V) (cross_l U V) + (n + d) * (n + d)) by (unfold ip, cross_l; cbn; ring).
  rewrite E, lagrange by assumption. fold d. assert (N : n * n = ip U U * ip V V) by (unfold n; rewrite <- !norm_sq; ring). rewrite <- N. ring.
Qed.
Lemma turned_eq x y z w v : length v = 3%nat -> turned x y z w v = vadd v (vadd (vscale (2 * w) (cross_l [x; y; z] v)) (vscale 2 (cross_l [x; y; z] (cross_l [x; y; z] v)))).
Proof. intros H. list3 v. unfold turned, vadd, vscale, cross_l. cbn. lring. Qed.
Lemma turn_comp lu lv n d N ui vi : 0 < lu -> 0 < lv -> n = lu * lv -> 0 < n + d -> 0 < N -> N * N = 2 * n * (n + d) ->
  / lu * ui + (2 * ((n + d) / N) * ((lu * lu * vi - d * ui) / (N * lu)) + 2 * (- (n * n - d * d) * ui / (N * N * lu))) = / lv * vi.
Proof.
  intros Pu Pv -> Pd PN E.
  transitivity (/ lu * ui + (2 * (lu * lv + d) * (lu * lu * vi - d * ui) / (N * N * lu) + 2 * (- (lu * lv * (lu * lv) - d * d) * ui / (N * N * lu)))); [field; lra|].
  rewrite E. field. repeat split; nra.
Qed.
Lemma exact_turn U V : length U = 3%nat -> length V = 3%nat -> 0 < norm U -> 0 < norm V -> let n := norm U * norm V in let d := ip U V in 0 < n + d ->
  forall x y z w, unit_of (cross_l U V ++ [n + d]) = [x; y; z; w] -> turned x y z w (unit_of U) = unit_of V.
Proof.
  intros HU HV PU PV n d Pd x y z w E. pose proof (between_norm U V HU HV) as BN. cbv zeta in BN. fold n in BN. fold d in BN.
  assert (Pn : 0 < n) by (unfold n; now apply Rmult_lt_0_compat). set (N := norm (cross_l U V ++ [n + d])) in *.
  assert (PN : 0 < N). { assert (0 <= N) by apply norm_nn. assert (0 < N * N) by (rewrite BN; nra). nra. }
  assert (EX : x = / N * nth 0 (cross_l U V) 0 /\ y = / N * nth 1 (cross_l U V) 0 /\ z = / N * nth 2 (cross_l U V) 0 /\ w = / N * (n + d)).
  { unfold unit_of in E. fold N in E. unfold cross_l, vscale in E. cbn in E. injection E as <- <- <- <-. unfold cross_l. cbn. repeat split. }
  clear E. destruct EX as (-> & -> & -> & ->). pose proof (norm_sq U) as QU. pose proof (norm_sq V) as QV. unfold unit_of. set (lu := norm U) in *. set (lv := norm V) in *.
  rewrite turned_eq by (rewrite vscale_len; exact HU).
  assert (TC : forall ui vi, / lu * ui + (2 * ((n + d) / N) * ((lu * lu * vi - d * ui) / (N * lu)) + 2 * (- (n * n - d * d) * ui / (N * N * lu))) = / lv * vi) by (intros; apply turn_comp; trivial).
  assert (NN : n * n = lu * lu * (lv * lv)) by (unfold n; ring).
  clearbody N n lu lv. unfold d in *. clear d. list3 U. list3 V. cbn in QU, QV. unfold ip in *. cbn in *.
  rewrite NN, QU, QV in TC. rewrite <- (TC a a2), <- (TC a0 a3), <- (TC a1 a4). clear TC.
  unfold vadd, vscale, cross_l. cbn. repeat match goal with |- _ :: _ = _ :: _ => apply f_equal2; [field; lra|] end; reflexivity.
Qed.
(** how much the rotation changes with the quaternion *)
Lemma turn_lipschitz x y z w x' y' z' w' v e : length v = 3%nat -> norm v = 1 -> norm [x; y; z; w] = 1 -> norm (vsub [x'; y'; z'; w'] [x; y; z; w]) <= e -> 0 <= e ->
  norm (vsub (turned x' y' z' w' v) (turned x y z w v)) <= 8 * e + 4 * (e * e).
Proof.
  intros HV NV NQ D Pe. rewrite !turned_eq by exact HV. set (A := [x; y; z]). set (A' := [x'; y'; z']). set (al := vsub A' A). set (om := w' - w).
  assert (CA : norm A <= 1 /\ Rabs w <= 1).
  { split; [|rewrite <- NQ; apply comp_norm4; [reflexivity|cbn; auto]]. rewrite <- NQ. unfold norm. apply sqrt_le_1_alt. unfold A, ip. cbn. pose proof (Rle_0_sqr w) as S. unfold Rsqr in S. lra. }
  assert (CD : norm al <= e /\ Rabs om <= e).
  { split; [|eapply Rle_trans; [|exact D]; apply comp_norm4; [reflexivity|unfold vsub; cbn; auto]]. eapply Rle_trans; [|exact D]. unfold norm. apply sqrt_le_1_alt. unfold al, A, A', ip, vsub. cbn. pose proof (Rle_0_sqr (w' - w)) as S. unfold Rsqr in S. lra. }
  destruct CA as [CA CW], CD as [CL CO].
  assert (NA' : norm A' <= 1 + e) by (apply (norm_from_parts A al); try reflexivity; trivial; unfold al, A, A', vadd, vsub; cbn; lring).
  pose proof (norm_nn A) as PA. pose proof (norm_nn A') as PA'. pose proof (norm_nn al) as PL. pose proof (Rabs_pos w) as PW. pose proof (Rabs_pos om) as PO.
  pose proof (cross_norm A' v eq_refl HV) as C1. pose proof (cross_norm al v eq_refl HV) as C2. rewrite NV in C1, C2.
  pose proof (norm_nn (cross_l A' v)) as PC1. pose proof (norm_nn (cross_l al v)) as PC2.
  pose proof (cross_norm al (cross_l A' v) eq_refl eq_refl) as C3. pose proof (cross_norm A (cross_l al v) eq_refl eq_refl) as C4.
  replace (8 * e + 4 * (e * e)) with ((2 * e * (1 + e) + 2 * e) + (2 * e * (1 + e) + 2 * e)) by ring.
  apply (norm_from_parts (vadd (vscale (2 * om) (cross_l A' v)) (vscale (2 * w) (cross_l al v))) (vadd (vscale 2 (cross_l al (cross_l A' v))) (vscale 2 (cross_l A (cross_l al v))))); [reflexivity|reflexivity| | |].
  - clear - HV. list3 v. unfold al, A, A', om, vadd, vsub, vscale, cross_l. cbn. lring.
  - apply (norm_from_parts (vscale (2 * om) (cross_l A' v)) (vscale (2 * w) (cross_l al v))); try reflexivity; rewrite norm_scale3, Rabs_mult, (Rabs_pos_eq 2) by lra; nra.
  - apply (norm_from_parts (vscale 2 (cross_l al (cross_l A' v))) (vscale 2 (cross_l A (cross_l al v)))); try reflexivity; rewrite norm_scale3, (Rabs_pos_eq 2) by lra; nra.
Qed.

(** ** Rounding *)
Lemma sqrt_rel p X dl : 0 < X -> Rabs dl <= / 100 -> p = X * X * (1 + dl) -> exists e, Rabs e <= 51/100 * Rabs dl /\ sqrt p = X * (1 + e).
Proof.
  intros PX D ->. assert (D' := D). apply Rabs_le_inv in D'. exists (sqrt (1 + dl) - 1). split.
  - pose proof (sqrt_pos (1 + dl)) as PS. pose proof (sqrt_sqrt (1 + dl) ltac:(lra)) as Q. set (s := sqrt (1 + dl)) in *. clearbody s.
    assert (S1 : 99/100 <= s) by nra. assert (E : (s - 1) * (s + 1) = dl) by nra.
    assert (A : Rabs (s - 1) * (s + 1) = Rabs dl) by (rewrite <- E, Rabs_mult, (Rabs_pos_eq (s + 1)) by lra; reflexivity). pose proof (Rabs_pos (s - 1)). nra.
  - rewrite sqrt_mult by nra. rewrite sqrt_square by lra. ring.
Qed.
Lemma tiny_n n : / IZR (2 ^ 40) <= n -> tiny <= u * n / 1000.
Proof.
  intros H. assert (T : tiny = / IZR (2 ^ 30) * (u * / IZR (2 ^ 40)) * / IZR (2 ^ 55)) by (unfold tiny, ulp_half; rewrite <- !Rinv_mult, <- !mult_IZR; reflexivity).
  assert (/ IZR (2 ^ 55) <= / 1000) by (apply Rinv_le_contravar; [lra|now apply (IZR_le 1000)]). assert (0 < / IZR (2 ^ 55)) by (apply Rinv_0_lt_compat; now apply (IZR_lt 0)).
  assert (/ IZR (2 ^ 30) <= 1) by (rewrite <- Rinv_1; apply Rinv_le_contravar; [lra|now apply (IZR_le 1)]). assert (0 < / IZR (2 ^ 30)) by (apply Rinv_0_lt_compat; now apply (IZR_lt 0)).
  pose proof u_val as U. assert (0 < / IZR (2 ^ 40)) by (apply Rinv_0_lt_compat; now apply (IZR_lt 0)). rewrite T.
  set (a := / IZR (2 ^ 55)) in *. set (b := / IZR (2 ^ 30)) in *. set (c := / IZR (2 ^ 40)) in *. clearbody a b c. clear T.
  assert (u * c <= u * n) by nra. assert (0 < u * c) by nra. assert (b * (u * c) <= u * c) by nra. nra.
Qed.

Lemma p18 : 0 < / IZR (2 ^ 18). Proof. apply Rinv_0_lt_compat. now apply (IZR_lt 0). Qed.
Lemma below62 x : x <= IZR (2 ^ 30) -> x <= IZR (2 ^ 62). Proof. intros H. eapply Rle_trans; [exact H|now apply IZR_le]. Qed.
Lemma square_rel L (q : vec3 f32) : all_finite (l3 q) -> / IZR (2 ^ 18) <= norm (vals (l3 q)) <= IZR (2 ^ 30) ->
  rel_close (301/100) (dot3 (F32 L) q q) (norm (vals (l3 q)) * norm (vals (l3 q))).
Proof.
  intros F H. destruct (dot_near L 0 q _ q (near_exact q F) F (below62 _ (proj2 H)) (below62 _ (proj2 H))) as [FF E]. split; [exact FF|].
  rewrite <- norm_sq in E. set (N := norm (vals (l3 q))) in *. pose proof p18 as P. assert (PN : 0 < N * N) by nra. rewrite (Rabs_pos_eq (N * N)) by lra.
  assert (T : tiny <= u * (N * N) / 1000).
  { apply tiny_n. replace (/ IZR (2 ^ 40)) with (/ IZR (2 ^ 18) * / IZR (2 ^ 18) * / 16) by (rewrite <- !Rinv_mult, <- !mult_IZR; reflexivity). nra. }
  eapply Rle_trans; [exact E|]. clear E H. pose proof u_val as Hu. assert (0 < u * (N * N)) by (apply Rmult_lt_0_compat; lra). lra.
Qed.

Lemma Rle_div_l' a b c : 0 < b -> a <= c * b -> a / b <= c.
Proof. intros P H. apply Rmult_le_reg_r with b; [exact P|]. replace (a / b * b) with a by (field; lra). exact H. Qed.
Lemma Rle_div_r' a b c : 0 < b -> c * b <= a -> c <= a / b.
Proof. intros P H. apply Rmult_le_reg_r with b; [exact P|]. replace (a / b * b) with a by (field; lra). exact H. Qed.

Section Between.
Variables (L : Libm) (a b : vec3 f32) (h : R).
Let U := vals (l3 a).
Let V := vals (l3 b).
Let n := norm U * norm V.
Let d := ip U V.
Hypothesis Fa : all_finite (l3 a).
Hypothesis Fb : all_finite (l3 b).
Hypothesis HU : / IZR (2 ^ 18) <= norm U <= IZR (2 ^ 30).
Hypothesis HV : / IZR (2 ^ 18) <= norm V <= IZR (2 ^ 30).
Let uu := dot3 (F32 L) a a.
Let vv := dot3 (F32 L) b b.
Let m := Bsqrt mode_NE (Bmult mode_NE uu vv).
Let c := dot3 (F32 L) a b.
Let r := Bplus mode_NE m c.
Let w : vec3 f32 := cross (F32 L) a b.
Let t := Bmult mode_NE (f32_lit 1 (-6)) m.
Lemma n_range : / IZR (2 ^ 36) <= n <= IZR (2 ^ 60).
Proof.
  pose proof p18 as P. split.
  - replace (/ IZR (2 ^ 36)) with (/ IZR (2 ^ 18) * / IZR (2 ^ 18)) by (rewrite <- Rinv_mult, <- mult_IZR; reflexivity). unfold n. apply Rmult_le_compat; lra.
  - replace (IZR (2 ^ 60)) with (IZR (2 ^ 30) * IZR (2 ^ 30)) by (rewrite <- mult_IZR; reflexivity). unfold n. apply Rmult_le_compat; lra.
Qed.
Lemma n_pos : 0 < n. Proof. eapply Rlt_le_trans; [|apply n_range]. apply Rinv_0_lt_compat. now apply (IZR_lt 0). Qed.
Lemma d_bound : - n <= d <= n.
Proof. apply Rabs_le_inv. unfold d, n. apply ip_norm; reflexivity. Qed.
Lemma m_rel : exists e, Rabs e <= 46/10 * u /\ finite m /\ b2r m = n * (1 + e).
Proof.
  pose proof (square_rel L a Fa HU) as RU. pose proof (square_rel L b Fb HV) as RV. fold U in RU. fold V in RV. fold uu in RU. fold vv in RV. pose proof n_range as NR. pose proof n_pos as PN.
  assert (R2 : rel_close (301/100 + 301/100 + 1 + / 100) (Bmult mode_NE uu vv) (norm U * norm U * (norm V * norm V))).
  { apply rel_mul; trivial; try lra. right. replace (norm U * norm U * (norm V * norm V)) with (n * n) by (unfold n; ring). rewrite Rabs_pos_eq by nra. split.
    - apply Rle_trans with (/ IZR (2 ^ 36) * / IZR (2 ^ 36)); [|apply Rmult_le_compat; try lra; left; apply Rinv_0_lt_compat; now apply (IZR_lt 0)].
      rewrite <- Rinv_mult, <- mult_IZR. apply Rinv_le_contravar; [now apply (IZR_lt 0)|now apply IZR_le].
    - replace (IZR (2 ^ 120)) with (IZR (2 ^ 60) * IZR (2 ^ 60)) by (rewrite <- mult_IZR; reflexivity). apply Rmult_le_compat; lra. }
  apply rel_factor in R2 as [F [dl [D E]]]; [|lra]. replace (norm U * norm U * (norm V * norm V)) with (n * n) in E by (unfold n; ring).
  pose proof u_val as Hu. assert (D1 : Rabs dl <= / 100) by lra. destruct (sqrt_rel _ n dl PN D1 E) as (e1 & K1 & S1).
  assert (P : 0 <= b2r (Bmult mode_NE uu vv)) by (rewrite E; apply Rabs_le_inv in D1; assert (0 < n * n) by nra; nra).
  destruct (finite_sqrt _ F P) as (Fm & e2 & K2 & S2). rewrite u32_u in K2. exists (e1 + e2 + e1 * e2). split; [|split; [exact Fm|]].
  - assert (K1' : Rabs e1 <= 359/100 * u) by lra. apply Rabs_le_inv in K1', K2. apply Rabs_le. nra.
  - fold m in S2. rewrite S2, S1. ring.
Qed.
Lemma c_near : finite c /\ Rabs (b2r c - d) <= 301/100 * u * n.
Proof.
  destruct (dot_near L 0 a U b (near_exact a Fa) Fb (below62 _ (proj2 HU)) (below62 _ (proj2 HV))) as [FF E]. split; [exact FF|]. fold U in E. fold V in E. fold d in E. fold c in E.
  pose proof n_range as NR. assert (T : tiny <= u * n / 1000) by (apply tiny_n; eapply Rle_trans; [|apply NR]; apply Rinv_le_contravar; [now apply (IZR_lt 0)|now apply IZR_le]).
  eapply Rle_trans; [exact E|]. replace ((0 + 3001/1000 * u * norm U) * norm V) with (3001/1000 * u * n) by (unfold n; ring). pose proof u_val as Hu. pose proof n_pos as PN. assert (0 < u * n) by (apply Rmult_lt_0_compat; lra). lra.
Qed.
Lemma r_near : finite r /\ Rabs (b2r r - (n + d)) <= 97/10 * u * n /\ b2r m <= 101/100 * n.
Proof.
  destruct m_rel as (e & He & Fm & Em). destruct c_near as [Fc Ec]. pose proof n_range as NR. pose proof n_pos as PN. pose proof d_bound as DB. pose proof u_val as Hu.
  apply Rabs_le_inv in He, Ec. assert (M : n - 46/10 * u * n <= b2r m <= n + 46/10 * u * n) by (rewrite Em; nra).
  assert (W : within 61 m) by (split; [exact Fm|]; apply Rabs_le; change (p2 61) with (IZR (2 * 2 ^ 60)); rewrite mult_IZR; nra).
  assert (W' : within 61 c) by (split; [exact Fc|]; apply Rabs_le; change (p2 61) with (IZR (2 * 2 ^ 60)); rewrite mult_IZR; nra).
  destruct (w_add 61 61 62 m c W W') as [[Fr _] Er]; try lia. split; [exact Fr|]. split; [|nra].
  destruct (rnd_plus_error m c) as (g & Hg & Kg). rewrite u32_u in Hg. apply Rabs_le_inv in Hg. fold r in Er. rewrite Er, Kg.
  assert (S : - (9 * u * n) <= b2r m + b2r c <= 2 * n + 9 * u * n) by lra. set (mc := b2r m + b2r c) in *.
  assert (Q : - (761/100 * u * n) <= mc - (n + d) <= 761/100 * u * n) by (unfold mc; lra). clearbody mc.
  apply Rabs_le. assert (G : Rabs (mc * g) <= (201/100 * n) * u).
  { rewrite Rabs_mult. apply Rmult_le_compat; try apply Rabs_pos; apply Rabs_le; nra. }
  apply Rabs_le_inv in G. nra.
Qed.
Lemma t_near : finite t /\ 998/1000 * / 1000000 * n <= b2r t <= 102/100 * / 1000000 * n.
Proof.
  destruct m_rel as (e & He & Fm & Em). pose proof n_range as NR. pose proof n_pos as PN. pose proof u_val as Hu.
  assert (Wl : within (-19) (f32_lit 1 (-6)) /\ 999/1000 * / 1000000 <= b2r (f32_lit 1 (-6)) <= 100001/100000 * / 1000000).
  { split; [split; [reflexivity|]|]; unfold f32_lit; vm_compute; unfold Rabs; try destruct Rcase_abs; lra. }
  destruct Wl as [Wl Hl]. apply Rabs_le_inv in He.
  assert (W : within 61 m). { split; [exact Fm|]. apply Rabs_le. change (p2 61) with (IZR (2 * 2 ^ 60)). rewrite mult_IZR. nra. }
  destruct (w_mul (-19) 61 42 _ m Wl W) as [[Ft _] Et]; try lia. fold t in Ft, Et. split; [exact Ft|]. rewrite Et.
  assert (M : (1 - 46/10 * u) * n <= b2r m <= (1 + 46/10 * u) * n) by (rewrite Em; nra). assert (PM : 0 <= (1 - 46/10 * u) * n) by (apply Rmult_le_pos; lra).
  set (l := b2r (f32_lit 1 (-6))) in *. set (x := l * b2r m) in *.
  assert (X1 : x <= 1011/1000 * / 1000000 * n) by (apply Rle_trans with (100001/100000 * / 1000000 * ((1 + 46/10 * u) * n)); [apply Rmult_le_compat; lra|nra]).
  assert (X2 : 9985/10000 * / 1000000 * n <= x) by (apply Rle_trans with (999/1000 * / 1000000 * ((1 - 46/10 * u) * n)); [nra|apply Rmult_le_compat; lra]).
  clearbody x l. assert (T : tiny <= u * n / 1000) by (clear - NR; apply tiny_n; eapply Rle_trans; [|apply NR]; apply Rinv_le_contravar; [now apply (IZR_lt 0)|now apply IZR_le]).
  destruct (rnd_error x) as (g & k & Hg & Hk & _ & E). rewrite u32_u in Hg. rewrite eta_tiny in Hk. apply Rabs_le_inv in Hg, Hk. rewrite E. assert (0 <= u * n) by nra.
  assert (- (u * n) <= x * g <= u * n) by nra. assert (T2 : u * n <= / 16777216 * n) by nra. nra.
Qed.
Hypothesis Hd : 2 * h * h * n <= n + d.
Lemma no_branch : / 1000 <= h -> Bltb r t = false.
Proof.
  intros Hh. destruct r_near as (Fr & Er & _). destruct t_near as (Ft & _ & Et). pose proof n_pos as PN. pose proof u_val as Hu. rewrite bltb_b2r by assumption. apply Rlt_bool_false.
  apply Rabs_le_inv in Er. assert (HH : / 1000000 <= h * h) by nra. assert (2 * / 1000000 * n <= n + d) by nra. nra.
Qed.
Let P : vec3 f32 := if Bltb (Babs (z3 a)) (Babs (x3 a)) then V3 (Bopp (y3 a)) (x3 a) (f32_lit 0 0) else V3 (f32_lit 0 0) (Bopp (z3 a)) (y3 a).
Lemma between_code : quat_from_to (F32 L) a b = if Bltb r t then normalize_q (F32 L) (Quat (x3 P) (y3 P) (z3 P) (f32_lit 0 0)) else normalize_q (F32 L) (Quat (x3 w) (y3 w) (z3 w) r).
Proof.
  transitivity (let '(real_part, w_) := if Bltb r t then (f32_lit 0 0, P) else (r, w) in normalize_q (F32 L) (Quat (x3 w_) (y3 w_) (z3 w_) real_part)); [reflexivity|]. destruct (Bltb r t); reflexivity.
Qed.
Lemma between_near : / 2500 <= h -> Bltb r t = false -> qnear ((11 / h + 9) * u) (quat_from_to (F32 L) a b) (unit_of (cross_l U V ++ [n + d])).
Proof.
  intros Hh HB. rewrite between_code, HB. destruct r_near as (Fr & Er & _). pose proof n_range as NR. pose proof n_pos as PN. pose proof d_bound as DB. pose proof u_val as Hu.
  destruct (cross_round L a b Fa Fb (below62 _ (proj2 HU)) (below62 _ (proj2 HV))) as (_ & Fx & Ex). change (norm (vsub (vals (l3 w)) (cross_l U V)) <= 285/100 * u * n + 4 * tiny) in Ex. change (all_finite (l3 w)) in Fx.
  assert (T : tiny <= u * n / 1000) by (apply tiny_n; eapply Rle_trans; [|apply NR]; apply Rinv_le_contravar; [now apply (IZR_lt 0)|now apply IZR_le]).
  assert (PUN : 0 < u * n) by (apply Rmult_lt_0_compat; lra).
  set (C := cross_l U V ++ [n + d]). assert (Ex' : norm (vsub (vals (l3 w)) (cross_l U V)) <= 2855/1000 * (u * n)). { eapply Rle_trans; [exact Ex|]. clear - T PUN. lra. } clear Ex.
  assert (Q : qnear (1012/100 * (u * n)) (Quat (x3 w) (y3 w) (z3 w) r) C).
  { split; [reflexivity|]. split.
    - clear - Fx Fr. clearbody w. destruct w as [w0 w1 w2]. unfold all_finite, l3, lq in *. cbn [x3 y3 z3 qx qy qz qw] in *. apply Forall_cons_iff in Fx as [F0 Fx]. apply Forall_cons_iff in Fx as [F1 Fx]. apply Forall_cons_iff in Fx as [F2 _]. repeat (apply Forall_cons; [assumption|]). apply Forall_nil.
    - apply sq_le_norm; [lra|]. set (D3 := vsub (vals (l3 w)) (cross_l U V)) in *. set (rr := b2r r - (n + d)) in *.
      assert (E : ip (vsub (vals (lq (Quat (x3 w) (y3 w) (z3 w) r))) C) (vsub (vals (lq (Quat (x3 w) (y3 w) (z3 w) r))) C) = norm D3 * norm D3 + rr * rr) by (rewrite norm_sq; unfold D3, rr, C, ip, vsub, cross_l; cbn; ring).
      rewrite E. pose proof (norm_nn D3) as P3. assert (norm D3 * norm D3 <= (2855/1000 * (u * n)) * (2855/1000 * (u * n))) by (apply Rmult_le_compat; lra).
      apply Rabs_le_inv in Er. assert (ER : Rabs rr <= 97/10 * (u * n)) by (apply Rabs_le; lra). assert (rr * rr <= (97/10 * (u * n)) * (97/10 * (u * n))) by (rewrite <- abs_sq; apply Rmult_le_compat; try apply Rabs_pos; exact ER). nra. }
  pose proof (between_norm U V eq_refl eq_refl) as BN. cbv zeta in BN. fold n in BN. fold d in BN. fold C in BN.
  assert (NC : 2 * h * n <= norm C <= 2 * n). { pose proof (norm_nn C) as PC. assert (0 < h * n) by nra. split; nra. }
  assert (PHN : / 2500 * n <= h * n) by nra. destruct (qnear_norm _ _ _ Q) as (K1 & K2 & _). assert (UN : u * n <= / 16777216 * n) by nra.
  eapply qnear_weaken; [|apply (normalize_q_near L _ _ C Q)].
  - pose proof tiny_small as TS. assert (G : 2 * (1012/100 * (u * n)) / norm C <= 1012/100 * u / h).
    { apply Rle_div_l'; [lra|]. replace (1012/100 * u / h * norm C) with (1012/100 * u * (norm C / h)) by (field; lra). assert (2 * n <= norm C / h) by (apply Rle_div_r'; lra). nra. }
    assert (0 < / h) by (apply Rinv_0_lt_compat; lra). replace (1012/100 * u / h) with (1012/100 * (u * / h)) in G by (field; lra). replace ((11 / h + 9) * u) with (11 * (u * / h) + 9 * u) by (field; lra). assert (0 < u * / h) by nra. lra.
  - lra.
  - split.
    + apply Rle_trans with (/ 2500 * n); [|lra]. apply Rle_trans with (/ 2500 * / IZR (2 ^ 36)); [|apply Rmult_le_compat_l; lra]. rewrite <- Rinv_mult, <- mult_IZR. apply Rinv_le_contravar; [now apply (IZR_lt 0)|now apply IZR_le].
    + apply Rle_trans with (4 * IZR (2 ^ 60)); [|rewrite <- mult_IZR; now apply IZR_le]. lra.
Qed.
(** ** The other branch *)
Lemma P_facts : all_finite (l3 P) /\ ip (vals (l3 P)) U = 0 /\ norm U / 2 <= norm (vals (l3 P)) <= norm U.
Proof.
  pose proof Fa as F. unfold U in *. clear - F. unfold P. clear P. destruct a as [x y z]. unfold all_finite, l3 in *. cbn [x3 y3 z3] in *. apply Forall_cons_iff in F as [F0 F]. apply Forall_cons_iff in F as [F1 F]. apply Forall_cons_iff in F as [F2 _].
  assert (FA : forall v : f32, finite v -> finite (Babs v)) by (intros v Fv; unfold finite; now rewrite is_finite_Babs). rewrite (bltb_b2r _ _ (FA z F2) (FA x F0)). rewrite !B2R_Babs. assert (Z : b2r (f32_lit 0 0) = 0) by reflexivity. assert (FZ : finite (f32_lit 0 0)) by reflexivity.
  set (N := norm (vals [x; y; z])). assert (PN : 0 <= N) by apply norm_nn. assert (NN : N * N = b2r x * b2r x + b2r y * b2r y + b2r z * b2r z) by (unfold N; rewrite norm_sq; unfold ip; cbn; ring).
  destruct (Rlt_bool_spec (Rabs (b2r z)) (Rabs (b2r x))) as [K|K]; cbn [x3 y3 z3].
  - split; [repeat (apply Forall_cons; [first [assumption|now apply finite_opp]|]); apply Forall_nil|].
    set (M := norm _). assert (PM : 0 <= M) by apply norm_nn. assert (MM : M * M = b2r x * b2r x + b2r y * b2r y) by (unfold M; rewrite norm_sq; unfold ip, vals; cbn [map zip fold_right]; rewrite ?B2R_Bopp, ?Z; ring).
    split; [unfold ip, vals; cbn [map zip fold_right]; rewrite ?B2R_Bopp, ?Z; ring|]. assert (K2 : b2r z * b2r z <= b2r x * b2r x) by (rewrite <- (abs_sq (b2r z)), <- (abs_sq (b2r x)); apply Rmult_le_compat; try apply Rabs_pos; lra). split; nra.
  - split; [repeat (apply Forall_cons; [first [assumption|now apply finite_opp]|]); apply Forall_nil|].
    set (M := norm _). assert (PM : 0 <= M) by apply norm_nn. assert (MM : M * M = b2r z * b2r z + b2r y * b2r y) by (unfold M; rewrite norm_sq; unfold ip, vals; cbn [map zip fold_right]; rewrite ?B2R_Bopp, ?Z; ring).
    split; [unfold ip, vals; cbn [map zip fold_right]; rewrite ?B2R_Bopp, ?Z; ring|]. assert (K2 : b2r x * b2r x <= b2r z * b2r z) by (rewrite <- (abs_sq (b2r z)), <- (abs_sq (b2r x)); apply Rmult_le_compat; try apply Rabs_pos; lra). split; nra.
Qed.
Lemma opposed_near : Bltb r t = true -> qnear (9 * u) (quat_from_to (F32 L) a b) (unit_of (vals (l3 P) ++ [0])).
Proof.
  intros HB. rewrite between_code, HB. destruct P_facts as (FP & _ & NP). pose proof p18 as P18.
  set (c0 := Quat (x3 P) (y3 P) (z3 P) (f32_lit 0 0)). set (C := vals (l3 P) ++ [0]). assert (E : vals (lq c0) = C) by reflexivity.
  assert (NE : norm C = norm (vals (l3 P))) by (unfold C, norm, ip; cbn; f_equal; ring).
  assert (Q : qnear 0 c0 C).
  { split; [reflexivity|]. split.
    - assert (FZ : finite (f32_lit 0 0)) by reflexivity. unfold c0. clear - FP FZ. clearbody P. destruct P as [w0 w1 w2]. unfold all_finite, l3, lq in *. cbn [x3 y3 z3 qx qy qz qw] in *. apply Forall_cons_iff in FP as [F0 FP]. apply Forall_cons_iff in FP as [F1 FP]. apply Forall_cons_iff in FP as [F2 _]. repeat (apply Forall_cons; [assumption|]). apply Forall_nil.
    - rewrite E. apply sq_le_norm; [lra|]. unfold C, ip, vsub. cbn. right. ring. }
  eapply qnear_weaken; [|apply (normalize_q_near L 0 c0 C Q)].
  - pose proof tiny_small as TS. replace (2 * 0 / norm C) with 0 by (unfold Rdiv; ring). lra.
  - rewrite NE. lra.
  - rewrite E, NE. split.
    + apply Rle_trans with (/ IZR (2 ^ 18) / 2); [|lra]. unfold Rdiv. rewrite <- Rinv_mult, <- mult_IZR. apply Rinv_le_contravar; [now apply (IZR_lt 0)|now apply IZR_le].
    + apply below62. lra.
Qed.
Lemma branch_bounds : (Bltb r t = true -> n + d <= 16/10 * / 1000000 * n) /\ (Bltb r t = false -> 41/100 * / 1000000 * n <= n + d) /\ (n + d <= 4/10 * / 1000000 * n -> Bltb r t = true).
Proof.
  destruct r_near as (Fr & Er & _). destruct t_near as (Ft & Et). pose proof n_pos as PN. pose proof u_val as Hu. rewrite bltb_b2r by assumption. apply Rabs_le_inv in Er.
  assert (T2 : u * n <= / 16777216 * n) by nra. split; [|split].
  - intros HB. destruct (Rlt_bool_spec (b2r r) (b2r t)) as [K|K]; [|discriminate]. lra.
  - intros HB. destruct (Rlt_bool_spec (b2r r) (b2r t)) as [K|K]; [discriminate|]. lra.
  - intros H. apply Rlt_bool_true. lra.
Qed.
Lemma pos_norms : 0 < norm U /\ 0 < norm V. Proof. pose proof p18. lra. Qed.
Lemma qnear_turn (q : quat f32) e C T : qnear e q C -> norm C = 1 -> e <= / 500 ->
  (forall x y z w, C = [x; y; z; w] -> turned x y z w (unit_of U) = T) -> length T = 3%nat ->
  norm (vsub (turned (b2r (qx q)) (b2r (qy q)) (b2r (qz q)) (b2r (qw q)) (unit_of U)) T) <= 801/100 * e.
Proof.
  intros (LC & _ & K) NC He HT LT. list4 C. specialize (HT _ _ _ _ eq_refl). rewrite <- HT. destruct pos_norms as [PU _].
  assert (Pe : 0 <= e) by (eapply Rle_trans; [apply norm_nn|exact K]).
  eapply Rle_trans; [apply (turn_lipschitz _ _ _ _ _ _ _ _ _ e); [unfold unit_of; now rewrite vscale_len|now apply unit_norm'|exact NC| |exact Pe]|nra].
  exact K.
Qed.
Lemma case_between : / 2500 <= h -> Bltb r t = false -> norm (vsub (turned (b2r (qx (quat_from_to (F32 L) a b))) (b2r (qy (quat_from_to (F32 L) a b))) (b2r (qz (quat_from_to (F32 L) a b))) (b2r (qw (quat_from_to (F32 L) a b))) (unit_of U)) (unit_of V)) <= 801/100 * ((11 / h + 9) * u).
Proof.
  intros Hh HB. pose proof (between_near Hh HB) as Q. pose proof n_pos as PN. pose proof u_val as Hu. destruct pos_norms as [PU PV]. assert (Pd : 0 < n + d) by (assert (0 < h * h) by nra; assert (0 < h * h * n) by nra; lra).
  assert (PH : / h <= 2500) by (rewrite <- (Rinv_inv 2500); apply Rinv_le_contravar; lra).
  apply (qnear_turn _ _ _ _ Q); [| | |unfold unit_of; now rewrite vscale_len].
  - apply unit_norm'. pose proof (between_norm U V eq_refl eq_refl) as BN. cbv zeta in BN. fold n in BN. fold d in BN. pose proof (norm_nn (cross_l U V ++ [n + d])) as PZ. set (N := norm (cross_l U V ++ [n + d])) in *. assert (0 < n * (n + d)) by (now apply Rmult_lt_0_compat). clearbody N. destruct PZ as [PZ|<-]; [exact PZ|exfalso]. lra.
  - unfold Rdiv. nra.
  - apply exact_turn; trivial.
Qed.
Lemma case_opposed : Bltb r t = true -> norm (vsub (turned (b2r (qx (quat_from_to (F32 L) a b))) (b2r (qy (quat_from_to (F32 L) a b))) (b2r (qz (quat_from_to (F32 L) a b))) (b2r (qw (quat_from_to (F32 L) a b))) (unit_of U)) (unit_of V)) <= 73 * u + sqrt (2 * ((n + d) / n)).
Proof.
  intros HB. pose proof (opposed_near HB) as Q. pose proof n_pos as PN. pose proof u_val as Hu. destruct pos_norms as [PU PV]. destruct P_facts as (FP & OP & NP).
  set (O := vscale (-1) (unit_of U)). assert (LU : length (unit_of U) = 3%nat) by (unfold unit_of; now rewrite vscale_len). assert (LV : length (unit_of V) = 3%nat) by (unfold unit_of; now rewrite vscale_len).
  assert (NP0 : norm (vals (l3 P) ++ [0]) = norm (vals (l3 P))) by (unfold norm, ip; cbn; f_equal; ring).
  set (q := quat_from_to (F32 L) a b) in *. set (TT := turned (b2r (qx q)) (b2r (qy q)) (b2r (qz q)) (b2r (qw q)) (unit_of U)).
  assert (H : norm (vsub TT O) <= 801/100 * (9 * u)).
  { apply (qnear_turn _ _ _ _ Q); [|lra| |reflexivity].
    - apply unit_norm'. rewrite NP0. lra.
    - intros x y z w0 E. rewrite turned_eq by exact LU. pose proof (norm_sq (vals (l3 P))) as NS. unfold unit_of in E. rewrite NP0 in E. set (k := norm (vals (l3 P))) in *. assert (Pk : 0 < k) by lra. clearbody k.
      set (pl := vals (l3 P)) in *. assert (LP : length pl = 3%nat) by reflexivity. set (ul := U) in *. assert (LUU : length ul = 3%nat) by reflexivity. unfold O, unit_of. fold ul. set (l := norm ul) in *. clearbody pl l ul. clear - E OP NS Pk LP LUU PU.
      list3 pl. list3 ul. unfold ip in *. cbn in OP, NS, E. unfold vscale in E. cbn in E. injection E as <- <- <- <-.
      assert (C3 : forall p v, v + 2 * (/ k * / k * (p * (a * a2 + (a0 * a3 + (a1 * a4 + 0))) - v * (a * a + (a0 * a0 + (a1 * a1 + 0))))) = - v).
      { intros p v. rewrite OP, <- NS. field. lra. }
      unfold vadd, vscale, cross_l. cbn. pose proof (C3 (/ l * a) (/ l * a2)) as X0. pose proof (C3 (/ l * a0) (/ l * a3)) as X1. pose proof (C3 (/ l * a1) (/ l * a4)) as X2.
      f_equal; [|f_equal; [|f_equal]].
      + replace (-1 * (/ l * a2)) with (- (/ l * a2)) by ring. rewrite <- X0. ring.
      + replace (-1 * (/ l * a3)) with (- (/ l * a3)) by ring. rewrite <- X1. ring.
      + replace (-1 * (/ l * a4)) with (- (/ l * a4)) by ring. rewrite <- X2. ring. }
  replace (73 * u + sqrt (2 * ((n + d) / n))) with (73 * u + sqrt (2 * ((n + d) / n))) by reflexivity.
  apply (norm_from_parts (vsub TT O) (vsub O (unit_of V))); [reflexivity| | |lra|].
  - unfold O. list3 (unit_of V). list3 (unit_of U). reflexivity.
  - unfold O. clear - LU LV. assert (LT : length TT = 3%nat) by reflexivity. clearbody TT. set (p := unit_of U) in *. set (s := unit_of V) in *. clearbody p s. list3 p. list3 s. list3 TT. unfold vadd, vsub, vscale. cbn. lring.
  - right. unfold norm at 1. f_equal. assert (S1 : ip (unit_of U) (unit_of U) = 1) by (rewrite <- norm_sq, unit_norm' by assumption; ring). assert (S2 : ip (unit_of V) (unit_of V) = 1) by (rewrite <- norm_sq, unit_norm' by assumption; ring).
    assert (SX : ip (unit_of U) (unit_of V) = d / n). { unfold d, n, unit_of. set (lu := norm U) in *. set (lv := norm V) in *. clearbody lu lv. unfold U, V. unfold ip, vscale. cbn. field. lra. }
    replace (2 * ((n + d) / n)) with (1 + 1 + 2 * (d / n)) by (field; lra). rewrite <- SX, <- S1 at 1. rewrite <- S2 at 1.
    unfold O. set (p := unit_of U) in *. set (s := unit_of V) in *. clearbody p s. list3 p. list3 s. unfold ip, vsub, vscale. cbn. ring.
Qed.
End Between.

(** ** The properties *)
(** With a and b of lengths between 2^-18 and 2^30 and h at most the cosine of half the angle between them, h >= 1/1000, the components are
    within 11/h + 9 half-ulps of those of the exact rotation: the cross product with the product of the lengths plus the dot product, normalized. *)
Lemma C91_between_pf : forall (L : Libm) (a b : vec3 f32) (h : R), all_finite (l3 a) -> all_finite (l3 b) ->
  let U := vals (l3 a) in let V := vals (l3 b) in let n := norm U * norm V in
  / IZR (2 ^ 18) <= norm U <= IZR (2 ^ 30) -> / IZR (2 ^ 18) <= norm V <= IZR (2 ^ 30) -> / 1000 <= h -> 2 * h * h * n <= n + ip U V ->
  all_close ((11 / h + 9) * ulp_half) (lq (quat_from_to (F32 L) a b)) (unit_of (cross_l U V ++ [n + ip U V])).
Proof.
  intros L a b h Fa Fb U V n HU HV Hh Hd. apply qnear_all_close. apply between_near; trivial; [lra|]. now apply (no_branch L a b h).
Qed.
(** That rotation takes the direction of a to the direction of b, and the computed one does up to 8.01 times that error. *)
Lemma C91_turns_pf : forall (L : Libm) (a b : vec3 f32) (h : R), all_finite (l3 a) -> all_finite (l3 b) ->
  let U := vals (l3 a) in let V := vals (l3 b) in let n := norm U * norm V in
  / IZR (2 ^ 18) <= norm U <= IZR (2 ^ 30) -> / IZR (2 ^ 18) <= norm V <= IZR (2 ^ 30) -> / 1000 <= h -> 2 * h * h * n <= n + ip U V ->
  let q := quat_from_to (F32 L) a b in
  norm (vsub (turned (b2r (qx q)) (b2r (qy q)) (b2r (qz q)) (b2r (qw q)) (unit_of U)) (unit_of V)) <= 801/100 * ((11 / h + 9) * ulp_half).
Proof.
  intros L a b h Fa Fb U V n HU HV Hh Hd q. apply case_between; trivial; [lra|]. now apply (no_branch L a b h).
Qed.
(** For nearly opposite vectors the result is a half turn about an axis across a, which takes a to the opposite of a: what is left
    is the distance from there to b. *)
Lemma C91_opposed_pf : forall (L : Libm) (a b : vec3 f32), all_finite (l3 a) -> all_finite (l3 b) ->
  let U := vals (l3 a) in let V := vals (l3 b) in let n := norm U * norm V in
  / IZR (2 ^ 18) <= norm U <= IZR (2 ^ 30) -> / IZR (2 ^ 18) <= norm V <= IZR (2 ^ 30) -> n + ip U V <= 4/10 * / 1000000 * n ->
  let q := quat_from_to (F32 L) a b in
  norm (vsub (turned (b2r (qx q)) (b2r (qy q)) (b2r (qz q)) (b2r (qw q)) (unit_of U)) (unit_of V)) <= 73 * ulp_half + sqrt (2 * ((n + ip U V) / n)).
Proof.
  intros L a b Fa Fb U V n HU HV Hd q. apply case_opposed; trivial. now apply (branch_bounds L a b Fa Fb HU HV).
Qed.
(** At any angle at all, the result takes the direction of a to within 1/80 of the direction of b. *)
Lemma C91_any_angle_pf : forall (L : Libm) (a b : vec3 f32), all_finite (l3 a) -> all_finite (l3 b) ->
  let U := vals (l3 a) in let V := vals (l3 b) in
  / IZR (2 ^ 18) <= norm U <= IZR (2 ^ 30) -> / IZR (2 ^ 18) <= norm V <= IZR (2 ^ 30) ->
  let q := quat_from_to (F32 L) a b in
  norm (vsub (turned (b2r (qx q)) (b2r (qy q)) (b2r (qz q)) (b2r (qw q)) (unit_of U)) (unit_of V)) <= / 80.
Proof.
  intros L a b Fa Fb U V HU HV q. destruct (branch_bounds L a b Fa Fb HU HV) as (B1 & B2 & _). pose proof (n_pos a b HU HV) as PN. pose proof u_val as Hu.
  pose proof (case_between L a b (45/100000) Fa Fb HU HV) as CB. pose proof (case_opposed L a b Fa HU HV) as CO.
  match type of B1 with ?c = true -> _ => destruct c end.
  - specialize (B1 eq_refl). eapply Rle_trans; [exact (CO eq_refl)|]. fold U in B1 |- *. fold V in B1 |- *. set (n := norm U * norm V) in *. set (s := n + ip U V) in *. change (0 < n) in PN.
    assert (S : sqrt (2 * (s / n)) <= / 100). { rewrite <- (sqrt_square (/ 100)) by lra. apply sqrt_le_1_alt. assert (s / n <= 16/10 * / 1000000) by (apply Rle_div_l'; lra). lra. }
    lra.
  - specialize (B2 eq_refl). clear CO B1. fold U in B2. fold V in B2. eapply Rle_trans; [apply CB; [|lra|reflexivity]|].
    + fold U. fold V. change (0 < norm U * norm V) in PN. lra.
    + replace (11 / (45 / 100000) + 9) with (220081 / 9) by field. lra.
Qed.
(*PROPS
(** The quarter turn from (1, 0, 0) to (0, 2, 0). *)
Example C91_case : forall (L : Libm), let a := V3 (f32_lit 1 0) (f32_lit 0 0) (f32_lit 0 0) in let b := V3 (f32_lit 0 0) (f32_lit 2 0) (f32_lit 0 0) in
  let U := vals (l3 a) in let V := vals (l3 b) in
  all_finite (l3 a) /\ all_finite (l3 b) /\ norm U = 1 /\ norm V = 2 /\ ip U V = 0 /\
  all_close (31 * ulp_half) (lq (quat_from_to (F32 L) a b)) (unit_of [0; 0; 2; 2]).
Proof.
  intros L a b U V. assert (Fa : all_finite (l3 a)) by (repeat constructor). assert (Fb : all_finite (l3 b)) by (repeat constructor).
  assert (EU : U = [1; 0; 0]) by (unfold U, vals, a; cbn; repeat f_equal; vm_compute; lra). assert (EV : V = [0; 2; 0]) by (unfold V, vals, b; cbn; repeat f_equal; vm_compute; lra).
  assert (NU : norm U = 1) by (rewrite EU; unfold norm, ip; cbn; replace (1 * 1 + (0 * 0 + (0 * 0 + 0))) with (1 * 1) by ring; apply sqrt_square; lra).
  assert (NV : norm V = 2) by (rewrite EV; unfold norm, ip; cbn; replace (0 * 0 + (2 * 2 + (0 * 0 + 0))) with (2 * 2) by ring; apply sqrt_square; lra).
  assert (I : ip U V = 0) by (rewrite EU, EV; unfold ip; cbn; ring).
  split; [exact Fa|]. split; [exact Fb|]. split; [exact NU|]. split; [exact NV|]. split; [exact I|].
  assert (P18 : / IZR (2 ^ 18) <= 1) by (rewrite <- Rinv_1; apply Rinv_le_contravar; [lra|now apply (IZR_le 1)]).
  assert (P30 : 2 <= IZR (2 ^ 30)) by (now apply (IZR_le 2)).
  pose proof (C91_between L a b (1/2) Fa Fb) as H. cbv zeta in H. fold U in H. fold V in H. rewrite NU, NV, I in H.
  replace (cross_l U V ++ [1 * 2 + 0]) with [0; 0; 2; 2] in H by (rewrite EU, EV; unfold cross_l; cbn; repeat (apply f_equal2; [ring|]); reflexivity).
  replace (11 / (1 / 2) + 9) with 31 in H by field. apply H; lra.
Qed.
PROPS*)
