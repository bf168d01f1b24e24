(** * Proofs: inverse quaternions in binary32 *)
From Coq Require Import ZArith Bool Reals List Lra Lia.
From Flocq Require Import Core IEEE754.BinarySingleNaN.
From Verif Require Import Scalar IEEE32 RealInst Types Outcome Spec SpecR SpecMat SpecGeo SpecF32 SpecErr SpecOrd SpecAcc SpecChain FloatBasics FloatOps
  ModelVec ModelCommon ModelGeom ModelQuat ModelQuaternion ErrLib OvfLib F32Tac RealTac LenLib VecErrLib.
Import ListNotations.
Local Open Scope R_scope.
(*HEADER END*)
From Coq Require Import Psatz.
From Verif Require Import FloatAlg LenLib DomLib OpLib PfErr PfOvf PfLen PfQuatAcc PfOctAcc AbsLib VecErrLib QuatErrLib PfChain PfQuat PfDrift.

Lemma inverse_shape L x y z w : let D := dot_q (F32 L) (Quat x y z w) (Quat x y z w) in
  lq (inverse_q (F32 L) (Quat x y z w)) = [Bdiv mode_NE (Bopp x) D; Bdiv mode_NE (Bopp y) D; Bdiv mode_NE (Bopp z) D; Bdiv mode_NE w D].
Proof. reflexivity. Qed.
Lemma one_quot (x D : f32) (X N2 : R) : finite x -> finite D -> b2r x = X -> / IZR (2 ^ 96) <= N2 -> X * X <= N2 -> 
  Rabs (b2r D - N2) <= 402 / 100 * u * N2 -> finite (Bdiv mode_NE x D) /\ Rabs (b2r (Bdiv mode_NE x D) - X / N2) <= 51 / 10 * u * Rabs (X / N2) + tiny.
Proof.
  intros Fx FD Ex LN HX HD. pose proof uval as U. pose proof tiny_small as T. assert (P96 : 0 < / IZR (2 ^ 96)) by (apply Rinv_0_lt_compat; now apply IZR_lt).
  assert (PN : 0 < N2) by lra. rewrite U in *. apply Rabs_le_inv in HD. assert (PD : 0 < b2r D) by lra.
  set (d := N2 / b2r D - 1).
  assert (Ed : d * b2r D = N2 - b2r D) by (unfold d; field; lra).
  assert (Hd : Rabs d <= 403 / 100 * / 16777216).
  { apply Rabs_le. split; apply Rmult_le_reg_r with (b2r D); trivial; rewrite Ed; nra. }
  assert (E : b2r x / b2r D = X / N2 * (1 + d)) by (rewrite Ex; unfold d; field; lra).
  assert (B : Rabs (b2r x / b2r D) <= 1001 / 1000 * Rabs (X / N2)).
  { rewrite E, Rabs_mult, Rmult_comm. apply Rmult_le_compat_r; [apply Rabs_pos|]. apply Rabs_le_inv in Hd. apply Rabs_le. lra. }
  assert (BX : Rabs (X / N2) <= IZR (2 ^ 49)).
  { assert (Q : Rabs (X / N2) * Rabs (X / N2) <= IZR (2 ^ 49) * IZR (2 ^ 49)).
    { rewrite <- Rabs_mult, Rabs_pos_eq by apply Rle_0_sqr. replace (X / N2 * (X / N2)) with (X * X / N2 * / N2) by (field; lra).
      apply Rle_trans with (1 * / N2).
      - apply Rmult_le_compat_r; [left; now apply Rinv_0_lt_compat|]. apply Rmult_le_reg_r with N2; trivial. unfold Rdiv. rewrite Rmult_assoc, Rinv_l; lra.
      - rewrite Rmult_1_l. apply Rle_trans with (IZR (2 ^ 96)); [|rewrite <- mult_IZR; now apply IZR_le]. rewrite <- (Rinv_inv (IZR (2 ^ 96))). apply Rinv_le_contravar; trivial. }
    apply Rsqr_incr_0_var; [exact Q|]. now apply (IZR_le 0). }
  pose proof (rnd_err_t _ _ B) as K.
  assert (G : Rabs (rnd (b2r x / b2r D)) < big).
  { apply Rle_lt_trans with (bpow radix2 51); [|apply bpow_lt; lia]. apply rnd_abs_le; [apply fmt_bpow; lia|]. eapply Rle_trans; [exact B|].
    change (bpow radix2 51) with (IZR (4 * 2 ^ 49)). rewrite mult_IZR. assert (0 <= IZR (2 ^ 49)) by now apply (IZR_le 0). lra. }
  destruct (div_ok x D Fx FD ltac:(lra) G) as [F V]. split; [exact F|]. rewrite V.
  replace (rnd (b2r x / b2r D) - X / N2) with (rnd (b2r x / b2r D) - b2r x / b2r D + X / N2 * d) by (rewrite E; ring).
  eapply Rle_trans; [apply Rabs_triang|]. rewrite (Rabs_mult (X / N2) d). rewrite U in K.
  assert (Rabs (X / N2) * Rabs d <= Rabs (X / N2) * (403 / 100 * / 16777216)) by (apply Rmult_le_compat_l; [apply Rabs_pos|exact Hd]).
  pose proof (Rabs_pos (X / N2)). lra.
Qed.
(** inverse(q) is, component by component, within 5.1 half-ulps of the exact inverse, relatively, plus the smallest subnormal *)
Lemma C100_inverse_pf : forall (L : Libm) (q : quat f32), all_finite (lq q) -> let N := norm (vals (lq q)) in / IZR (2 ^ 48) <= N <= IZR (2 ^ 62) ->
  Forall2 (fun c r => finite c /\ Rabs (b2r c - r) <= 51 / 10 * ulp_half * Rabs r + tiny)
    (lq (inverse_q (F32 L) q)) (map (fun a => a / (N * N)) (lq (qconj (rquat q)))).
Proof.
  intros L q F N [N1 N2]. pose proof (sqq_ok L q F N2) as (FD & _ & HD). cbv zeta in HD. fold N in HD.
  assert (P48 : 0 < / IZR (2 ^ 48)) by (apply Rinv_0_lt_compat; now apply IZR_lt).
  assert (NN : / IZR (2 ^ 96) <= N * N).
  { replace (2 ^ 96)%Z with (2 ^ 48 * 2 ^ 48)%Z by reflexivity. rewrite mult_IZR, Rinv_mult. apply Rmult_le_compat; lra. }
  assert (H : Rabs (b2r (dot_q (F32 L) q q) - N * N) <= 402 / 100 * u * (N * N)).
  { eapply Rle_trans; [exact HD|]. pose proof gam4_bound as G. assert (T : INR 4 * tiny <= / 100 * u * (N * N)).
    { replace (INR 4) with 4 by (cbn; ring). apply Rle_trans with (/ 100 * u * / IZR (2 ^ 96)).
      - rewrite uval. unfold tiny. replace (2 ^ 149)%Z with (2 ^ 53 * 2 ^ 96)%Z by reflexivity. rewrite mult_IZR, Rinv_mult.
        assert (0 < / IZR (2 ^ 96)) by (apply Rinv_0_lt_compat; now apply IZR_lt). rewrite <- Rmult_assoc. apply Rmult_le_compat_r; [lra|].
        replace (IZR (2 ^ 53)) with 9007199254740992 by reflexivity. lra.
      - apply Rmult_le_compat_l; [|exact NN]. pose proof u_val. lra. }
    assert (gam 4 * (N * N) <= 401 / 100 * u * (N * N)) by (apply Rmult_le_compat_r; [nra|exact G]). lra. }
  assert (SQ : N * N = ip (vals (lq q)) (vals (lq q))) by apply norm_sq.
  destruct q as [x y z w]. rewrite inverse_shape. unfold lq, vals, ip, rquat, qconj, mkq, qvec in *. cbn [qx qy qz qw map nth] in *. cbn in SQ.
  unfold all_finite in F. apply Forall_cons_iff in F as [Fx F]. apply Forall_cons_iff in F as [Fy F]. apply Forall_cons_iff in F as [Fz F]. apply Forall_cons_iff in F as [Fw _].
  pose proof (Rle_0_sqr (b2r x)). pose proof (Rle_0_sqr (b2r y)). pose proof (Rle_0_sqr (b2r z)). pose proof (Rle_0_sqr (b2r w)). unfold Rsqr in *.
  repeat apply Forall2_cons; try apply Forall2_nil; apply one_quot; trivial; try (now apply finite_opp); try apply Bopp_b2r; try lra.
Qed.

(** *** as a vector of length about 1 *)
Definition inv_exact (q : quat f32) : quat R := q4 (map (fun a => a / (norm (vals (lq q)) * norm (vals (lq q)))) (lq (qconj (rquat q)))).
Lemma inv_exact_lq q : lq (inv_exact q) = map (fun a => a / (norm (vals (lq q)) * norm (vals (lq q)))) (lq (qconj (rquat q))).
Proof. unfold inv_exact. apply lq_q4. rewrite map_length. apply lq_len. Qed.
Lemma inv_exact_scale q : lq (inv_exact q) = vscale (/ (norm (vals (lq q)) * norm (vals (lq q)))) (lq (qconj (rquat q))).
Proof. rewrite inv_exact_lq. unfold vscale. apply map_ext. intros a. unfold Rdiv. ring. Qed.
Lemma conj_norm q : norm (lq (qconj (rquat q))) = norm (vals (lq q)).
Proof. rewrite qconj_norm. now rewrite rquat_vals. Qed.
Lemma inv_exact_norm q : 0 < norm (vals (lq q)) -> norm (lq (inv_exact q)) = / norm (vals (lq q)).
Proof.
  intros P. rewrite inv_exact_scale, norm_scale3, conj_norm, Rabs_pos_eq; [field; lra|]. left. apply Rinv_0_lt_compat. now apply Rmult_lt_0_compat.
Qed.
Lemma near_one_inv l k : 0 <= k <= / 200 -> Rabs (l - 1) <= k -> Rabs (/ l - 1) <= 1006 / 1000 * k.
Proof.
  intros Hk H. apply Rabs_le_inv in H. assert (P : 0 < l) by lra. apply Rabs_le.
  assert (E : (/ l - 1) * l = 1 - l) by (field; lra). split; apply Rmult_le_reg_r with l; trivial; rewrite E; nra.
Qed.
Lemma f2_finite (P : f32 -> R -> Prop) cs rs : Forall2 (fun c r => finite c /\ P c r) cs rs -> all_finite cs.
Proof. intros H. unfold all_finite. induction H as [|c r cs rs [Fc _] Hs IH]; [apply Forall_nil|apply Forall_cons; trivial]. Qed.
Lemma f2_vals (P : R -> R -> Prop) cs rs : Forall2 (fun c r => finite c /\ P (b2r c) r) cs rs -> Forall2 P (vals cs) rs.
Proof. intros H. induction H as [|c r cs rs [_ Hc] Hs IH]; [apply Forall2_nil|]. cbn [vals map]. apply Forall2_cons; trivial. Qed.
Lemma inverse_near L (q p : quat f32) k : p = inverse_q (F32 L) q -> all_finite (lq q) -> 0 <= k <= / 250 -> Rabs (norm (vals (lq q)) - 1) <= k ->
  all_finite (lq p) /\ norm (vsub (vals (lq p)) (lq (inv_exact q))) <= 513 / 100 * u /\
  Rabs (norm (vals (lq p)) - 1) <= 1006 / 1000 * k + 513 / 100 * u.
Proof.
  intros Ep F Hk Nq. pose proof u_val as U. pose proof uval as UV. pose proof tiny_small as T. pose proof Nq as Nq'. apply Rabs_le_inv in Nq'. set (N := norm (vals (lq q))) in *.
  assert (P48 : / IZR (2 ^ 48) <= / 2) by (apply Rinv_le_contravar; [lra|now apply (IZR_le 2)]). assert (P62 : 2 <= IZR (2 ^ 62)) by now apply (IZR_le 2).
  pose proof (C100_inverse_pf L q F ltac:(fold N; lra)) as H. fold N in H. cbv zeta in H. rewrite <- Ep in H. clear Ep.
  assert (IE := inv_exact_norm q ltac:(fold N; lra)). fold N in IE.
  assert (IN : Rabs (/ N - 1) <= 1006 / 1000 * k) by (apply near_one_inv; [lra|exact Nq]).
  assert (FI : all_finite (lq p)) by (eapply f2_finite; exact H).
  assert (K : norm (vsub (vals (lq p)) (lq (inv_exact q))) <= 51 / 10 * u * norm (lq (inv_exact q)) + 2 * tiny).
  { apply norm_diff4; [reflexivity|apply lq_len|lra|lra|]. rewrite inv_exact_lq. fold N. exact (f2_vals (fun c r => Rabs (c - r) <= 51 / 10 * u * Rabs r + tiny) _ _ H). }
  assert (K' : norm (vsub (vals (lq p)) (lq (inv_exact q))) <= 513 / 100 * u).
  { eapply Rle_trans; [exact K|]. rewrite IE. apply Rabs_le_inv in IN. assert (51 / 10 * u * / N <= 51 / 10 * u * (1005 / 1000)) by (apply Rmult_le_compat_l; lra). lra. }
  split; [exact FI|]. split; [exact K'|].
  destruct (qnear_norm (513 / 100 * u) p (lq (inv_exact q)) (conj (lq_len _) (conj FI K'))) as (X1 & X2 & _). rewrite IE in X1, X2.
  apply Rabs_le_inv in IN. apply Rabs_le. split; lra.
Qed.
Lemma ham_inv_r q : 0 < norm (vals (lq q)) -> lq (ham (rquat q) (inv_exact q)) = [0; 0; 0; 1].
Proof.
  intros P. unfold inv_exact. pose proof (norm_sq (vals (lq q))) as S. set (N := norm (vals (lq q))) in *. clearbody N. destruct q as [x y z w]. unfold vals, lq, ip in S. cbn in S.
  unfold rquat, qconj, mkq, qvec, lq, q4. cbn [map nth qx qy qz qw]. rewrite ham_eq. cbn [qx qy qz qw].
  assert (NN : N <> 0) by lra. assert (E : N * N <> 0) by (now apply Rmult_integral_contrapositive). rewrite S in *. clear S.
  repeat (apply f_equal2; [field; intro Z; apply E; lra|]). reflexivity.
Qed.
Lemma ham_inv_l q : 0 < norm (vals (lq q)) -> lq (ham (inv_exact q) (rquat q)) = [0; 0; 0; 1].
Proof.
  intros P. unfold inv_exact. pose proof (norm_sq (vals (lq q))) as S. set (N := norm (vals (lq q))) in *. clearbody N. destruct q as [x y z w]. unfold vals, lq, ip in S. cbn in S.
  unfold rquat, qconj, mkq, qvec, lq, q4. cbn [map nth qx qy qz qw]. rewrite ham_eq. cbn [qx qy qz qw].
  assert (NN : N <> 0) by lra. assert (E : N * N <> 0) by (now apply Rmult_integral_contrapositive). rewrite S in *. clear S.
  repeat (apply f_equal2; [field; intro Z; apply E; lra|]). reflexivity.
Qed.
Lemma f2_length {A B} (P : A -> B -> Prop) cs rs : Forall2 P cs rs -> length cs = length rs.
Proof. induction 1; cbn; congruence. Qed.
Lemma close_shift e d c A B : length A = 4%nat -> length B = 4%nat -> all_close e c A -> norm (vsub A B) <= d -> all_close (e + d) c B.
Proof.
  intros LA LB H K. assert (C : forall x, In x (vsub A B) -> Rabs x <= d) by (intros x Hx; eapply Rle_trans; [apply (comp_norm4 (vsub A B)); trivial; now apply vsub_len4|exact K]).
  clear K. unfold all_close in *. list4 A. list4 B. unfold vsub in C. cbn in C.
  pose proof (f2_length _ _ _ H) as LC. destruct c as [|c0 [|c1 [|c2 [|c3 [|]]]]]; try discriminate LC.
  apply Forall2_cons_iff in H as [[F0 H0] H]. apply Forall2_cons_iff in H as [[F1 H1] H]. apply Forall2_cons_iff in H as [[F2 H2] H]. apply Forall2_cons_iff in H as [[F3 H3] _].
  assert (go : forall (c : f32) x y, finite c -> Rabs (b2r c - x) <= e -> Rabs (x - y) <= d -> finite c /\ Rabs (b2r c - y) <= e + d).
  { intros c x y Fc X Y. split; [exact Fc|]. replace (b2r c - y) with (b2r c - x + (x - y)) by ring. eapply Rle_trans; [apply Rabs_triang|]. lra. }
  repeat apply Forall2_cons; try apply Forall2_nil; eapply go; trivial; try eassumption; apply C; auto.
Qed.
(** q * inverse(q) and inverse(q) * q are within 31 half-ulps of the identity, for q of length within 1/250 of 1 *)
Lemma C100_cancel_pf : forall (L : Libm) (q : quat f32), all_finite (lq q) -> Rabs (norm (vals (lq q)) - 1) <= / 250 ->
  all_close (31 * ulp_half) (lq (quat_mul (F32 L) q (inverse_q (F32 L) q))) [0; 0; 0; 1] /\
  all_close (31 * ulp_half) (lq (quat_mul (F32 L) (inverse_q (F32 L) q) q)) [0; 0; 0; 1].
Proof.
  intros L q F Nq. pose proof u_val as U. set (p := inverse_q (F32 L) q : quat f32). destruct (inverse_near L q p (/ 250) eq_refl F ltac:(lra) Nq) as (FI & K & NI).
  pose proof Nq as Nq'. apply Rabs_le_inv in Nq'. apply Rabs_le_inv in NI.
  assert (I1 : ip (vals (lq q)) (vals (lq q)) <= 102 / 100) by (rewrite <- norm_sq; apply Rle_trans with (1004 / 1000 * (1004 / 1000)); [apply Rmult_le_compat; try apply norm_nn; lra|lra]).
  assert (I2 : ip (vals (lq p)) (vals (lq p)) <= 102 / 100) by (rewrite <- norm_sq; apply Rle_trans with (1005 / 1000 * (1005 / 1000)); [apply Rmult_le_compat; try apply norm_nn; lra|lra]).
  assert (P : 0 < norm (vals (lq q))) by lra.
  split; (eapply all_close_weak; [|eapply (close_shift (25 * u) (516 / 100 * u)); [| |apply qmul_close; eassumption|]]; [change ulp_half with u; lra|apply lq_len|reflexivity|]).
  - rewrite <- (ham_inv_r q P), ham_subr, !rquat_vals. apply Rle_trans with (1004 / 1000 * (513 / 100 * u)); [apply Rmult_le_compat; [apply norm_nn|apply norm_nn|clear -Nq'; lra|exact K]|lra].
  - rewrite <- (ham_inv_l q P). eapply Rle_trans; [right; apply ham_sub|]. rewrite !rquat_vals. apply Rle_trans with (513 / 100 * u * (1004 / 1000)); [apply Rmult_le_compat; [apply norm_nn|apply norm_nn|exact K|clear -Nq'; lra]|lra].
Qed.

(** *** undoing a rotation *)
Lemma qrot_iso Q A B : unit_quat Q -> length A = 3%nat -> length B = 3%nat -> norm (vsub (qrot Q A) (qrot Q B)) = norm (vsub A B).
Proof.
  intros UQ LA LB. replace (vsub (qrot Q A) (qrot Q B)) with (qrot Q (vsub A B)).
  - rewrite qrot_norm by now apply vsub_len. unfold unit_quat in UQ. rewrite UQ. ring.
  - destruct Q as [a b c d]. list3' A. list3' B. unfold vsub. cbn [zip]. rewrite !qrot_eq, !ham_eq. unfold qvec. cbn [zip qx qy qz qw]. repeat (apply f_equal2; [ring|]). reflexivity.
Qed.
Lemma qrot_back Q A : unit_quat Q -> length A = 3%nat -> qrot (qconj Q) (qrot Q A) = A.
Proof.
  intros UQ LA. pose proof (norm_sq (lq Q)) as S. unfold unit_quat in UQ. rewrite UQ in S. destruct Q as [a b c d]. list3' A. unfold ip, lq in S. cbn in S.
  unfold qconj, mkq, qvec. cbn [map nth qx qy qz qw]. rewrite (qrot_eq a b c d), !ham_eq. unfold qvec. cbn [qx qy qz qw]. rewrite qrot_eq, !ham_eq. unfold qvec. cbn [qx qy qz qw].
  assert (S' : d * d = 1 - a * a - b * b - c * c) by lra. clear S UQ.
  repeat (apply f_equal2; [ring [S']|]). reflexivity.
Qed.
Lemma undo_gen L (p q : quat f32) kp kq e v : 0 <= kp <= 30 * u -> 0 <= kq <= 30 * u -> all_finite (lq p) -> all_finite (lq q) ->
  Rabs (norm (vals (lq p)) - 1) <= kp -> Rabs (norm (vals (lq q)) - 1) <= kq ->
  norm (vsub (unit_of (vals (lq p))) (lq (qconj (q4 (unit_of (vals (lq q))))))) <= e -> 0 <= e ->
  all_finite (l3 v) -> norm (vals (l3 v)) <= IZR (2 ^ 39) ->
  let r := quat_mul_vec (F32 L) p (quat_mul_vec (F32 L) q v) in let N := norm (vals (l3 v)) in
  all_finite (l3 r) /\ norm (vsub (vals (l3 r)) (vals (l3 v))) <= (81 * u + 4 * kp + 4 * kq + 2 * e) * N + / IZR (2 ^ 100).
Proof.
  intros Hp Hq Fp Fq Np Nq HE Pe Fv Nv r N. pose proof u_val as U. set (w := quat_mul_vec (F32 L) q v : vec3 f32) in r.
  assert (B39 : 1 <= IZR (2 ^ 39)) by now apply (IZR_le 1). assert (B40 : IZR (2 ^ 40) = 2 * IZR (2 ^ 39)) by (rewrite <- mult_IZR; reflexivity).
  assert (PT : 0 < / IZR (2 ^ 102)) by (apply Rinv_0_lt_compat; now apply IZR_lt).
  assert (T100 : / IZR (2 ^ 100) = 4 * / IZR (2 ^ 102)). { replace (2 ^ 102)%Z with (4 * 2 ^ 100)%Z by reflexivity. rewrite mult_IZR. field. apply IZR_neq; discriminate. }
  assert (T1 : / IZR (2 ^ 102) <= / 1000) by (apply Rinv_le_contravar; [lra|now apply (IZR_le 1000)]).
  assert (PN : 0 <= N) by apply norm_nn. fold N in Nv.
  destruct (rot_near_t L kq q v Hq Fq Nq Fv ltac:(fold N; lra)) as (Fw & Kw). fold w in Fw, Kw. fold N in Kw.
  assert (Pp : 0 < norm (vals (lq p))) by (apply Rabs_le_inv in Np; lra). assert (Pq : 0 < norm (vals (lq q))) by (apply Rabs_le_inv in Nq; lra).
  set (P := q4 (unit_of (vals (lq p)))) in *. set (Q := q4 (unit_of (vals (lq q)))) in *.
  assert (LP : length (unit_of (vals (lq p))) = 4%nat) by (unfold unit_of; rewrite vscale_len; reflexivity).
  assert (LQ : length (unit_of (vals (lq q))) = 4%nat) by (unfold unit_of; rewrite vscale_len; reflexivity).
  assert (UP : unit_quat P) by (unfold unit_quat, P; rewrite lq_q4 by exact LP; now apply unit_norm').
  assert (UQ : unit_quat Q) by (unfold unit_quat, Q; rewrite lq_q4 by exact LQ; now apply unit_norm').
  assert (UC : unit_quat (qconj Q)) by (unfold unit_quat; rewrite qconj_norm; exact UQ).
  rewrite <- (lq_q4 _ LP) in HE. fold P in HE.
  set (X := qrot Q (vals (l3 v))) in *. assert (LX : length X = 3%nat) by reflexivity.
  assert (NX : norm X = N) by (unfold X; rewrite qrot_norm by reflexivity; unfold unit_quat in UQ; rewrite UQ; fold N; ring).
  assert (Lw : length (vals (l3 w)) = 3%nat) by reflexivity.
  pose proof (Rle_trans _ _ _ (norm_rev (vals (l3 w)) X Lw LX) Kw) as NW. rewrite NX in NW. apply Rabs_le_inv in NW. set (W := norm (vals (l3 w))) in *.
  assert (UN : 0 <= u * N) by (apply Rmult_le_pos; lra).
  assert (KN : (40 * u + 4 * kq) * N <= 160 * (u * N)) by (replace (160 * (u * N)) with (160 * u * N) by ring; apply Rmult_le_compat_r; lra).
  assert (HW : W <= N + 160 * (u * N) + / IZR (2 ^ 102)) by lra.
  assert (HW' : W <= 10001 / 10000 * N + / IZR (2 ^ 102)). { assert (u * N <= / 16777216 * N) by (apply Rmult_le_compat_r; lra). lra. }
  destruct (rot_near_t L kp p w Hp Fp Np Fw ltac:(fold W; lra)) as (Fr & Kr). fold r in Fr, Kr. fold P in Kr. fold W in Kr.
  split; [exact Fr|].
  pose proof (qrot_iso P (vals (l3 w)) X UP Lw LX) as K2. pose proof (qrot_lip P (qconj Q) X LX UP UC) as K3. rewrite NX in K3.
  pose proof (qrot_back Q (vals (l3 v)) UQ eq_refl) as K4. fold X in K4. rewrite K4 in K3.
  set (R1 := qrot P (vals (l3 w))) in *. set (R2 := qrot P X) in *. set (c := vals (l3 r)) in *. assert (Lc : length c = 3%nat) by reflexivity. assert (L1 : length R1 = 3%nat) by reflexivity. assert (L2 : length R2 = 3%nat) by reflexivity.
  set (V := vals (l3 v)) in *. assert (LV : length V = 3%nat) by reflexivity.
  assert (KF : norm (vsub c V) <= ((40 * u + 4 * kp) * W + / IZR (2 ^ 102)) + ((40 * u + 4 * kq) * N + / IZR (2 ^ 102)) + 2 * e * N).
  { apply (norm_from_parts (vsub c R2) (vsub R2 V)); try (now apply vsub_len).
    - clearbody c R2 V. list3' c. list3' R2. list3' V. unfold vadd, vsub. cbn. lring.
    - apply (norm_from_parts (vsub c R1) (vsub R1 R2)); try (now apply vsub_len); [clearbody c R1 R2; list3' c; list3' R1; list3' R2; unfold vadd, vsub; cbn; lring|exact Kr|rewrite K2; exact Kw].
    - eapply Rle_trans; [exact K3|]. apply Rmult_le_compat_r; lra. }
  eapply Rle_trans; [exact KF|]. rewrite T100.
  assert (G : (40 * u + 4 * kp) * W <= (40 * u + 4 * kp) * (10001 / 10000 * N + / IZR (2 ^ 102))) by (apply Rmult_le_compat_l; lra).
  assert (G2 : (40 * u + 4 * kp) * / IZR (2 ^ 102) <= 1 * / IZR (2 ^ 102)) by (apply Rmult_le_compat_r; lra).
  assert (G3 : 4 * kp * N <= 120 * (u * N)) by (replace (120 * (u * N)) with (120 * u * N) by ring; apply Rmult_le_compat_r; lra).
  lra.
Qed.
Definition cl (l : list R) : list R := lq (qconj (q4 l)).
Lemma cl_dist A B : length A = 4%nat -> length B = 4%nat -> norm (vsub A (cl B)) = norm (vsub B (cl A)).
Proof. intros LA LB. list4 A. list4 B. unfold norm. f_equal. unfold cl, qconj, mkq, qvec, q4, lq, vsub, ip. cbn. ring. Qed.
Lemma cl_vals (q : quat f32) : cl (vals (lq q)) = lq (qconj (rquat q)). Proof. destruct q. reflexivity. Qed.
Lemma cl_norm l : length l = 4%nat -> norm (cl l) = norm l.
Proof. intros H. unfold cl. rewrite qconj_norm, lq_q4 by exact H. reflexivity. Qed.
Lemma cl_scale k l : length l = 4%nat -> cl (vscale k l) = vscale k (cl l).
Proof. intros H. list4 l. unfold cl, qconj, mkq, qvec, q4, lq, vscale. cbn. repeat (apply f_equal2; [ring|]). reflexivity. Qed.
Lemma cl_unit l : length l = 4%nat -> cl (unit_of l) = unit_of (cl l).
Proof. intros H. unfold unit_of. rewrite cl_scale, cl_norm by exact H. reflexivity. Qed.
Lemma unit_scale k l : 0 < k -> 0 < norm l -> unit_of (vscale k l) = unit_of l.
Proof.
  intros K P. unfold unit_of. rewrite norm_scale3, Rabs_pos_eq by lra. unfold vscale. rewrite map_map. apply map_ext. intros a. field. lra.
Qed.
Lemma conj_vals L (q p : quat f32) : p = conjugate (F32 L) q -> vals (lq p) = cl (vals (lq q)) /\ (all_finite (lq q) -> all_finite (lq p)).
Proof.
  intros ->. destruct q as [x y z w]. split; [change (map b2r [Bopp x; Bopp y; Bopp z; w] = [- b2r x; - b2r y; - b2r z; b2r w]); cbn [map]; now rewrite !Bopp_b2r|].
  intros F. change (Forall finite [Bopp x; Bopp y; Bopp z; w]). change (Forall finite [x; y; z; w]) in F. apply Forall_cons_iff in F as [Fx F]. apply Forall_cons_iff in F as [Fy F]. apply Forall_cons_iff in F as [Fz F]. apply Forall_cons_iff in F as [Fw _].
  repeat apply Forall_cons; try apply Forall_nil; trivial; now apply (finite_opp).
Qed.
Lemma unit_len (q : quat f32) : length (unit_of (vals (lq q))) = 4%nat. Proof. unfold unit_of. rewrite vscale_len. reflexivity. Qed.
Lemma vsub_self A : length A = 4%nat -> norm (vsub A A) = 0.
Proof. intros H. list4 A. unfold norm. replace (ip _ _) with 0 by (unfold ip, vsub; cbn; ring). apply sqrt_0. Qed.

(** A vector rotated by a quaternion of length within 9 half-ulps of 1 and back by its conjugate, or first by the conjugate,
    is within 153 half-ulps of itself. *)
Lemma C100_conjugate_pf : forall (L : Libm) (q : quat f32) (v : vec3 f32), all_finite (lq q) -> Rabs (norm (vals (lq q)) - 1) <= 9 * ulp_half ->
  all_finite (l3 v) -> let N := norm (vals (l3 v)) in N <= IZR (2 ^ 39) ->
  let there := quat_mul_vec (F32 L) (conjugate (F32 L) q) (quat_mul_vec (F32 L) q v) in
  let back := quat_mul_vec (F32 L) q (quat_mul_vec (F32 L) (conjugate (F32 L) q) v) in
  (all_finite (l3 there) /\ norm (vsub (vals (l3 there)) (vals (l3 v))) <= 153 * ulp_half * N + / IZR (2 ^ 100)) /\
  (all_finite (l3 back) /\ norm (vsub (vals (l3 back)) (vals (l3 v))) <= 153 * ulp_half * N + / IZR (2 ^ 100)).
Proof.
  intros L q v F Nq Fv N HN there back. pose proof u_val as U. change ulp_half with u in *. set (p := conjugate (F32 L) q : quat f32) in *.
  destruct (conj_vals L q p eq_refl) as [V FP]. specialize (FP F).
  assert (NP : norm (vals (lq p)) = norm (vals (lq q))) by (rewrite V; now apply cl_norm).
  assert (UE : unit_of (vals (lq p)) = cl (unit_of (vals (lq q)))) by (rewrite V, cl_unit; reflexivity).
  replace (153 * u * N) with ((81 * u + 4 * (9 * u) + 4 * (9 * u) + 2 * 0) * N) by ring.
  split; apply undo_gen; trivial; try lra; try (split; lra); try (rewrite NP; exact Nq).
  - fold (cl (unit_of (vals (lq q)))). rewrite UE, vsub_self by apply lq_len. lra.
  - fold (cl (unit_of (vals (lq p)))). rewrite cl_dist by apply unit_len. rewrite UE, vsub_self by apply lq_len. lra.
Qed.
(** The same with inverse: within 185 half-ulps. *)
Lemma C100_undo_pf : forall (L : Libm) (q : quat f32) (v : vec3 f32), all_finite (lq q) -> Rabs (norm (vals (lq q)) - 1) <= 9 * ulp_half ->
  all_finite (l3 v) -> let N := norm (vals (l3 v)) in N <= IZR (2 ^ 39) ->
  let there := quat_mul_vec (F32 L) (inverse_q (F32 L) q) (quat_mul_vec (F32 L) q v) in
  let back := quat_mul_vec (F32 L) q (quat_mul_vec (F32 L) (inverse_q (F32 L) q) v) in
  (all_finite (l3 there) /\ norm (vsub (vals (l3 there)) (vals (l3 v))) <= 185 * ulp_half * N + / IZR (2 ^ 100)) /\
  (all_finite (l3 back) /\ norm (vsub (vals (l3 back)) (vals (l3 v))) <= 185 * ulp_half * N + / IZR (2 ^ 100)).
Proof.
  intros L q v F Nq Fv N HN there back. pose proof u_val as U. change ulp_half with u in *. set (p := inverse_q (F32 L) q : quat f32) in *.
  destruct (inverse_near L q p (9 * u) eq_refl F ltac:(split; lra) Nq) as (FP & K & NP).
  assert (P : 0 < norm (vals (lq q))) by (apply Rabs_le_inv in Nq; lra).
  assert (UE : unit_of (lq (inv_exact q)) = cl (unit_of (vals (lq q)))).
  { rewrite inv_exact_scale, <- cl_vals, unit_scale, cl_unit; trivial; [apply Rinv_0_lt_compat; now apply Rmult_lt_0_compat|]. now rewrite cl_norm. }
  assert (IE := inv_exact_norm q P). pose proof (near_one_inv _ (9 * u) ltac:(split; lra) Nq) as IN. rewrite <- IE in IN. apply Rabs_le_inv in IN.
  assert (HE : norm (vsub (unit_of (vals (lq p))) (cl (unit_of (vals (lq q))))) <= 52 / 10 * u).
  { rewrite <- UE. eapply Rle_trans; [apply chord4; [reflexivity|apply lq_len| |]; apply Rabs_le_inv in NP; lra|]. eapply Rle_trans; [apply Rmult_le_compat_l; [lra|exact K]|]. lra. }
  assert (W : forall x, x <= (81 * u + 4 * (142 / 10 * u) + 4 * (9 * u) + 2 * (52 / 10 * u)) * N + / IZR (2 ^ 100) -> x <= 185 * u * N + / IZR (2 ^ 100)).
  { intros x Hx. eapply Rle_trans; [exact Hx|]. apply Rplus_le_compat_r. apply Rmult_le_compat_r; [apply norm_nn|lra]. }
  assert (W' : forall x, x <= (81 * u + 4 * (9 * u) + 4 * (142 / 10 * u) + 2 * (52 / 10 * u)) * N + / IZR (2 ^ 100) -> x <= 185 * u * N + / IZR (2 ^ 100)).
  { intros x Hx. apply W. eapply Rle_trans; [exact Hx|]. lra. }
  assert (NP' : Rabs (norm (vals (lq p)) - 1) <= 142 / 10 * u) by (eapply Rle_trans; [exact NP|lra]).
  split.
  - destruct (undo_gen L p q (142 / 10 * u) (9 * u) (52 / 10 * u) v) as (G1 & G2); trivial; try lra; try (split; lra). split; [exact G1|]. apply W. exact G2.
  - destruct (undo_gen L q p (9 * u) (142 / 10 * u) (52 / 10 * u) v) as (G1 & G2); trivial; try lra; try (split; lra).
    + fold (cl (unit_of (vals (lq p)))). rewrite cl_dist by apply unit_len. exact HE.
    + split; [exact G1|]. apply W'. exact G2.
Qed.
(*PROPS
(** the quaternion (3/5, 0, 0, 4/5), rounded, meets the hypotheses *)
Example C100_case : let q := Quat (Bdiv mode_NE (f32_ofZ 3) (f32_ofZ 5)) (f32_ofZ 0) (f32_ofZ 0) (Bdiv mode_NE (f32_ofZ 4) (f32_ofZ 5)) in
  all_finite (lq q) /\ Rabs (norm (vals (lq q)) - 1) <= 9 * ulp_half.
Proof.
  cbv zeta. split; [repeat apply Forall_cons; try apply Forall_nil; vm_compute; reflexivity|].
  assert (E1 : b2r (Bdiv mode_NE (f32_ofZ 3) (f32_ofZ 5)) = 10066330 / 16777216) by (vm_compute; lra).
  assert (E2 : b2r (Bdiv mode_NE (f32_ofZ 4) (f32_ofZ 5)) = 13421773 / 16777216) by (vm_compute; lra).
  assert (E3 : b2r (f32_ofZ 0) = 0) by (now rewrite (ofZ_exact 0 eq_refl)).
  unfold vals, lq. cbn [map qx qy qz qw]. rewrite E1, E2, E3.
  assert (N := norm_nn [10066330 / 16777216; 0; 0; 13421773 / 16777216]). assert (S := norm_sq [10066330 / 16777216; 0; 0; 13421773 / 16777216]).
  set (n := norm _) in *. unfold ip in S. cbn in S. rewrite uval. apply Rabs_le. split; nra.
Qed.
PROPS*)
