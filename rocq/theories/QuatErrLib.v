(** * Errors of quaternions in the Euclidean norm *)
From Coq Require Import ZArith Bool Reals List Lra Lia Psatz.
From Flocq Require Import Core IEEE754.BinarySingleNaN.
From Verif Require Import Scalar IEEE32 RealInst Types Outcome Spec SpecR SpecMat SpecGeo SpecF32 SpecErr SpecOrd SpecAcc SpecProj FloatBasics FloatOps
  ModelVec ModelCommon ModelGeom ModelQuat RealTac ErrLib OvfLib LenLib RelLib PfErr PfOvf PfLen PfQuatAcc VecErrLib.
Import ListNotations.
Local Open Scope R_scope.

Ltac list4 A := destruct A as [|?a [|?a [|?a [|?a [|? ?]]]]]; try discriminate.
Lemma norm_from_parts4 A B C a b : length A = 4%nat -> length B = 4%nat -> C = vadd A B -> norm A <= a -> norm B <= b -> norm C <= a + b.
Proof. intros HA HB -> Ha Hb. pose proof (norm_triangle A B ltac:(congruence)). unfold vadd. lra. Qed.
Lemma vsub_len4 A B : length A = 4%nat -> length B = 4%nat -> length (vsub A B) = 4%nat.
Proof. intros HA HB. list4 A. list4 B. reflexivity. Qed.
Lemma unit_perturb4 C D : length C = 4%nat -> length D = 4%nat -> 0 < norm C -> 0 < norm D -> norm (vsub (unit_of C) (unit_of D)) <= 2 * norm (vsub C D) / norm D.
Proof.
  intros HC HD PC PD. set (e := norm (vsub C D)).
  assert (T : Rabs (norm C - norm D) <= e).
  { assert (norm C <= norm D + e) by (apply (norm_from_parts4 D (vsub C D)); try apply Rle_refl; [assumption|now apply vsub_len4|list4 C; list4 D; unfold vadd, vsub; cbn; lring]).
    assert (norm D <= norm C + e).
    { apply (norm_from_parts4 C (vscale (-1) (vsub C D))); [assumption|rewrite vscale_len; now apply vsub_len4|list4 C; list4 D; unfold vadd, vsub; cbn; lring|apply Rle_refl|].
      rewrite norm_scale3, Rabs_left by lra. fold e. lra. }
    apply Rabs_le. lra. }
  replace (2 * e / norm D) with (e / norm D + e / norm D) by (field; lra).
  apply (norm_from_parts4 (vscale (/ norm D) (vsub C D)) (vscale ((norm D - norm C) / (norm C * norm D)) C)).
  - rewrite vscale_len. now apply vsub_len4.
  - now rewrite vscale_len.
  - unfold unit_of. set (c := norm C) in *. set (d := norm D) in *. clearbody c d. list4 C. list4 D. unfold vadd, vsub, vscale. cbn. repeat match goal with |- _ :: _ = _ :: _ => apply f_equal2; [field; lra|] end; reflexivity.
  - rewrite norm_scale3. fold e. rewrite Rabs_pos_eq by (left; now apply Rinv_0_lt_compat). unfold Rdiv. rewrite Rmult_comm. apply Rle_refl.
  - rewrite norm_scale3. rewrite Rabs_minus_sym in T. unfold Rdiv. rewrite Rabs_mult. rewrite (Rabs_pos_eq (/ (norm C * norm D))) by (left; apply Rinv_0_lt_compat; now apply Rmult_lt_0_compat).
    replace (Rabs (norm D - norm C) * / (norm C * norm D) * norm C) with (Rabs (norm D - norm C) * / norm D) by (field; lra).
    apply Rmult_le_compat_r; [left; now apply Rinv_0_lt_compat|exact T].
Qed.
Lemma unit_norm' C : 0 < norm C -> norm (unit_of C) = 1.
Proof. intros P. unfold unit_of. rewrite norm_scale3, Rabs_pos_eq by (left; now apply Rinv_0_lt_compat). field. lra. Qed.
Lemma norm_diff4 c y d t : length c = 4%nat -> length y = 4%nat -> 0 <= d -> 0 <= t ->
  Forall2 (fun a b => Rabs (a - b) <= d * Rabs b + t) c y -> norm (vsub c y) <= d * norm y + 2 * t.
Proof.
  intros LC LY Pd Pt H. list4 c. list4 y.
  apply Forall2_cons_iff in H as [H0 H]. apply Forall2_cons_iff in H as [H1 H]. apply Forall2_cons_iff in H as [H2 H]. apply Forall2_cons_iff in H as [H3 _].
  rewrite <- (norm_abs [a3; a4; a5; a6]).
  apply Rle_trans with (norm (vadd (vscale d (map Rabs [a3; a4; a5; a6])) (vscale t [1; 1; 1; 1]))).
  - apply norm_mono. unfold vsub, vadd, vscale. cbn. repeat (apply Forall2_cons; [lra|]). apply Forall2_nil.
  - eapply Rle_trans; [apply norm_triangle; reflexivity|]. rewrite !norm_scale3, !Rabs_pos_eq by assumption. apply Rplus_le_compat_l. rewrite (Rmult_comm 2).
    apply Rmult_le_compat_l; [exact Pt|]. apply sq_le_norm; [lra|]. unfold ip. cbn. lra.
Qed.
Lemma comp_norm4 A x : length A = 4%nat -> In x A -> Rabs x <= norm A.
Proof.
  intros HA HI. rewrite <- (sqrt_square (Rabs x)) by apply Rabs_pos. unfold norm. apply sqrt_le_1_alt. rewrite abs_sq. list4 A. unfold ip. cbn.
  pose proof (Rle_0_sqr a). pose proof (Rle_0_sqr a0). pose proof (Rle_0_sqr a1). pose proof (Rle_0_sqr a2). unfold Rsqr in *. destruct HI as [<-|[<-|[<-|[<-|[]]]]]; lra.
Qed.

(** ** binary32 quaternions *)
Definition qnear (e : R) (q : quat f32) (A : list R) : Prop := length A = 4%nat /\ all_finite (lq q) /\ norm (vsub (vals (lq q)) A) <= e.
Lemma qnear_weaken e e' q A : e <= e' -> qnear e q A -> qnear e' q A.
Proof. intros H (LA & F & K). split; [exact LA|]. split; [exact F|]. lra. Qed.
Lemma qnear_norm e q A : qnear e q A -> norm (vals (lq q)) <= norm A + e /\ norm A <= norm (vals (lq q)) + e /\ 0 <= e.
Proof.
  intros (LA & _ & H). pose proof (norm_nn (vsub (vals (lq q)) A)). split; [|split]; [| |lra].
  - apply (norm_from_parts4 A (vsub (vals (lq q)) A)); [assumption|now apply vsub_len4| |apply Rle_refl|exact H].
    list4 A. destruct q as [x y z w]. unfold vadd, vsub. cbn. lring.
  - apply (norm_from_parts4 (vals (lq q)) (vscale (-1) (vsub (vals (lq q)) A))); [reflexivity|rewrite vscale_len; now apply vsub_len4| |apply Rle_refl|].
    + list4 A. destruct q as [x y z w]. unfold vadd, vsub. cbn. lring.
    + rewrite norm_scale3, Rabs_left by lra. lra.
Qed.
Lemma qnear_all_close e q A : qnear e q A -> all_close e (lq q) A.
Proof.
  intros (LA & F & K). destruct q as [x y z w]. list4 A. unfold all_close, lq in *. cbn [qx qy qz qw] in *. unfold all_finite in F.
  apply Forall_cons_iff in F as [F0 F]. apply Forall_cons_iff in F as [F1 F]. apply Forall_cons_iff in F as [F2 F]. apply Forall_cons_iff in F as [F3 _].
  match type of K with norm (vsub ?c ?d) <= _ => assert (C : forall r, In r (vsub c d) -> Rabs r <= e) by (intros r Hr; eapply Rle_trans; [apply (comp_norm4 (vsub c d) r eq_refl Hr)|exact K]) end.
  repeat (apply Forall2_cons; [split; [assumption|apply C; cbn; auto]|]). apply Forall2_nil.
Qed.
(** normalization of a quaternion near C *)
Lemma normalize_q_near L e c C : qnear e c C -> 0 < norm C -> / IZR (2 ^ 48) <= norm (vals (lq c)) <= IZR (2 ^ 62) ->
  qnear (2 * e / norm C + 8 * u + 2 * tiny) (normalize_q (F32 L) c) (unit_of C).
Proof.
  intros (LC & Fc & K) PC HN. destruct (C72_normalize_pf L) as (_ & _ & _ & H). destruct (H c Fc HN) as (F & KN & _). clear H.
  assert (LU : length (unit_of C) = 4%nat) by (unfold unit_of; now rewrite vscale_len).
  split; [exact LU|]. split; [exact F|]. set (v := vals (lq c)) in *. assert (Lv : length v = 4%nat) by reflexivity. cbv zeta in KN. fold v in KN.
  assert (PN : 0 < norm v) by (eapply Rlt_le_trans; [|apply HN]; apply Rinv_0_lt_compat; now apply (IZR_lt 0)).
  replace (2 * e / norm C + 8 * u + 2 * tiny) with ((8 * u + 2 * tiny) + 2 * e / norm C) by ring.
  assert (LUv : length (unit_of v) = 4%nat) by (unfold unit_of; now rewrite vscale_len).
  set (n := vals (lq (normalize_q (F32 L) c))). match goal with |- _ <= ?r => change (norm (vsub n (unit_of C)) <= r) end.
  apply (norm_from_parts4 (vsub n (unit_of v)) (vsub (unit_of v) (unit_of C))).
  - now apply vsub_len4.
  - now apply vsub_len4.
  - assert (Ln : length n = 4%nat) by reflexivity. clear -LU LUv Ln. clearbody n. set (p := unit_of v) in *. set (q := unit_of C) in *. clearbody p q.
    list4 n. list4 p. list4 q. unfold vadd, vsub. cbn. lring.
  - replace (8 * u) with (8 * u * norm (unit_of v)) by (rewrite unit_norm' by assumption; ring).
    apply norm_diff4; [reflexivity|exact LUv|pose proof u_val; lra|left; apply tiny_pos|].
    set (w := unit_of v). assert (W : w = map (fun x => x / norm v) v) by (unfold w, unit_of, vscale; apply map_ext; intros; unfold Rdiv; ring). rewrite W. clear w W.
    clear -KN. destruct (normalize_q (F32 L) c) as [n0 n1 n2 n3]. destruct c as [c0 c1 c2 c3]. set (N := norm v) in *. clearbody N. unfold v in *.
    replace (INR 4 / 2 + 6) with 8 in KN by (cbn [INR]; field). cbn in KN |- *.
    apply Forall2_cons_iff in KN as [K0 K]. apply Forall2_cons_iff in K as [K1 K]. apply Forall2_cons_iff in K as [K2 K]. apply Forall2_cons_iff in K as [K3 _].
    repeat (apply Forall2_cons; [assumption|]). apply Forall2_nil.
  - eapply Rle_trans; [apply unit_perturb4; assumption|]. unfold Rdiv. apply Rmult_le_compat_r; [left; now apply Rinv_0_lt_compat|]. lra.
Qed.
