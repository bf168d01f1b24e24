(** * Proofs: rotations in binary32 *)
From Coq Require Import ZArith Bool Reals List Lra Lia.
From Flocq Require Import Core IEEE754.BinarySingleNaN.
From Verif Require Import Scalar IEEE32 RealInst Types Outcome Spec SpecR SpecMat SpecGeo SpecF32 SpecErr SpecProj SpecRotF FloatBasics FloatOps
  ModelVec ModelMat ModelGeom ModelTrig ModelTransform ModelQuat ModelQuaternion ErrExpr ErrLib.
Import ListNotations.
Local Open Scope R_scope.
(*HEADER END*)
From Verif Require Import LenLib RelLib PfErr PfLen PfProj.

(** rotation entries of angle (c, s) about (x, y, z), with [g] = -1, or +1 for the magnitudes *)
Definition rot_col (g c s x y z : R) (j : nat) : list R :=
  match j with
  | 0%nat => [c + (1 + g * c) * x * x; (1 + g * c) * x * y + s * z; (1 + g * c) * x * z + g * (s * y)]
  | 1%nat => [(1 + g * c) * y * x + g * (s * z); c + (1 + g * c) * y * y; (1 + g * c) * y * z + s * x]
  | _ => [(1 + g * c) * z * x + s * y; (1 + g * c) * z * y + g * (s * x); c + (1 + g * c) * z * z]
  end.
Definition lin (a0 a1 a2 : R) (l : list R) : R := a0 * nth 0 l 0 + a1 * nth 1 l 0 + a2 * nth 2 l 0.

Section CORE.
  Variable S : Scalar.
  Local Open Scope scalar_scope.
  (** the arithmetic of rotate4 once cosine, sine and axis are known *)
  Definition rot_core (m : mat4 S) (c s : S) (axis : vec3 S) : mat4 S :=
    let temp := sc_mul_vec3 S (f1 - c) axis in
    let Rotate :=
      M3 (V3 (c + el3 temp 0 * el3 axis 0) (el3 temp 0 * el3 axis 1 + s * el3 axis 2) (el3 temp 0 * el3 axis 2 - s * el3 axis 1))
         (V3 (el3 temp 1 * el3 axis 0 - s * el3 axis 2) (c + el3 temp 1 * el3 axis 1) (el3 temp 1 * el3 axis 2 + s * el3 axis 0))
         (V3 (el3 temp 2 * el3 axis 0 + s * el3 axis 1) (el3 temp 2 * el3 axis 1 - s * el3 axis 0) (c + el3 temp 2 * el3 axis 2)) in
    M4 (vec4_add S (vec4_add S (vec4_mul_sc S (col4 m 0) (at3 Rotate 0 0)) (vec4_mul_sc S (col4 m 1) (at3 Rotate 0 1))) (vec4_mul_sc S (col4 m 2) (at3 Rotate 0 2)))
       (vec4_add S (vec4_add S (vec4_mul_sc S (col4 m 0) (at3 Rotate 1 0)) (vec4_mul_sc S (col4 m 1) (at3 Rotate 1 1))) (vec4_mul_sc S (col4 m 2) (at3 Rotate 1 2)))
       (vec4_add S (vec4_add S (vec4_mul_sc S (col4 m 0) (at3 Rotate 2 0)) (vec4_mul_sc S (col4 m 1) (at3 Rotate 2 1))) (vec4_mul_sc S (col4 m 2) (at3 Rotate 2 2)))
       (col4 m 3).
End CORE.
Lemma rotate4_core S m a v : rotate4 S m a v = rot_core S m (cos_f S a) (sin_f S a) (normalize3 S v).
Proof. reflexivity. Qed.

Lemma rot_core_err (L : Libm) (m : mat4 f32) (c s : f32) (n : vec3 f32) B : all_finite (lm4 (rot_core (F32 L) m c s n)) ->
  1 <= B -> bounded_by B (lm4 m ++ [c; s] ++ l3 n) ->
  let e := ent 4 (vals (lm4 m)) in let E := ent 4 (mags (lm4 m)) in
  let R := rot_col (-1) (b2r c) (b2r s) (b2r (x3 n)) (b2r (y3 n)) (b2r (z3 n)) in
  let M := rot_col 1 (Rabs (b2r c)) (Rabs (b2r s)) (Rabs (b2r (x3 n))) (Rabs (b2r (y3 n))) (Rabs (b2r (z3 n))) in
  nears 7 (18 * B ^ 2 * tiny) (lm4 (rot_core (F32 L) m c s n))
    (build_mat 4 (fun i j => if Nat.eqb j 3 then e i 3%nat else lin (e i 0%nat) (e i 1%nat) (e i 2%nat) (R j)))
    (build_mat 4 (fun i j => if Nat.eqb j 3 then E i 3%nat else lin (E i 0%nat) (E i 1%nat) (E i 2%nat) (M j))).
Proof.
  destruct m as [[a0 a1 a2 a3] [a4 a5 a6 a7] [a8 a9 a10 a11] [a12 a13 a14 a15]], n as [x y z]. intros F B1 HB. cbv zeta.
  pose proof (bounded_env B _ ltac:(lra) HB) as HB1.
  degs L [a0; a1; a2; a3; a4; a5; a6; a7; a8; a9; a10; a11; a12; a13; a14; a15; c; s; x; y; z]
    (lm4 (rot_core ES (vm4 0) (EVar 16) (EVar 17) (v3 18))) 7%nat 18%Z 2%nat B B1 HB1 F.
Qed.

(** *** moving the cosine, sine and axis to their exact values *)
Lemma sq_le_abs x a : 0 <= a -> x * x <= a * a -> Rabs x <= a.
Proof. intros A H. apply Rsqr_le_abs_0 in H. now rewrite (Rabs_pos_eq a) in H. Qed.
Section PERT.
  Variables (c s c' s' x y z x' y' z' dl ep : R).
  Hypothesis CS : c * c + s * s = 1.
  Hypothesis U : x * x + y * y + z * z = 1.
  Hypothesis HC : Rabs (c' - c) <= dl. Hypothesis HS : Rabs (s' - s) <= dl.
  Hypothesis HX : Rabs (x' - x) <= ep. Hypothesis HY : Rabs (y' - y) <= ep. Hypothesis HZ : Rabs (z' - z) <= ep.
  Hypothesis D0 : 0 <= dl <= / 100000. Hypothesis E0 : 0 <= ep <= / 1000000.
  Let Pdl := 3 / 2 * dl + 406 / 100 * ep.
  Lemma p_one a b : a * a + b * b = 1 -> Rabs a <= 1. Proof. intros H. apply sq_le_abs; [lra|]. nra. Qed.
  Lemma p_c : Rabs c <= 1. Proof. exact (p_one c s CS). Qed.
  Lemma p_s : Rabs s <= 1. Proof. apply (p_one s c). lra. Qed.
  Lemma p_unit a b d : a * a + b * b + d * d = 1 -> Rabs a <= 1.
  Proof. intros H. apply sq_le_abs; [lra|]. nra. Qed.
  Lemma abs_le_near t t' T e : Rabs t <= T -> Rabs (t' - t) <= e -> Rabs t' <= T + e.
  Proof. intros A B. replace t' with (t + (t' - t)) by ring. eapply Rle_trans; [apply Rabs_triang|]. lra. Qed.
  Lemma p_1c : Rabs (1 - c') <= 2 + dl.
  Proof. pose proof (abs_le_near c c' 1 dl p_c HC) as H. apply Rabs_le_inv in H. apply Rabs_le. lra. Qed.
  (** an entry (1 - c) a b + g s d *)
  Lemma p_off a b d a' b' d' g : Rabs g = 1 -> a * a + b * b + d * d = 1 -> Rabs (a' - a) <= ep -> Rabs (b' - b) <= ep -> Rabs (d' - d) <= ep ->
    Rabs ((1 - c') * a' * b' + g * (s' * d') - ((1 - c) * a * b + g * (s * d))) <= Pdl.
  Proof.
    intros Hg N A B Dd.
    replace ((1 - c') * a' * b' + g * (s' * d') - ((1 - c) * a * b + g * (s * d)))
      with ((1 - c') * ((a' - a) * b' + a * (b' - b)) + (- (c' - c)) * (a * b) + g * ((s' - s) * d' + s * (d' - d))) by ring.
    assert (AB : Rabs a + Rabs b <= 14143 / 10000).
    { rewrite <- (Rabs_pos_eq (Rabs a + Rabs b)) by (pose proof (Rabs_pos a); pose proof (Rabs_pos b); lra). apply sq_le_abs; [lra|].
      pose proof (Rle_0_sqr (Rabs a - Rabs b)) as Q. unfold Rsqr in Q. pose proof (abs_sq a). pose proof (abs_sq b). nra. }
    assert (PAB : Rabs (a * b) <= / 2).
    { rewrite Rabs_mult. pose proof (Rle_0_sqr (Rabs a - Rabs b)) as Q. unfold Rsqr in Q. pose proof (abs_sq a). pose proof (abs_sq b). nra. }
    assert (D1 : Rabs d <= 1) by (apply (p_unit d a b); lra).
    pose proof (abs_le_near b b' (Rabs b) ep (Rle_refl _) B) as B'. pose proof (abs_le_near d d' 1 ep D1 Dd) as D'.
    assert (T1 : Rabs ((1 - c') * ((a' - a) * b' + a * (b' - b))) <= (2 + dl) * (ep * (14143 / 10000 + ep))).
    { rewrite Rabs_mult. apply Rmult_le_compat; try apply Rabs_pos; [exact p_1c|]. eapply Rle_trans; [apply Rabs_triang|]. rewrite !Rabs_mult.
      apply Rle_trans with (ep * (Rabs b + ep) + Rabs a * ep).
      - apply Rplus_le_compat; [apply Rmult_le_compat; trivial; apply Rabs_pos|apply Rmult_le_compat_l; [apply Rabs_pos|exact B]].
      - nra. }
    assert (T2 : Rabs (- (c' - c) * (a * b)) <= dl * / 2).
    { rewrite Rabs_mult, Rabs_Ropp. apply Rmult_le_compat; trivial; apply Rabs_pos. }
    assert (T3 : Rabs (g * ((s' - s) * d' + s * (d' - d))) <= dl * (1 + ep) + 1 * ep).
    { rewrite Rabs_mult, Hg, Rmult_1_l. eapply Rle_trans; [apply Rabs_triang|]. rewrite !Rabs_mult.
      apply Rplus_le_compat; apply Rmult_le_compat; trivial; try apply Rabs_pos. exact p_s. }
    eapply Rle_trans; [apply Rabs_triang|]. eapply Rle_trans; [apply Rplus_le_compat_r, Rabs_triang|].
    unfold Pdl. assert (0 <= dl * ep <= / 100000 * ep) by (split; nra). assert (0 <= ep * ep <= / 1000000 * ep) by (split; nra). assert (dl * (ep * ep) <= ep * ep) by nra. lra.
  Qed.
  (** an entry c + (1 - c) a a *)
  Lemma p_diag a b d a' : a * a + b * b + d * d = 1 -> Rabs (a' - a) <= ep ->
    Rabs (c' + (1 - c') * a' * a' - (c + (1 - c) * a * a)) <= Pdl.
  Proof.
    intros N A.
    replace (c' + (1 - c') * a' * a' - (c + (1 - c) * a * a)) with ((c' - c) * (1 - a * a) + (1 - c') * ((a' - a) * (a' + a))) by ring.
    assert (A1 : Rabs a <= 1) by (apply (p_unit a b d); lra). pose proof (abs_le_near a a' 1 ep A1 A) as A'.
    assert (T1 : Rabs ((c' - c) * (1 - a * a)) <= dl * 1).
    { rewrite Rabs_mult. apply Rmult_le_compat; trivial; try apply Rabs_pos. apply Rabs_le. nra. }
    assert (T2 : Rabs ((1 - c') * ((a' - a) * (a' + a))) <= (2 + dl) * (ep * (2 + ep))).
    { rewrite !Rabs_mult. apply Rmult_le_compat; try apply Rabs_pos; [apply Rmult_le_pos; apply Rabs_pos|exact p_1c|].
      apply Rmult_le_compat; trivial; try apply Rabs_pos. eapply Rle_trans; [apply Rabs_triang|]. lra. }
    eapply Rle_trans; [apply Rabs_triang|]. unfold Pdl. nra.
  Qed.
  Lemma p_col j k : (j < 3)%nat -> (k < 3)%nat -> Rabs (nth k (rot_col (-1) c' s' x' y' z' j) 0 - nth k (rot_col (-1) c s x y z j) 0) <= Pdl.
  Proof.
    assert (G1 : Rabs 1 = 1) by apply Rabs_R1. assert (G2 : Rabs (-1) = 1) by apply absm1.
    intros Hj Hk. destruct j as [|[|[|j]]]; [| | |lia]; (destruct k as [|[|[|k]]]; [| | |lia]); cbn [nth rot_col].
    - rewrite <- !(Rplus_comm _ 1) || idtac. pose proof (p_diag x y z x' U HX) as H. eapply Rle_trans; [right|exact H]. f_equal. ring.
    - pose proof (p_off x y z x' y' z' 1 G1 U HX HY HZ) as H. eapply Rle_trans; [right|exact H]. f_equal. ring.
    - pose proof (p_off x z y x' z' y' (-1) G2 ltac:(lra) HX HZ HY) as H. eapply Rle_trans; [right|exact H]. f_equal. ring.
    - pose proof (p_off y x z y' x' z' (-1) G2 ltac:(lra) HY HX HZ) as H. eapply Rle_trans; [right|exact H]. f_equal. ring.
    - pose proof (p_diag y x z y' ltac:(lra) HY) as H. eapply Rle_trans; [right|exact H]. f_equal. ring.
    - pose proof (p_off y z x y' z' x' 1 G1 ltac:(lra) HY HZ HX) as H. eapply Rle_trans; [right|exact H]. f_equal. ring.
    - pose proof (p_off z x y z' x' y' 1 G1 ltac:(lra) HZ HX HY) as H. eapply Rle_trans; [right|exact H]. f_equal. ring.
    - pose proof (p_off z y x z' y' x' (-1) G2 ltac:(lra) HZ HY HX) as H. eapply Rle_trans; [right|exact H]. f_equal. ring.
    - pose proof (p_diag z x y z' ltac:(lra) HZ) as H. eapply Rle_trans; [right|exact H]. f_equal. ring.
  Qed.
  (** magnitudes of the computed entries *)
  Lemma m_gen a b d T : 0 <= a <= 101 / 100 -> 0 <= b <= 101 / 100 -> 0 <= d <= 101 / 100 -> 0 <= T <= 103 / 100 -> 0 <= T + (1 + 1 * d) * a * b <= 31 / 10.
  Proof. intros A B Dd HT. split; [|].
    - apply Rplus_le_le_0_compat; [lra|]. repeat apply Rmult_le_pos; lra.
    - assert (a * b <= 101 / 100 * (101 / 100)) by (apply Rmult_le_compat; lra).
      assert ((1 + 1 * d) * a * b <= 201 / 100 * (101 / 100 * (101 / 100))) by (rewrite Rmult_assoc; apply Rmult_le_compat; try lra; apply Rmult_le_pos; lra). lra.
  Qed.
End PERT.

Lemma m_col c s x y z j k : 0 <= c <= 101 / 100 -> 0 <= s <= 101 / 100 -> 0 <= x <= 101 / 100 -> 0 <= y <= 101 / 100 -> 0 <= z <= 101 / 100 ->
  (j < 3)%nat -> (k < 3)%nat -> 0 <= nth k (rot_col 1 c s x y z j) 0 <= 31 / 10.
Proof.
  intros C Hs X Y Z Hj Hk.
  assert (P : forall d, 0 <= d <= 101 / 100 -> 0 <= s * d <= 103 / 100).
  { intros d Hd. split; [apply Rmult_le_pos; lra|]. apply Rle_trans with (101 / 100 * (101 / 100)); [apply Rmult_le_compat; lra|lra]. }
  assert (T : 0 <= c <= 103 / 100) by lra.
  pose proof (P x X) as Px. pose proof (P y Y) as Py. pose proof (P z Z) as Pz.
  destruct j as [|[|[|j]]]; [| | |lia]; (destruct k as [|[|[|k]]]; [| | |lia]); cbn [nth rot_col]; rewrite ?(Rmult_1_l (s * _)).
  - now apply m_gen.
  - rewrite Rplus_comm. now apply m_gen.
  - rewrite Rplus_comm. now apply m_gen.
  - rewrite Rplus_comm. now apply m_gen.
  - now apply m_gen.
  - rewrite Rplus_comm. now apply m_gen.
  - rewrite Rplus_comm. now apply m_gen.
  - rewrite Rplus_comm. now apply m_gen.
  - now apply m_gen.
Qed.
Lemma lin_err (r a0 a1 a2 : R) (R' Rx M : list R) g P K w : 0 <= g ->
  Rabs (r - lin a0 a1 a2 R') <= g * lin (Rabs a0) (Rabs a1) (Rabs a2) M + w ->
  (forall k, (k < 3)%nat -> Rabs (nth k R' 0 - nth k Rx 0) <= P) -> (forall k, (k < 3)%nat -> 0 <= nth k M 0 <= 31 / 10) ->
  P + g * (31 / 10) <= K ->
  Rabs (r - lin a0 a1 a2 Rx) <= K * (Rabs a0 + Rabs a1 + Rabs a2) + w.
Proof.
  intros Hg H HP HM HK. pose proof (HP 0%nat ltac:(lia)) as P0. pose proof (HP 1%nat ltac:(lia)) as P1. pose proof (HP 2%nat ltac:(lia)) as P2.
  pose proof (HM 0%nat ltac:(lia)) as M0. pose proof (HM 1%nat ltac:(lia)) as M1. pose proof (HM 2%nat ltac:(lia)) as M2.
  unfold lin in *. set (r0 := nth 0 R' 0) in *. set (r1 := nth 1 R' 0) in *. set (r2 := nth 2 R' 0) in *.
  set (q0 := nth 0 Rx 0) in *. set (q1 := nth 1 Rx 0) in *. set (q2 := nth 2 Rx 0) in *.
  replace (r - (a0 * q0 + a1 * q1 + a2 * q2)) with ((r - (a0 * r0 + a1 * r1 + a2 * r2)) + (a0 * (r0 - q0) + a1 * (r1 - q1) + a2 * (r2 - q2))) by ring.
  eapply Rle_trans; [apply Rabs_triang|].
  assert (D : Rabs (a0 * (r0 - q0) + a1 * (r1 - q1) + a2 * (r2 - q2)) <= P * (Rabs a0 + Rabs a1 + Rabs a2)).
  { eapply Rle_trans; [apply Rabs_triang|]. eapply Rle_trans; [apply Rplus_le_compat_r, Rabs_triang|]. rewrite !Rabs_mult.
    pose proof (Rmult_le_compat_l _ _ _ (Rabs_pos a0) P0). pose proof (Rmult_le_compat_l _ _ _ (Rabs_pos a1) P1). pose proof (Rmult_le_compat_l _ _ _ (Rabs_pos a2) P2). lra. }
  assert (E : g * (Rabs a0 * nth 0 M 0 + Rabs a1 * nth 1 M 0 + Rabs a2 * nth 2 M 0) <= g * (31 / 10) * (Rabs a0 + Rabs a1 + Rabs a2)).
  { rewrite Rmult_assoc. apply Rmult_le_compat_l; [exact Hg|].
    pose proof (Rmult_le_compat_l _ _ _ (Rabs_pos a0) (proj2 M0)). pose proof (Rmult_le_compat_l _ _ _ (Rabs_pos a1) (proj2 M1)). pose proof (Rmult_le_compat_l _ _ _ (Rabs_pos a2) (proj2 M2)). lra. }
  assert (SS : 0 <= Rabs a0 + Rabs a1 + Rabs a2) by (pose proof (Rabs_pos a0); pose proof (Rabs_pos a1); pose proof (Rabs_pos a2); lra).
  pose proof (Rmult_le_compat_r _ _ _ SS HK). lra.
Qed.
Lemma nears_nth k u c x m i : nears k u c x m -> (i < length x)%nat -> Rabs (nth i (vals c) 0 - nth i x 0) <= gam k * nth i m 0 + u.
Proof.
  revert c m i. induction x as [|x xs IH]; intros [|c cs] [|m ms] i H Hi; try contradiction; [cbn in Hi; lia|].
  destruct H as [H1 H2]. destruct i as [|i]; [exact H1|]. cbn in Hi. apply (IH cs ms i H2). lia.
Qed.
Lemma unit_sq x y z : norm [x; y; z] <> 0 -> x / norm [x; y; z] * (x / norm [x; y; z]) + y / norm [x; y; z] * (y / norm [x; y; z]) + z / norm [x; y; z] * (z / norm [x; y; z]) = 1.
Proof.
  intros N. assert (E : norm [x; y; z] * norm [x; y; z] = x * x + y * y + z * z).
  { rewrite <- total_squares. cbn. ring. }
  set (n := norm [x; y; z]) in *. replace (x / n * (x / n) + y / n * (y / n) + z / n * (z / n)) with ((x * x + y * y + z * z) / (n * n)) by (field; exact N).
  rewrite <- E. field. exact N.
Qed.
Lemma mprod_turning (m0 m1 m2 m3 m4 m5 m6 m7 m8 m9 m10 m11 m12 m13 m14 m15 a x y z : R) :
  let m := [m0; m1; m2; m3; m4; m5; m6; m7; m8; m9; m10; m11; m12; m13; m14; m15] in let e := ent 4 m in
  mprod 4 m (turning (rotmat a [x; y; z])) =
  build_mat 4 (fun i j => if Nat.eqb j 3 then e i 3%nat else lin (e i 0%nat) (e i 1%nat) (e i 2%nat) (rot_col (-1) (cos a) (sin a) x y z j)).
Proof.
  cbv -[Rplus Rmult Rminus Ropp IZR cos sin]. repeat (apply (f_equal2 cons)); try reflexivity; ring.
Qed.
Lemma gam7 : 0 <= gam 7 <= 7001 / 1000 * ulp_half.
Proof. split; [apply gam_nonneg; lia|]. unfold gam. rewrite uval. cbn [INR]. lra. Qed.
(** rotate in binary32: every entry of the result is within 1.5 k + 53 half-ulps of the exact product of the matrix with
    the rotation about the exact unit axis, relative to the sum of the absolute values of the entries that enter it;
    cosine and sine of the C library are assumed accurate to k half-ulps of 1. *)
Lemma C76_rotate_pf : forall (L : Libm) (k B : R) (m : mat4 f32) (a : f32) (v : vec3 f32),
  0 <= k <= 100 -> 2 <= B -> bounded_by B (lm4 m) -> all_finite (l3 v) -> / IZR (2 ^ 48) <= norm (vals (l3 v)) <= IZR (2 ^ 62) ->
  abs_close k (l_cos L a) (cos (b2r a)) -> abs_close k (l_sin L a) (sin (b2r a)) -> all_finite (lm4 (rotate4 (F32 L) m a v)) ->
  entries_close (3 / 2 * k + 53) (18 * B ^ 2 * tiny) (lm4 (rotate4 (F32 L) m a v))
    (mprod 4 (vals (lm4 m)) (turning (rotmat (b2r a) (unit_of (vals (l3 v)))))) (linear_sums (mags (lm4 m))).
Proof.
  intros L k B m a v Hk HB Bm Fv HN HC HS F.
  destruct (C72_normalize_pf L) as [_ [NZ _]]. destruct (NZ v Fv HN) as [Fn [Hn _]].
  rewrite rotate4_core in *. change (cos_f (F32 L) a) with (l_cos L a) in *. change (sin_f (F32 L) a) with (l_sin L a) in *.
  set (n := normalize3 (F32 L) v) in *. set (c := l_cos L a) in *. set (s := l_sin L a) in *. destruct HC as [Fc HC], HS as [Fs HS].
  set (N := norm (vals (l3 v))) in *.
  assert (PN : 0 < N). { apply Rlt_le_trans with (/ IZR (2 ^ 48)); [apply Rinv_0_lt_compat; now apply IZR_lt|apply HN]. }
  destruct v as [v0 v1 v2]. change (l3 n) with [x3 n; y3 n; z3 n] in Hn. change (vals (l3 (V3 v0 v1 v2))) with [b2r v0; b2r v1; b2r v2] in *.
  inversion Hn as [|? ? ? ? H0 Hn1]; subst. inversion Hn1 as [|? ? ? ? H1 Hn2]; subst. inversion Hn2 as [|? ? ? ? H2 _]; subst. clear Hn Hn1 Hn2.
  pose proof (unit_sq (b2r v0) (b2r v1) (b2r v2)) as US. fold N in US. specialize (US ltac:(lra)).
  set (x := b2r v0 / N) in *. set (y := b2r v1 / N) in *. set (z := b2r v2 / N) in *.
  set (ep := 751 / 100 * ulp_half). set (dl := k * ulp_half) in *.
  assert (T0 : tiny <= / 1000 * ulp_half).
  { unfold tiny. rewrite uval. rewrite <- Rinv_mult. apply Rinv_le_contravar; [lra|]. apply Rle_trans with (IZR (2 ^ 40)); [rewrite <- mult_IZR; apply IZR_le; vm_compute; discriminate|apply IZR_le; vm_compute; discriminate]. }
  assert (EP : 0 <= ep <= / 1000000) by (unfold ep; rewrite uval; lra).
  assert (DL : 0 <= dl <= / 100000) by (unfold dl; rewrite uval; lra).
  assert (AX : forall (t : R) (q : f32), Rabs t <= 1 -> Rabs (b2r q - t) <= (INR 3 / 2 + 6) * ulp_half * Rabs t + tiny -> Rabs (b2r q - t) <= ep).
  { intros t q Ht H. eapply Rle_trans; [exact H|]. unfold ep. rewrite uval in *. cbn [INR]. pose proof (Rabs_pos t). lra. }
  assert (X1 : Rabs x <= 1) by (apply (p_unit x y z); exact US). assert (Y1 : Rabs y <= 1) by (apply (p_unit y x z); lra). assert (Z1 : Rabs z <= 1) by (apply (p_unit z x y); lra).
  apply (AX _ _ X1) in H0. apply (AX _ _ Y1) in H1. apply (AX _ _ Z1) in H2.
  assert (SC : cos (b2r a) * cos (b2r a) + sin (b2r a) * sin (b2r a) = 1).
  { pose proof (sin2_cos2 (b2r a)) as H. unfold Rsqr in H. lra. }
  assert (C1 : Rabs (cos (b2r a)) <= 1) by (apply (p_one _ _ SC)).
  assert (S1 : Rabs (sin (b2r a)) <= 1) by (apply (p_one _ (cos (b2r a))); lra).
  assert (BD : forall q t e, Rabs t <= 1 -> Rabs (q - t) <= e -> e <= / 100 -> 0 <= Rabs q <= 101 / 100).
  { intros q t e Ht H He. split; [apply Rabs_pos|]. pose proof (abs_le_near t q 1 e Ht H). lra. }
  pose proof (BD _ _ _ X1 H0 ltac:(lra)) as Bx. pose proof (BD _ _ _ Y1 H1 ltac:(lra)) as By. pose proof (BD _ _ _ Z1 H2 ltac:(lra)) as Bz.
  pose proof (BD _ _ _ C1 HC ltac:(lra)) as Bc. pose proof (BD _ _ _ S1 HS ltac:(lra)) as Bs.
  assert (BB : bounded_by B (lm4 m ++ [c; s] ++ l3 n)).
  { apply bounded_app; [exact Bm|]. change ([c; s] ++ l3 n) with [c; s; x3 n; y3 n; z3 n]. repeat apply Forall_cons; [..|apply Forall_nil]; cbv beta; [apply (Rle_trans _ (101 / 100)); [apply Bc|lra]|apply (Rle_trans _ (101 / 100)); [apply Bs|lra]|apply (Rle_trans _ (101 / 100)); [apply Bx|lra]|apply (Rle_trans _ (101 / 100)); [apply By|lra]|apply (Rle_trans _ (101 / 100)); [apply Bz|lra]]. }
  pose proof (rot_core_err L m c s n B F ltac:(lra) BB) as NE. cbv zeta in NE.
  assert (UE : unit_of [b2r v0; b2r v1; b2r v2] = [x; y; z]).
  { unfold unit_of, vscale. cbn [map]. fold N. unfold x, y, z, Rdiv. rewrite !(Rmult_comm (/ N)). reflexivity. }
  rewrite UE. destruct m as [[a0 a1 a2 a3] [a4 a5 a6 a7] [a8 a9 a10 a11] [a12 a13 a14 a15]].
  set (m := M4 (V4 a0 a1 a2 a3) (V4 a4 a5 a6 a7) (V4 a8 a9 a10 a11) (V4 a12 a13 a14 a15)) in *.
  assert (EX : mprod 4 (vals (lm4 m)) (turning (rotmat (b2r a) [x; y; z])) =
    build_mat 4 (fun i j => if Nat.eqb j 3 then ent 4 (vals (lm4 m)) i 3%nat else lin (ent 4 (vals (lm4 m)) i 0) (ent 4 (vals (lm4 m)) i 1) (ent 4 (vals (lm4 m)) i 2)
      (rot_col (-1) (cos (b2r a)) (sin (b2r a)) x y z j))).
  { exact (mprod_turning (b2r a0) (b2r a1) (b2r a2) (b2r a3) (b2r a4) (b2r a5) (b2r a6) (b2r a7) (b2r a8) (b2r a9) (b2r a10) (b2r a11) (b2r a12) (b2r a13) (b2r a14) (b2r a15) (b2r a) x y z). }
  rewrite EX. clear EX. split; [reflexivity|]. split; [reflexivity|]. intros i Hi. change (length _) with 16%nat in Hi.
  assert (L4 : forall j, (j < 3)%nat -> forall b0 b1 b2 r,
    Rabs (r - lin b0 b1 b2 (rot_col (-1) (b2r c) (b2r s) (b2r (x3 n)) (b2r (y3 n)) (b2r (z3 n)) j)) <=
      gam 7 * lin (Rabs b0) (Rabs b1) (Rabs b2) (rot_col 1 (Rabs (b2r c)) (Rabs (b2r s)) (Rabs (b2r (x3 n))) (Rabs (b2r (y3 n))) (Rabs (b2r (z3 n))) j) + 18 * B ^ 2 * tiny ->
    Rabs (r - lin b0 b1 b2 (rot_col (-1) (cos (b2r a)) (sin (b2r a)) x y z j)) <= (3 / 2 * k + 53) * ulp_half * (Rabs b0 + Rabs b1 + Rabs b2) + 18 * B ^ 2 * tiny).
  { intros j Hj b0 b1 b2 r H. eapply lin_err; [exact (proj1 gam7)|exact H| | |].
    - intros q Hq. apply (p_col (cos (b2r a)) (sin (b2r a)) (b2r c) (b2r s) x y z (b2r (x3 n)) (b2r (y3 n)) (b2r (z3 n)) dl ep); trivial.
    - intros q Hq. apply m_col; trivial.
    - pose proof gam7 as [_ G]. unfold dl, ep. rewrite uval in *. lra. }
  assert (W : forall t : f32, Rabs (b2r t - b2r t) <= (3 / 2 * k + 53) * ulp_half * 0 + 18 * B ^ 2 * tiny).
  { intros t. rewrite Rminus_diag_eq, Rabs_R0, Rmult_0_r, Rplus_0_l by reflexivity. apply Rmult_le_pos; [apply Rmult_le_pos; [lra|apply pow2_ge_0]|left; apply tiny_pos]. }
  pose proof (fun j Hj => nears_nth _ _ _ _ _ j NE Hj) as NI. clear NE.
  do 12 (destruct i as [|i]; [specialize (NI _ Hi); eapply (L4 _ _ _ _ _ _ NI)|]).
  do 4 (destruct i as [|i]; [apply W|]). lia.
  Unshelve. all: lia.
Qed.
(** *** quaternions from angle and axis *)
Lemma aa_comp (x s : f32) (T k : R) : finite x -> finite s -> Rabs (b2r x) <= IZR (2 ^ 120) -> Rabs T <= 1 -> 0 <= k <= 100 -> Rabs (b2r s - T) <= k * ulp_half ->
  finite (Bmult mode_NE x s) /\ Rabs (b2r (Bmult mode_NE x s) - b2r x * T) <= (k + 1 + / 1000) * ulp_half * Rabs (b2r x) + tiny.
Proof.
  intros Fx Fs Hx HT Hk H. assert (S1 : Rabs (b2r s) <= 1 + / 100000).
  { replace (b2r s) with (b2r s - T + T) by ring. eapply Rle_trans; [apply Rabs_triang|]. rewrite uval in H. lra. }
  assert (B : Rabs (rnd (b2r x * b2r s)) < big).
  { apply Rle_lt_trans with (bpow radix2 121); [|apply bpow_lt; lia]. apply rnd_abs_le; [apply fmt_bpow; lia|].
    rewrite Rabs_mult. change (bpow radix2 121) with (IZR (2 * 2 ^ 120)). rewrite mult_IZR, Rmult_comm. apply Rmult_le_compat; try apply Rabs_pos; lra. }
  destruct (mult_ok x s Fx Fs B) as [F E]. split; [exact F|]. rewrite E.
  destruct (rnd_error (b2r x * b2r s)) as [e [eta [He [Ht [_ E2]]]]]. change u32 with ulp_half in He. rewrite eta_tiny in Ht. rewrite E2.
  replace (b2r x * b2r s * (1 + e) + eta - b2r x * T) with (b2r x * ((b2r s - T) + b2r s * e) + eta) by ring.
  eapply Rle_trans; [apply Rabs_triang|]. apply Rplus_le_compat; [|pose proof tiny_pos; lra]. rewrite Rabs_mult, Rmult_comm. apply Rmult_le_compat_r; [apply Rabs_pos|].
  eapply Rle_trans; [apply Rabs_triang|]. rewrite Rabs_mult. pose proof (Rmult_le_compat _ _ _ _ (Rabs_pos _) (Rabs_pos _) S1 He) as Q. rewrite uval in *. lra.
Qed.
(** angleAxis: scalar part within k half-ulps of the cosine of half the angle; vector part within k+1.001 half-ulps of the
    axis times its sine, relatively to the axis *)
Lemma C76_angle_axis_pf : forall (L : Libm) (k : R) (a : f32) (v : vec3 f32), 0 <= k <= 100 -> finite a -> in_range (b2r a) -> all_finite (l3 v) -> bounded_by (IZR (2 ^ 120)) (l3 v) ->
  (forall h, finite h -> b2r h = b2r a / 2 -> abs_close k (l_cos L h) (cos (b2r a / 2)) /\ abs_close k (l_sin L h) (sin (b2r a / 2))) ->
  let q := angleAxis (F32 L) a v in
  abs_close k (qw q) (cos (b2r a / 2)) /\ all_finite [qx q; qy q; qz q] /\
  Forall2 (fun c x => Rabs (b2r c - x * sin (b2r a / 2)) <= (k + 1 + / 1000) * ulp_half * Rabs x + tiny) [qx q; qy q; qz q] (vals (l3 v)).
Proof.
  intros L k a v Hk Fa Ra Fv Bv HL. destruct v as [v0 v1 v2]. cbv zeta. destruct (half_exact a Fa Ra) as [Fh Eh]. destruct (HL _ Fh Eh) as [HC [Fs HS]].
  set (h := Bmult mode_NE a (f32_lit 5 (-1))) in *. set (s := l_sin L h) in *.
  assert (S1 : Rabs (sin (b2r a / 2)) <= 1) by (apply Rabs_le, SIN_bound).
  change (angleAxis (F32 L) a (V3 v0 v1 v2)) with (@Quat f32 (Bmult mode_NE v0 s) (Bmult mode_NE v1 s) (Bmult mode_NE v2 s) (l_cos L h)). cbn [qw qx qy qz].
  unfold all_finite, bounded_by, l3 in *. cbn [x3 y3 z3] in *.
  apply Forall_cons_iff in Fv as [F0 Fv]. apply Forall_cons_iff in Fv as [F1 Fv]. apply Forall_cons_iff in Fv as [F2 _].
  apply Forall_cons_iff in Bv as [B0 Bv]. apply Forall_cons_iff in Bv as [B1 Bv]. apply Forall_cons_iff in Bv as [B2 _].
  destruct (aa_comp v0 s _ k F0 Fs B0 S1 Hk HS) as [G0 H0]. destruct (aa_comp v1 s _ k F1 Fs B1 S1 Hk HS) as [G1 H1]. destruct (aa_comp v2 s _ k F2 Fs B2 S1 Hk HS) as [G2 H2].
  split; [exact HC|]. split; [repeat apply Forall_cons; trivial; apply Forall_nil|]. cbn [vals map]. repeat apply Forall2_cons; trivial; apply Forall2_nil.
Qed.
Lemma sum4_le a b c d : a * a + b * b + c * c + d * d = 1 -> Rabs a + Rabs b + Rabs c + Rabs d <= 2.
Proof.
  intros H. assert (A : forall t, Rabs t * Rabs t = t * t) by (intros t; rewrite <- Rabs_mult; apply Rabs_pos_eq; nra).
  pose proof (A a). pose proof (A b). pose proof (A c). pose proof (A d).
  pose proof (Rle_0_sqr (Rabs a - / 2)). pose proof (Rle_0_sqr (Rabs b - / 2)). pose proof (Rle_0_sqr (Rabs c - / 2)). pose proof (Rle_0_sqr (Rabs d - / 2)). unfold Rsqr in *. lra.
Qed.
(** rotate(q, angle, axis): every component is within k+81 half-ulps, relative to the sum of the absolute values of the
    components of q, of the exact product of q with the unit quaternion of the rotation *)
Lemma C76_rotate_quat_pf : forall (L : Libm) (k : R) (q : quat f32) (a : f32) (v : vec3 f32),
  0 <= k <= 100 -> finite a -> in_range (b2r a) -> all_finite (l3 v) -> / IZR (2 ^ 48) <= norm (vals (l3 v)) <= IZR (2 ^ 62) ->
  (forall h, finite h -> b2r h = b2r a / 2 -> abs_close k (l_cos L h) (cos (b2r a / 2)) /\ abs_close k (l_sin L h) (sin (b2r a / 2))) ->
  all_finite (lq (rotate_q (F32 L) q a v)) ->
  Forall2 (fun c x => Rabs (b2r c - x) <= (k + 81) * ulp_half * total (mags (lq q)) + 9 * tiny) (lq (rotate_q (F32 L) q a v))
    (lq (ham (Quat (b2r (qx q)) (b2r (qy q)) (b2r (qz q)) (b2r (qw q))) (mkq (cos (b2r a / 2)) (vscale (sin (b2r a / 2)) (unit_of (vals (l3 v))))))).
Proof.
  intros L k q a v Hk Fa Ra Fv HN HL F.
  destruct (C72_normalize_pf L) as [_ [NZ _]]. destruct (NZ v Fv HN) as [Fn [Hn _]].
  change (rotate_q (F32 L) q a v) with (quat_mul (F32 L) q (angleAxis (F32 L) a (normalize3 (F32 L) v))) in *. set (n := normalize3 (F32 L) v) in *. clearbody n. clear NZ.
  set (N := norm (vals (l3 v))) in *.
  assert (PN : 0 < N). { apply Rlt_le_trans with (/ IZR (2 ^ 48)); [apply Rinv_0_lt_compat; now apply IZR_lt|apply HN]. }
  destruct v as [v0 v1 v2]. change (l3 n) with [x3 n; y3 n; z3 n] in Hn. change (vals (l3 (V3 v0 v1 v2))) with [b2r v0; b2r v1; b2r v2] in *.
  inversion Hn as [|? ? ? ? H0 Hn1]; subst. inversion Hn1 as [|? ? ? ? H1 Hn2]; subst. inversion Hn2 as [|? ? ? ? H2 _]; subst. clear Hn Hn1 Hn2.
  pose proof (unit_sq (b2r v0) (b2r v1) (b2r v2)) as US. fold N in US. specialize (US ltac:(lra)).
  assert (UE : unit_of [b2r v0; b2r v1; b2r v2] = [b2r v0 / N; b2r v1 / N; b2r v2 / N]).
  { unfold unit_of, vscale. cbn [map]. fold N. unfold Rdiv. rewrite !(Rmult_comm (/ N)). reflexivity. }
  rewrite UE. set (x := b2r v0 / N) in *. set (y := b2r v1 / N) in *. set (z := b2r v2 / N) in *. clearbody x y z.
  assert (X1 : Rabs x <= 1) by (apply (p_unit x y z); exact US). assert (Y1 : Rabs y <= 1) by (apply (p_unit y x z); lra). assert (Z1 : Rabs z <= 1) by (apply (p_unit z x y); lra).
  assert (T0 : 0 < tiny <= / 1000 * ulp_half).
  { split; [apply tiny_pos|]. unfold tiny. rewrite uval. rewrite <- Rinv_mult. apply Rinv_le_contravar; [lra|]. apply Rle_trans with (IZR (2 ^ 40)); [rewrite <- mult_IZR; apply IZR_le; vm_compute; discriminate|apply IZR_le; vm_compute; discriminate]. }
  assert (AX : forall (t : R) (r : f32), Rabs t <= 1 -> Rabs (b2r r - t) <= (INR 3 / 2 + 6) * ulp_half * Rabs t + tiny -> Rabs (b2r r - t) <= 751 / 100 * ulp_half).
  { intros t r Ht H. eapply Rle_trans; [exact H|]. rewrite uval in *. cbn [INR]. pose proof (Rabs_pos t). lra. }
  apply (AX _ _ X1) in H0. apply (AX _ _ Y1) in H1. apply (AX _ _ Z1) in H2.
  assert (BN : forall (t : R) (r : f32), Rabs t <= 1 -> Rabs (b2r r - t) <= 751 / 100 * ulp_half -> Rabs (b2r r) <= 1 + / 1000000).
  { intros t r Ht H. pose proof (abs_le_near t (b2r r) 1 _ Ht H). rewrite uval in *. lra. }
  assert (BB : bounded_by (IZR (2 ^ 120)) (l3 n)).
  { assert (1 + / 1000000 <= IZR (2 ^ 120)) by (apply Rle_trans with (IZR 2); [lra|apply IZR_le; vm_compute; discriminate]).
    repeat apply Forall_cons; [..|apply Forall_nil]; cbv beta; (eapply Rle_trans; [eapply BN; [|eassumption]; assumption|assumption]). }
  destruct (C76_angle_axis_pf L k a n Hk Fa Ra Fn BB HL) as [[Fw HW] [Fr HR]]. set (rq := angleAxis (F32 L) a n) in *.
  pose proof (C65_quat_product_pf L q rq F) as NE. cbv zeta in NE. clearbody rq. destruct rq as [r0 r1 r2 r3]. cbn [qx qy qz qw] in *.
  assert (CS : cos (b2r a / 2) * cos (b2r a / 2) + sin (b2r a / 2) * sin (b2r a / 2) = 1).
  { pose proof (sin2_cos2 (b2r a / 2)) as H. unfold Rsqr in H. lra. }
  assert (S1 : Rabs (sin (b2r a / 2)) <= 1) by (apply Rabs_le, SIN_bound).
  set (C := cos (b2r a / 2)) in *. set (S := sin (b2r a / 2)) in *. clearbody C S.
  change (vals (l3 n)) with [b2r (x3 n); b2r (y3 n); b2r (z3 n)] in HR.
  inversion HR as [|? ? ? ? R0 HR1]; subst. inversion HR1 as [|? ? ? ? R1 HR2]; subst. inversion HR2 as [|? ? ? ? R2 _]; subst. clear HR HR1 HR2.
  assert (CL : forall (t : R) (r m : f32), Rabs t <= 1 -> Rabs (b2r m - t) <= 751 / 100 * ulp_half ->
    Rabs (b2r r - b2r m * S) <= (k + 1 + / 1000) * ulp_half * Rabs (b2r m) + tiny -> Rabs (b2r r - S * t) <= (k + 86 / 10) * ulp_half).
  { intros t r m Ht Hm Hr. pose proof (BN t m Ht Hm) as Bm. replace (b2r r - S * t) with ((b2r r - b2r m * S) + S * (b2r m - t)) by ring.
    eapply Rle_trans; [apply Rabs_triang|]. rewrite Rabs_mult. pose proof (Rmult_le_compat _ _ _ _ (Rabs_pos _) (Rabs_pos _) S1 Hm) as Q.
    assert ((k + 1 + / 1000) * ulp_half * Rabs (b2r m) <= (k + 1 + / 1000) * ulp_half * (1 + / 1000000)) by (apply Rmult_le_compat_l; [rewrite uval; lra|exact Bm]).
    rewrite uval in *. lra. }
  apply (CL x _ _ X1 H0) in R0. apply (CL y _ _ Y1 H1) in R1. apply (CL z _ _ Z1 H2) in R2.
  assert (R3 : Rabs (b2r r3 - C) <= (k + 86 / 10) * ulp_half) by (rewrite uval in *; lra).
  clear CL AX BN BB HL H0 H1 H2 HW.
  assert (TT : total (mags (lq (Quat r0 r1 r2 r3))) <= 2 + / 1000).
  { change (total (mags (lq (Quat r0 r1 r2 r3)))) with (Rabs (b2r r0) + (Rabs (b2r r1) + (Rabs (b2r r2) + (Rabs (b2r r3) + 0)))).
    pose proof (sum4_le (S * x) (S * y) (S * z) C) as Q4.
    assert (U4 : S * x * (S * x) + S * y * (S * y) + S * z * (S * z) + C * C = 1).
    { replace (S * x * (S * x) + S * y * (S * y) + S * z * (S * z)) with (S * S * (x * x + y * y + z * z)) by ring. rewrite US. lra. }
    specialize (Q4 U4).
    pose proof (abs_le_near _ _ _ _ (Rle_refl _) R0). pose proof (abs_le_near _ _ _ _ (Rle_refl _) R1). pose proof (abs_le_near _ _ _ _ (Rle_refl _) R2). pose proof (abs_le_near _ _ _ _ (Rle_refl _) R3).
    rewrite uval in *. lra. }
  assert (G9 : 0 <= gam 9 <= (9 + / 1000) * ulp_half).
  { unfold gam. replace (INR 9) with 9 by (cbn; lra). rewrite uval. lra. }
  destruct q as [p0 p1 p2 p3]. set (P := total (mags (lq (Quat p0 p1 p2 p3)))) in *.
  assert (PE : P = Rabs (b2r p0) + Rabs (b2r p1) + Rabs (b2r p2) + Rabs (b2r p3)) by (unfold P; cbn; ring).
  assert (PP : 0 <= P) by (rewrite PE; pose proof (Rabs_pos (b2r p0)); pose proof (Rabs_pos (b2r p1)); pose proof (Rabs_pos (b2r p2)); pose proof (Rabs_pos (b2r p3)); lra).
  clearbody P. cbn [qx qy qz qw] in *. set (d := (k + 86 / 10) * ulp_half) in *.
  assert (M1 : gam 9 * (4 * (P * total (mags (lq (Quat r0 r1 r2 r3))))) <= 7209 / 100 * ulp_half * P).
  { set (t := total _) in *. clearbody t. destruct (Rle_or_lt t 0) as [C0|C0].
    - apply Rle_trans with 0; [|apply Rmult_le_pos; [rewrite uval; lra|exact PP]]. assert (P * t <= 0) by nra. nra.
    - replace (gam 9 * (4 * (P * t))) with (gam 9 * t * (4 * P)) by ring. pose proof (Rmult_le_compat (gam 9) _ t _ (proj1 G9) ltac:(lra) (proj2 G9) TT) as Q. rewrite uval in *. nra. }
  assert (CB : forall c f g, near 9 (9 * tiny) c f (4 * (P * total (mags (lq (Quat r0 r1 r2 r3))))) -> Rabs (f - g) <= d * P -> Rabs (b2r c - g) <= (k + 81) * ulp_half * P + 9 * tiny).
  { intros c f g Hc He. unfold near in Hc. replace (b2r c - g) with ((b2r c - f) + (f - g)) by ring. eapply Rle_trans; [apply Rabs_triang|]. unfold d in He. rewrite uval in *. nra. }
  assert (FR : forall i0 i1 i2 i3, Rabs i0 <= d -> Rabs i1 <= d -> Rabs i2 <= d -> Rabs i3 <= d -> Rabs (b2r p0 * i0 + b2r p1 * i1 + b2r p2 * i2 + b2r p3 * i3) <= d * P).
  { intros i0 i1 i2 i3 I0 I1 I2 I3. rewrite PE. eapply Rle_trans; [apply Rabs_triang|]. eapply Rle_trans; [apply Rplus_le_compat_r, Rabs_triang|].
    eapply Rle_trans; [apply Rplus_le_compat_r, Rplus_le_compat_r, Rabs_triang|]. rewrite !Rabs_mult.
    pose proof (Rmult_le_compat_l _ _ _ (Rabs_pos (b2r p0)) I0). pose proof (Rmult_le_compat_l _ _ _ (Rabs_pos (b2r p1)) I1).
    pose proof (Rmult_le_compat_l _ _ _ (Rabs_pos (b2r p2)) I2). pose proof (Rmult_le_compat_l _ _ _ (Rabs_pos (b2r p3)) I3). lra. }
  assert (OP : forall t, Rabs t <= d -> Rabs (- t) <= d) by (intros t; now rewrite Rabs_Ropp).
  revert NE. generalize (quat_mul (F32 L) (Quat p0 p1 p2 p3) (Quat r0 r1 r2 r3)). intros [w0 w1 w2 w3] NE. unfold lq in NE at 1. unfold lq at 1. unfold lq at 1 in NE. unfold lq at 1. cbn [qx qy qz qw nears] in NE |- *.
  destruct NE as [N0 [N1 [N2 [N3 _]]]].
  repeat apply Forall2_cons; [..|apply Forall2_nil].
  - apply (CB _ _ _ N0). match goal with |- Rabs ?e <= _ => replace e with (b2r p0 * (b2r r3 - C) + b2r p1 * (b2r r2 - S * z) + b2r p2 * (- (b2r r1 - S * y)) + b2r p3 * (b2r r0 - S * x)) by (cbn; ring) end. apply FR; auto.
  - apply (CB _ _ _ N1). match goal with |- Rabs ?e <= _ => replace e with (b2r p0 * (- (b2r r2 - S * z)) + b2r p1 * (b2r r3 - C) + b2r p2 * (b2r r0 - S * x) + b2r p3 * (b2r r1 - S * y)) by (cbn; ring) end. apply FR; auto.
  - apply (CB _ _ _ N2). match goal with |- Rabs ?e <= _ => replace e with (b2r p0 * (b2r r1 - S * y) + b2r p1 * (- (b2r r0 - S * x)) + b2r p2 * (b2r r3 - C) + b2r p3 * (b2r r2 - S * z)) by (cbn; ring) end. apply FR; auto.
  - apply (CB _ _ _ N3). match goal with |- Rabs ?e <= _ => replace e with (b2r p0 * (- (b2r r0 - S * x)) + b2r p1 * (- (b2r r1 - S * y)) + b2r p2 * (- (b2r r2 - S * z)) + b2r p3 * (b2r r3 - C)) by (cbn; ring) end. apply FR; auto.
Qed.
(** sine and cosine of 1/16 *)
Lemma cos16 : 1 - / 512 <= cos (/ 16) <= 1 - / 512 + / 1572864.
Proof.
  pose proof PI2_1 as P. pose proof (cos_bound (/ 16) 0 ltac:(lra) ltac:(lra)) as H. unfold cos_approx, cos_term in H. cbn in H. lra.
Qed.
Lemma sin16 : / 16 - / 24576 <= sin (/ 16) <= / 16 - / 24576 + / 125829120.
Proof.
  pose proof PI2_1 as P. pose proof (sin_bound (/ 16) 0 ltac:(lra) ltac:(lra)) as H. unfold sin_approx, sin_term in H.
  cbn in H. lra.
Qed.
(*PROPS
(** a turn by 1/16 about (1,2,2), with cosine and sine within 16 half-ulps, meets the hypotheses *)
Example C76_case : exists L : Libm, let m := mat4_default (F32 L) in let a : f32 := @B754_finite 24 128 false 8388608 (-27) eq_refl in
  let v := V3 (f32_ofZ 1) (f32_ofZ 2) (f32_ofZ 2) in
  bounded_by 2 (lm4 m) /\ all_finite (l3 v) /\ b2r a = / 16 /\ norm (vals (l3 v)) = 3 /\
  abs_close 16 (l_cos L a) (cos (b2r a)) /\ abs_close 16 (l_sin L a) (sin (b2r a)) /\ all_finite (lm4 (rotate4 (F32 L) m a v)).
Proof.
  exists (mkLibm (fun _ => @B754_finite 24 128 false 16744448 (-24) eq_refl) (fun _ => @B754_finite 24 128 false 16766208 (-28) eq_refl) (l_tan L0) (l_acos L0) (l_asin L0) (l_atan L0) (l_atan2 L0) (l_cosh L0) (l_sinh L0) (l_tanh L0)
    (l_acosh L0) (l_asinh L0) (l_atanh L0) (l_pow L0) (l_exp L0) (l_log L0) (l_log2 L0) (l_cbrt L0)).
  cbv zeta. pose proof cos16 as C. pose proof sin16 as S.
  assert (A : b2r (@B754_finite 24 128 false 8388608 (-27) eq_refl) = / 16) by (unfold b2r, B2R, F2R; cbn; lra).
  rewrite A. split; [|split; [|split; [reflexivity|split; [|split; [|split]]]]].
  - repeat apply Forall_cons; try apply Forall_nil; (rewrite (eq_refl : F2R (Float radix2 0 0) = F2R (Float radix2 0 0)) || idtac); unfold b2r, B2R, F2R; cbn; apply Rabs_le; lra.
  - repeat apply Forall_cons; [..|apply Forall_nil]; vm_compute; reflexivity.
  - unfold norm. change (vals _) with [b2r (f32_ofZ 1); b2r (f32_ofZ 2); b2r (f32_ofZ 2)]. rewrite !ofZ_exact by reflexivity.
    match goal with |- sqrt ?e = _ => replace e with (3 * 3) by (cbn; lra) end. apply sqrt_square. lra.
  - split; [reflexivity|]. cbn [l_cos]. unfold b2r, B2R, F2R, ulp_half. cbn. apply Rabs_le; lra.
  - split; [reflexivity|]. cbn [l_sin]. unfold b2r, B2R, F2R, ulp_half. cbn. apply Rabs_le; lra.
  - repeat apply Forall_cons; try apply Forall_nil; vm_compute; reflexivity.
Qed.
(** so does a turn of the identity quaternion by 1/8 about the same axis *)
Example C76_quat_case : exists L : Libm, let q := quat_default (F32 L) in let a : f32 := @B754_finite 24 128 false 8388608 (-26) eq_refl in
  let v := V3 (f32_ofZ 1) (f32_ofZ 2) (f32_ofZ 2) in
  finite a /\ in_range (b2r a) /\ all_finite (l3 v) /\ norm (vals (l3 v)) = 3 /\
  (forall h, finite h -> b2r h = b2r a / 2 -> abs_close 16 (l_cos L h) (cos (b2r a / 2)) /\ abs_close 16 (l_sin L h) (sin (b2r a / 2))) /\
  all_finite (lq (rotate_q (F32 L) q a v)).
Proof.
  exists (mkLibm (fun _ => @B754_finite 24 128 false 16744448 (-24) eq_refl) (fun _ => @B754_finite 24 128 false 16766208 (-28) eq_refl) (l_tan L0) (l_acos L0) (l_asin L0) (l_atan L0) (l_atan2 L0) (l_cosh L0) (l_sinh L0) (l_tanh L0)
    (l_acosh L0) (l_asinh L0) (l_atanh L0) (l_pow L0) (l_exp L0) (l_log L0) (l_log2 L0) (l_cbrt L0)).
  cbv zeta. pose proof cos16 as C. pose proof sin16 as S.
  assert (A : b2r (@B754_finite 24 128 false 8388608 (-26) eq_refl) = / 8) by (unfold b2r, B2R, F2R; cbn; lra).
  rewrite A. replace (/ 8 / 2) with (/ 16) by field. split; [reflexivity|split; [|split; [|split; [|split]]]].
  - right. rewrite Rabs_pos_eq by lra. split; [apply Rinv_le_contravar; [lra|now apply (IZR_le 8)]|apply Rle_trans with 1; [lra|now apply (IZR_le 1)]].
  - repeat apply Forall_cons; [..|apply Forall_nil]; vm_compute; reflexivity.
  - unfold norm. change (vals _) with [b2r (f32_ofZ 1); b2r (f32_ofZ 2); b2r (f32_ofZ 2)]. rewrite !ofZ_exact by reflexivity.
    match goal with |- sqrt ?e = _ => replace e with (3 * 3) by (cbn; lra) end. apply sqrt_square. lra.
  - intros h _ _. split; (split; [reflexivity|]); cbn [l_cos l_sin]; unfold b2r, B2R, F2R, ulp_half; cbn; apply Rabs_le; lra.
  - repeat apply Forall_cons; try apply Forall_nil; vm_compute; reflexivity.
Qed.
PROPS*)
