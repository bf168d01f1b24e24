(** * Proofs: Euler angles in binary32 *)
From Coq Require Import ZArith Bool Reals List Lra Lia.
From Flocq Require Import Core IEEE754.BinarySingleNaN.
From Verif Require Import Scalar IEEE32 RealInst Types Outcome Spec SpecR SpecMat SpecGeo SpecF32 SpecErr SpecOrd SpecDom SpecAcc SpecProj SpecEuler FloatBasics FloatOps
  ModelVec ModelCommon ModelExp ModelTrig ModelGeom ModelQuat ModelQuaternion ModelConst F32Tac RealTac NumLib PfSlerp.
Import ListNotations.
Local Open Scope R_scope.
(*HEADER END*)
From Coq Require Import Psatz.
From Verif Require Import FloatAlg ErrLib OvfLib LenLib RelLib ScaleLib MonoLib DomLib PfErr PfOvf PfLen PfDomain PfQuat PfInterp PfQuatAcc PfOctAcc PfSlerp VecErrLib QuatErrLib AbsLib.

(** ** The quaternion as a trilinear form of the half angles *)
Definition tri (cx sx cy sy cz sz : R) : list R :=
  [sx * cy * cz - cx * sy * sz; cx * sy * cz + sx * cy * sz; cx * cy * sz - sx * sy * cz; cx * cy * cz + sx * sy * sz].
Definition len2 (c s : R) : R := sqrt (c * c + s * s).
Lemma len2_nn c s : 0 <= len2 c s. Proof. apply sqrt_pos. Qed.
Lemma len2_sq c s : len2 c s * len2 c s = c * c + s * s.
Proof. apply sqrt_sqrt. pose proof (Rle_0_sqr c). pose proof (Rle_0_sqr s). unfold Rsqr in *. lra. Qed.
Lemma len2_le c s e : 0 <= e -> c * c + s * s <= e * e -> len2 c s <= e.
Proof. intros P H. rewrite <- (sqrt_square e) by exact P. now apply sqrt_le_1_alt. Qed.
Lemma len2_trig a : len2 (cos a) (sin a) = 1.
Proof. unfold len2. pose proof (sin2_cos2 a) as H. unfold Rsqr in H. rewrite (Rplus_comm (cos a * cos a)), H. apply sqrt_1. Qed.
Lemma len2_norm c s : len2 c s = norm [c; s; 0].
Proof. unfold len2, norm, ip. cbn. f_equal. ring. Qed.
Lemma len2_tri c s c' s' a b : len2 c s <= a -> len2 c' s' <= b -> len2 (c + c') (s + s') <= a + b.
Proof. intros H K. rewrite len2_norm in *. apply (norm_from_parts [c; s; 0] [c'; s'; 0]); try reflexivity; trivial. unfold vadd. cbn. lring. Qed.
Lemma len2_near c s c' s' e : len2 (c' - c) (s' - s) <= e -> len2 c s = 1 -> len2 c' s' <= 1 + e.
Proof. intros H U. replace c' with (c + (c' - c)) by ring. replace s' with (s + (s' - s)) by ring. apply len2_tri; lra. Qed.
Lemma tri_norm cx sx cy sy cz sz : norm (tri cx sx cy sy cz sz) = len2 cx sx * len2 cy sy * len2 cz sz.
Proof.
  unfold norm. rewrite <- (sqrt_square (len2 cx sx * len2 cy sy * len2 cz sz)) by (repeat apply Rmult_le_pos; apply len2_nn). f_equal.
  replace (len2 cx sx * len2 cy sy * len2 cz sz * (len2 cx sx * len2 cy sy * len2 cz sz)) with ((len2 cx sx * len2 cx sx) * (len2 cy sy * len2 cy sy) * (len2 cz sz * len2 cz sz)) by ring.
  rewrite !len2_sq. unfold tri, ip. cbn. ring.
Qed.
Lemma tri_change cx sx cy sy cz sz cx' sx' cy' sy' cz' sz' a b c : len2 cx sx = 1 -> len2 cy sy = 1 -> len2 cz sz = 1 ->
  len2 (cx' - cx) (sx' - sx) <= a -> len2 (cy' - cy) (sy' - sy) <= b -> len2 (cz' - cz) (sz' - sz) <= c ->
  norm (vsub (tri cx' sx' cy' sy' cz' sz') (tri cx sx cy sy cz sz)) <= a * (1 + b) * (1 + c) + b * (1 + c) + c.
Proof.
  intros X Y Z A B C. pose proof (len2_near _ _ _ _ _ B Y) as Y'. pose proof (len2_near _ _ _ _ _ C Z) as Z'.
  pose proof (len2_nn (cx' - cx) (sx' - sx)) as PA. pose proof (len2_nn (cy' - cy) (sy' - sy)) as PB. pose proof (len2_nn (cz' - cz) (sz' - sz)) as PC.
  pose proof (len2_nn cy' sy') as PY. pose proof (len2_nn cz' sz') as PZ.
  apply (norm_from_parts4 (vadd (tri (cx' - cx) (sx' - sx) cy' sy' cz' sz') (tri cx sx (cy' - cy) (sy' - sy) cz' sz')) (tri cx sx cy sy (cz' - cz) (sz' - sz))); [reflexivity|reflexivity| | |].
  - unfold tri, vadd, vsub. cbn. lring.
  - apply (norm_from_parts4 (tri (cx' - cx) (sx' - sx) cy' sy' cz' sz') (tri cx sx (cy' - cy) (sy' - sy) cz' sz')); [reflexivity|reflexivity|reflexivity| |]; rewrite tri_norm.
    + apply Rmult_le_compat; trivial; [now apply Rmult_le_pos|]. apply Rmult_le_compat; trivial.
    + rewrite X, Rmult_1_l. now apply Rmult_le_compat.
  - rewrite tri_norm, X, Y. lra.
Qed.
Lemma of_angles_tri p y r : lq (of_angles p y r) = tri (cos (p / 2)) (sin (p / 2)) (cos (y / 2)) (sin (y / 2)) (cos (r / 2)) (sin (r / 2)).
Proof. unfold of_angles, about_x, about_y, about_z, ham, mkq, qvec, lq, tri, ip, vadd, vscale, cross_l. cbn. lring. Qed.
Lemma trig_sign s c d : s = 1 \/ s = -1 -> len2 (s * c) (s * d) = len2 c d.
Proof. intros [->| ->]; unfold len2; f_equal; ring. Qed.

(** ** Angles on the circle *)
Lemma chord_arc a b : len2 (cos a - cos b) (sin a - sin b) <= Rabs (a - b).
Proof.
  apply len2_le; [apply Rabs_pos|]. rewrite abs_sq.
  assert (E : (cos a - cos b) * (cos a - cos b) + (sin a - sin b) * (sin a - sin b) = (2 * sin ((a - b) / 2)) * (2 * sin ((a - b) / 2))).
  { pose proof (sin2_cos2 a) as A. pose proof (sin2_cos2 b) as B. unfold Rsqr in A, B. pose proof (cos_minus a b) as C. pose proof (cos_2a_sin ((a - b) / 2)) as D. replace (2 * ((a - b) / 2)) with (a - b) in D by field. rewrite D in C. lra. }
  rewrite E. pose proof (sin_lip ((a - b) / 2) 0) as S. rewrite sin_0, !Rminus_0_r in S. rewrite <- abs_sq, <- (abs_sq (a - b)). apply Rmult_le_compat; try apply Rabs_pos;
  rewrite Rabs_mult, (Rabs_pos_eq 2) by lra; unfold Rdiv in S; rewrite (Rabs_mult (a - b)), (Rabs_pos_eq (/ 2)) in S by lra; lra.
Qed.
Lemma half_chord a b e : len2 (cos a - cos b) (sin a - sin b) <= e -> exists s, (s = 1 \/ s = -1) /\
  len2 (cos (a / 2) - s * cos (b / 2)) (sin (a / 2) - s * sin (b / 2)) <= 7072/10000 * e.
Proof.
  intros H. pose proof (len2_nn (cos a - cos b) (sin a - sin b)) as P. assert (Pe : 0 <= e) by lra.
  assert (H2 : (cos a - cos b) * (cos a - cos b) + (sin a - sin b) * (sin a - sin b) <= e * e) by (rewrite <- len2_sq; now apply Rmult_le_compat).
  set (C := cos ((a - b) / 2)). assert (K : 1 - C * C <= e * e / 4).
  { pose proof (sin2_cos2 a) as A. pose proof (sin2_cos2 b) as B. unfold Rsqr in A, B. pose proof (cos_minus a b) as D. pose proof (cos_2a_cos ((a - b) / 2)) as F. replace (2 * ((a - b) / 2)) with (a - b) in F by field. rewrite F in D. fold C in D. lra. }
  assert (EC : C = cos (a / 2) * cos (b / 2) + sin (a / 2) * sin (b / 2)) by (unfold C; replace ((a - b) / 2) with (a / 2 - b / 2) by field; apply cos_minus).
  pose proof (COS_bound ((a - b) / 2)) as CB. fold C in CB.
  pose proof (sin2_cos2 (a / 2)) as A. pose proof (sin2_cos2 (b / 2)) as B. unfold Rsqr in A, B.
  destruct (Rle_or_lt 0 C) as [PC|PC]; [exists 1; split; [now left|]|exists (-1); split; [now right|]]; (apply len2_le; [lra|]).
  - nra.
  - nra.
Qed.

(** ** quat(vec3) *)
Lemma qe_shape L (a b c : f32) : let h x := Bmult mode_NE x (f32_lit 5 (-1)) in let cc x := l_cos L (h x) in let ss x := l_sin L (h x) in
  let m x y z := Bmult mode_NE (Bmult mode_NE x y) z in
  lq (quat_euler (F32 L) (V3 a b c)) = [Bminus mode_NE (m (ss a) (cc b) (cc c)) (m (cc a) (ss b) (ss c)); Bplus mode_NE (m (cc a) (ss b) (cc c)) (m (ss a) (cc b) (ss c));
    Bminus mode_NE (m (cc a) (cc b) (ss c)) (m (ss a) (ss b) (cc c)); Bplus mode_NE (m (cc a) (cc b) (cc c)) (m (ss a) (ss b) (ss c))].
Proof. reflexivity. Qed.
Lemma small1 a : Rabs a <= 101/100 -> Rabs a <= 1000. Proof. lra. Qed.
Lemma prod_abs a b : Rabs a <= 101/100 -> Rabs b <= 101/100 -> Rabs (a * b) <= 103/100.
Proof. intros A B. rewrite Rabs_mult. pose proof (Rabs_pos a). pose proof (Rabs_pos b). nra. Qed.
Lemma prod_3 (a b c : f32) : finite a -> finite b -> finite c -> Rabs (b2r a) <= 101/100 -> Rabs (b2r b) <= 101/100 -> Rabs (b2r c) <= 101/100 ->
  ab (2001/1000 * u * Rabs (b2r a * b2r b * b2r c) + 3 * tiny) (Bmult mode_NE (Bmult mode_NE a b) c) (b2r a * b2r b * b2r c).
Proof.
  intros Fa Fb Fc A B C. pose proof u_val as Hu. pose proof tiny_small as Ht. pose proof (prod_abs _ _ A B) as AB. pose proof (Rabs_pos (b2r a * b2r b)) as P. pose proof (Rabs_pos (b2r c)) as PC.
  assert (H1 : ab (0 + u * Rabs (b2r a * b2r b) + tiny) (Bmult mode_NE a b) (b2r a * b2r b)) by (apply (ab_mul 0 0); try apply ab_exact; trivial; try lra).
  set (m := Bmult mode_NE a b) in *. set (e := 0 + u * Rabs (b2r a * b2r b) + tiny) in *. assert (E : 0 <= e <= 2 * u) by (unfold e; split; nra).
  eapply ab_weak; [|apply (ab_mul e 0 m c (b2r a * b2r b) (b2r c) (e * Rabs (b2r c)) (Rabs (b2r a * b2r b * b2r c) + e * Rabs (b2r c)) H1); try apply ab_exact; trivial; try lra].
  rewrite (Rabs_mult (b2r a * b2r b) (b2r c)). set (p := Rabs (b2r a * b2r b)) in *. set (z := Rabs (b2r c)) in *. clearbody m p z. unfold e. assert (0 <= p * z) by nra. assert (0 <= u * (p * z)) by (apply Rmult_le_pos; lra). assert (0 <= tiny * z) by (apply Rmult_le_pos; lra).
  assert (u * (u * (p * z)) <= / 16777216 * (u * (p * z))) by (apply Rmult_le_compat_r; lra). assert (tiny * z <= tiny * (101/100)) by (apply Rmult_le_compat_l; lra). assert (u * (tiny * z) <= / 16777216 * (tiny * z)) by (apply Rmult_le_compat_r; lra). lra.
Qed.
Lemma two_terms a b c a' b' c' : a * a + a' * a' <= 101/100 -> b * b + b' * b' <= 101/100 -> Rabs c <= 101/100 -> Rabs c' <= 101/100 -> Rabs (a * b * c) + Rabs (a' * b' * c') <= 103/100.
Proof.
  intros A B C C'. rewrite !(Rabs_mult _ c), !(Rabs_mult _ c'). pose proof (Rabs_pos (a * b)). pose proof (Rabs_pos (a' * b')). pose proof (Rabs_pos c). pose proof (Rabs_pos c').
  assert (Rabs (a * b) <= (a * a + b * b) / 2). { apply Rabs_le. pose proof (Rle_0_sqr (a - b)). pose proof (Rle_0_sqr (a + b)). unfold Rsqr in *. lra. }
  assert (Rabs (a' * b') <= (a' * a' + b' * b') / 2). { apply Rabs_le. pose proof (Rle_0_sqr (a' - b')). pose proof (Rle_0_sqr (a' + b')). unfold Rsqr in *. lra. }
  assert (Rabs (a * b) * Rabs c <= Rabs (a * b) * (101/100)) by (apply Rmult_le_compat_l; assumption). assert (Rabs (a' * b') * Rabs c' <= Rabs (a' * b') * (101/100)) by (apply Rmult_le_compat_l; assumption). lra.
Qed.
Definition small_f (x : f32) : Prop := finite x /\ Rabs (b2r x) <= 101/100.
Lemma sum_terms (x y : f32) X Y : ab (2001/1000 * u * Rabs X + 3 * tiny) x X -> ab (2001/1000 * u * Rabs Y + 3 * tiny) y Y -> Rabs X + Rabs Y <= 103/100 ->
  ab (32/10 * u) (Bplus mode_NE x y) (X + Y) /\ ab (32/10 * u) (Bminus mode_NE x y) (X - Y).
Proof.
  intros HX HY S. pose proof u_val as Hu. pose proof tiny_small as Ht. pose proof (Rabs_pos X) as PX. pose proof (Rabs_pos Y) as PY.
  assert (Q : u * (Rabs X + Rabs Y) <= u * (103/100)) by (apply Rmult_le_compat_l; lra). assert (PQ : 0 <= u * Rabs X) by nra. assert (PR : 0 <= u * Rabs Y) by nra.
  set (ex := 2001/1000 * u * Rabs X + 3 * tiny) in *. set (ey := 2001/1000 * u * Rabs Y + 3 * tiny) in *. assert (EX : 0 <= ex <= / 1000) by (unfold ex; lra). assert (EY : 0 <= ey <= / 1000) by (unfold ey; lra).
  split; (eapply ab_weak; [|first [apply (ab_add ex ey x y X Y (104/100) HX HY)|apply (ab_sub ex ey x y X Y (104/100) HX HY)]]); try lra.
  - unfold ex, ey. lra.
  - pose proof (Rabs_triang X Y). lra.
  - unfold ex, ey. lra.
  - pose proof (Rabs_triang X (- Y)) as T. rewrite Rabs_Ropp in T. change (X + - Y) with (X - Y) in T. lra.
Qed.
Lemma tri_round (cx sx cy sy cz sz : f32) : small_f cx -> small_f sx -> small_f cy -> small_f sy -> small_f cz -> small_f sz ->
  b2r cx * b2r cx + b2r sx * b2r sx <= 101/100 -> b2r cy * b2r cy + b2r sy * b2r sy <= 101/100 ->
  let m x y z := Bmult mode_NE (Bmult mode_NE x y) z in
  all_close (32/10 * u) [Bminus mode_NE (m sx cy cz) (m cx sy sz); Bplus mode_NE (m cx sy cz) (m sx cy sz); Bminus mode_NE (m cx cy sz) (m sx sy cz); Bplus mode_NE (m cx cy cz) (m sx sy sz)]
    (tri (b2r cx) (b2r sx) (b2r cy) (b2r sy) (b2r cz) (b2r sz)).
Proof.
  intros [F1 K1] [F2 K2] [F3 K3] [F4 K4] [F5 K5] [F6 K6] N1 N2 m. unfold all_close, tri. rewrite (Rplus_comm (b2r cx * _)) in N1.
  assert (N1' : b2r cx * b2r cx + b2r sx * b2r sx <= 101/100) by lra. assert (N2' : b2r sy * b2r sy + b2r cy * b2r cy <= 101/100) by lra.
  pose proof (prod_3 sx cy cz F2 F3 F5 K2 K3 K5) as P1. pose proof (prod_3 cx sy sz F1 F4 F6 K1 K4 K6) as P2. pose proof (prod_3 cx sy cz F1 F4 F5 K1 K4 K5) as P3. pose proof (prod_3 sx cy sz F2 F3 F6 K2 K3 K6) as P4.
  pose proof (prod_3 cx cy sz F1 F3 F6 K1 K3 K6) as P5. pose proof (prod_3 sx sy cz F2 F4 F5 K2 K4 K5) as P6. pose proof (prod_3 cx cy cz F1 F3 F5 K1 K3 K5) as P7. pose proof (prod_3 sx sy sz F2 F4 F6 K2 K4 K6) as P8.
  apply Forall2_cons; [apply (sum_terms _ _ _ _ P1 P2); now apply two_terms|]. apply Forall2_cons; [apply (sum_terms _ _ _ _ P3 P4); now apply two_terms|].
  apply Forall2_cons; [apply (sum_terms _ _ _ _ P5 P6); now apply two_terms|]. apply Forall2_cons; [apply (sum_terms _ _ _ _ P7 P8); now apply two_terms|]. apply Forall2_nil.
Qed.
Lemma half_libm L k (a : f32) : angles_accurate L k -> 0 <= k <= 16 -> between (-4) 4 a -> let h := Bmult mode_NE a (f32_lit 5 (-1)) in
  small_f (l_cos L h) /\ small_f (l_sin L h) /\ b2r (l_cos L h) * b2r (l_cos L h) + b2r (l_sin L h) * b2r (l_sin L h) <= 101/100 /\
  len2 (b2r (l_cos L h) - cos (b2r a / 2)) (b2r (l_sin L h) - sin (b2r a / 2)) <= 1415/1000 * k * u + 2 * tiny.
Proof.
  intros [HL _] Hk [Fa Ra] h. pose proof u_val as Hu. pose proof tiny_small as Ht. assert (A4 : Rabs (b2r a) <= 4) by (apply Rabs_le; lra).
  destruct (ab_half 0 a (b2r a) (ab_exact a Fa)) as [Fh Eh]; try lra. fold h in Fh, Eh. assert (RH : -2 <= b2r h <= 2).
  { assert (W : within 2 a) by (split; [exact Fa|exact A4]). assert (W5 : within (-1) (f32_lit 5 (-1))) by (split; [reflexivity|]; assert (H5 : b2r (f32_lit 5 (-1)) = / 2) by (unfold f32_lit; vm_compute; lra); rewrite H5, Rabs_pos_eq by lra; change (p2 (-1)) with (/ 2); lra).
    destruct (w_mul 2 (-1) 1 a _ W W5) as [[_ G] _]; try lia. fold h in G. change (p2 1) with 2 in G. apply Rabs_le_inv in G. lra. }
  destruct (HL h (conj Fh RH)) as [[Fs Es] [Fc Ec]]. set (c := b2r (l_cos L h)) in *. set (s := b2r (l_sin L h)) in *.
  assert (KU : 0 <= k * u <= / 1000000) by (assert (k * u <= 16 * / 16777216) by (apply Rmult_le_compat; lra); assert (0 <= k * u) by (apply Rmult_le_pos; lra); lra). pose proof (COS_bound (b2r h)) as CB. pose proof (SIN_bound (b2r h)) as SB.
  assert (LN : len2 (c - cos (b2r h)) (s - sin (b2r h)) <= 1415/1000 * k * u).
  { apply len2_le; [lra|]. rewrite <- (abs_sq (c - _)), <- (abs_sq (s - _)). assert (Rabs (c - cos (b2r h)) * Rabs (c - cos (b2r h)) <= (k * u) * (k * u)) by (apply Rmult_le_compat; trivial; apply Rabs_pos).
    assert (Rabs (s - sin (b2r h)) * Rabs (s - sin (b2r h)) <= (k * u) * (k * u)) by (apply Rmult_le_compat; trivial; apply Rabs_pos). set (ku := k * u) in *. replace (1415/1000 * k * u) with (1415/1000 * ku) by (unfold ku; ring). nra. }
  pose proof (len2_near _ _ _ _ _ LN (len2_trig (b2r h))) as N. pose proof (len2_nn c s) as PN. pose proof (len2_sq c s) as SQ.
  assert (AC : Rabs c <= 101/100) by (apply Rabs_le_inv in Ec; apply Rabs_le; lra). assert (AS : Rabs s <= 101/100) by (apply Rabs_le_inv in Es; apply Rabs_le; lra).
  split; [split; [exact Fc|exact AC]|]. split; [split; [exact Fs|exact AS]|]. split; [rewrite <- SQ; nra|].
  replace (c - cos (b2r a / 2)) with ((c - cos (b2r h)) + (cos (b2r h) - cos (b2r a / 2))) by ring. replace (s - sin (b2r a / 2)) with ((s - sin (b2r h)) + (sin (b2r h) - sin (b2r a / 2))) by ring.
  apply len2_tri; [exact LN|]. eapply Rle_trans; [apply chord_arc|]. lra.
Qed.
Lemma each_of_norm4 A B d : length A = 4%nat -> length B = 4%nat -> norm (vsub A B) <= d -> Forall2 (fun a b => Rabs (a - b) <= d) A B.
Proof.
  intros HA HB H. list4 A. list4 B. assert (K : forall x, In x (vsub [a; a0; a1; a2] [a3; a4; a5; a6]) -> Rabs x <= d) by (intros x I; eapply Rle_trans; [apply (comp_norm4 (vsub [a; a0; a1; a2] [a3; a4; a5; a6])); [reflexivity|exact I]|exact H]).
  unfold vsub in K. cbn in K. repeat (apply Forall2_cons; [apply K; tauto|]). apply Forall2_nil.
Qed.
(** For angles in [-4, 4] and a C library whose sinf and cosf are within k <= 16 half-ulps of 1, the components of quat(vec3) are within 4.3k + 4
    half-ulps of 1 of the rotation about x, then y, then z. *)
Lemma C92_quat_pf : forall (L : Libm) (k : R) (p y r : f32), angles_accurate L k -> 0 <= k <= 16 ->
  between (-4) 4 p -> between (-4) 4 y -> between (-4) 4 r ->
  all_close ((43/10 * k + 4) * ulp_half) (lq (quat_euler (F32 L) (V3 p y r))) (lq (of_angles (b2r p) (b2r y) (b2r r))).
Proof.
  intros L k p y r HL Hk Hp Hy Hr. pose proof u_val as Hu. pose proof tiny_small as Ht. rewrite qe_shape. cbv zeta beta.
  destruct (half_libm L k p HL Hk Hp) as (Cp & Sp & Np & Ep). destruct (half_libm L k y HL Hk Hy) as (Cy & Sy & Ny & Ey). destruct (half_libm L k r HL Hk Hr) as (Cr & Sr & Nr & Er).
  rewrite of_angles_tri. eapply all_close_weak; [|eapply all_close_shift; [apply tri_round; assumption|apply each_of_norm4; [reflexivity|reflexivity|apply (tri_change _ _ _ _ _ _ _ _ _ _ _ _ _ _ _ (len2_trig _) (len2_trig _) (len2_trig _) Ep Ey Er)]]].
  set (x := 1415/1000 * k * u + 2 * tiny). assert (KU : 0 <= k * u <= / 1000000) by (assert (k * u <= 16 * / 16777216) by (apply Rmult_le_compat; lra); assert (0 <= k * u) by (apply Rmult_le_pos; lra); lra). assert (X : 0 <= x <= / 100000) by (unfold x; lra).
  apply Rle_trans with (32/10 * u + 3004/1000 * x); [nra|]. unfold x. lra.
Qed.

(** ** eulerAngles *)
Lemma qe_real p y r : lq (quat_euler RS (V3 p y r)) = lq (of_angles p y r).
Proof.
  rewrite of_angles_tri. assert (H : forall a, a * (5 / 10) = a / 2) by (intros; field).
  change (lq (quat_euler RS (V3 p y r))) with (tri (cos (p * (5 / 10))) (sin (p * (5 / 10))) (cos (y * (5 / 10))) (sin (y * (5 / 10))) (cos (r * (5 / 10))) (sin (r * (5 / 10)))). now rewrite !H.
Qed.
Lemma sq_near (a : f32) : finite a -> Rabs (b2r a) <= 101/100 -> ab (u * (b2r a * b2r a) + tiny) (Bmult mode_NE a a) (b2r a * b2r a).
Proof.
  intros F A. assert (P : 0 <= b2r a * b2r a) by apply Rle_0_sqr. eapply ab_weak; [|apply (ab_mul 0 0 a a _ _ 0 (b2r a * b2r a)); try apply ab_exact; trivial; try lra; rewrite Rabs_pos_eq by exact P; lra]. lra.
Qed.
Lemma pr_near (a b : f32) : finite a -> finite b -> Rabs (b2r a) <= 101/100 -> Rabs (b2r b) <= 101/100 -> ab (u * Rabs (b2r a * b2r b) + tiny) (Bmult mode_NE a b) (b2r a * b2r b).
Proof.
  intros F G A B. eapply ab_weak; [|apply (ab_mul 0 0 a b _ _ 0 (Rabs (b2r a * b2r b))); try apply ab_exact; trivial; try lra]. lra.
Qed.
Lemma abs_of a b : - b <= a <= b -> Rabs a <= b. Proof. apply Rabs_le. Qed.
Lemma squares4 (a b c d : f32) : small_f a -> small_f b -> small_f c -> small_f d -> b2r a * b2r a + b2r b * b2r b + b2r c * b2r c + b2r d * b2r d <= 101/100 ->
  ab (41/10 * u) (Bplus mode_NE (Bminus mode_NE (Bminus mode_NE (Bmult mode_NE a a) (Bmult mode_NE b b)) (Bmult mode_NE c c)) (Bmult mode_NE d d)) (b2r a * b2r a - b2r b * b2r b - b2r c * b2r c + b2r d * b2r d) /\
  ab (41/10 * u) (Bminus mode_NE (Bminus mode_NE (Bplus mode_NE (Bmult mode_NE a a) (Bmult mode_NE b b)) (Bmult mode_NE c c)) (Bmult mode_NE d d)) (b2r a * b2r a + b2r b * b2r b - b2r c * b2r c - b2r d * b2r d).
Proof.
  intros [Fa Ka] [Fb Kb] [Fc Kc] [Fd Kd] N. pose proof u_val as Hu. pose proof tiny_small as Ht.
  pose proof (sq_near a Fa Ka) as Sa. pose proof (sq_near b Fb Kb) as Sb. pose proof (sq_near c Fc Kc) as Sc. pose proof (sq_near d Fd Kd) as Sd.
  assert (Pa : 0 <= b2r a * b2r a) by apply Rle_0_sqr. assert (Pb : 0 <= b2r b * b2r b) by apply Rle_0_sqr. assert (Pc : 0 <= b2r c * b2r c) by apply Rle_0_sqr. assert (Pd : 0 <= b2r d * b2r d) by apply Rle_0_sqr.
  set (A := b2r a * b2r a) in *. set (B := b2r b * b2r b) in *. set (C := b2r c * b2r c) in *. set (D := b2r d * b2r d) in *. clearbody A B C D.
  assert (UA : 0 <= u * A <= u * (101/100)) by (split; [apply Rmult_le_pos; lra|apply Rmult_le_compat_l; lra]). assert (UB : 0 <= u * B <= u * (101/100)) by (split; [apply Rmult_le_pos; lra|apply Rmult_le_compat_l; lra]).
  assert (UC : 0 <= u * C <= u * (101/100)) by (split; [apply Rmult_le_pos; lra|apply Rmult_le_compat_l; lra]). assert (UD : 0 <= u * D <= u * (101/100)) by (split; [apply Rmult_le_pos; lra|apply Rmult_le_compat_l; lra]).
  assert (US : u * A + u * B + u * C + u * D <= u * (101/100)) by (rewrite <- !Rmult_plus_distr_l; apply Rmult_le_compat_l; lra).
  split.
  - assert (H1 : ab (u * A + tiny + (u * B + tiny) + u * (102/100) + tiny) (Bminus mode_NE (Bmult mode_NE a a) (Bmult mode_NE b b)) (A - B)) by (apply ab_sub; trivial; try (apply abs_of; lra); try lra; assert (Rabs (A - B) <= 101/100) by (apply abs_of; lra); lra).
    assert (Z : Rabs (A - B - C) <= 101/100) by (apply abs_of; lra). pose proof (ab_sub _ _ _ _ _ _ (102/100) H1 Sc ltac:(apply abs_of; lra) ltac:(apply abs_of; lra) ltac:(lra) ltac:(lra) ltac:(lra)) as H2. clear H1 Z. rename H2 into H1.
    assert (Z : Rabs (A - B - C + D) <= 101/100) by (apply abs_of; lra). pose proof (ab_add _ _ _ _ _ _ (102/100) H1 Sd ltac:(apply abs_of; lra) ltac:(apply abs_of; lra) ltac:(lra) ltac:(lra) ltac:(lra)) as H2. clear H1 Z. rename H2 into H1.
    eapply ab_weak; [|exact H1]. lra.
  - assert (H1 : ab (u * A + tiny + (u * B + tiny) + u * (102/100) + tiny) (Bplus mode_NE (Bmult mode_NE a a) (Bmult mode_NE b b)) (A + B)) by (apply ab_add; trivial; try (apply abs_of; lra); try lra; assert (Rabs (A + B) <= 101/100) by (apply abs_of; lra); lra).
    assert (Z : Rabs (A + B - C) <= 101/100) by (apply abs_of; lra). pose proof (ab_sub _ _ _ _ _ _ (102/100) H1 Sc ltac:(apply abs_of; lra) ltac:(apply abs_of; lra) ltac:(lra) ltac:(lra) ltac:(lra)) as H2. clear H1 Z. rename H2 into H1.
    assert (Z : Rabs (A + B - C - D) <= 101/100) by (apply abs_of; lra). pose proof (ab_sub _ _ _ _ _ _ (102/100) H1 Sd ltac:(apply abs_of; lra) ltac:(apply abs_of; lra) ltac:(lra) ltac:(lra) ltac:(lra)) as H2. clear H1 Z. rename H2 into H1.
    eapply ab_weak; [|exact H1]. lra.
Qed.
Lemma product_pair (a b c d : f32) : small_f a -> small_f b -> small_f c -> small_f d -> b2r a * b2r a + b2r b * b2r b + b2r c * b2r c + b2r d * b2r d <= 101/100 ->
  ab (32/10 * u) (Bmult mode_NE (f32_lit 2 0) (Bplus mode_NE (Bmult mode_NE a b) (Bmult mode_NE c d))) (2 * (b2r a * b2r b + b2r c * b2r d)) /\
  ab (32/10 * u) (Bmult mode_NE (Bopp (f32_lit 2 0)) (Bminus mode_NE (Bmult mode_NE a b) (Bmult mode_NE c d))) (- 2 * (b2r a * b2r b - b2r c * b2r d)).
Proof.
  intros [Fa Ka] [Fb Kb] [Fc Kc] [Fd Kd] N. pose proof u_val as Hu. pose proof tiny_small as Ht. pose proof (pr_near a b Fa Fb Ka Kb) as P. pose proof (pr_near c d Fc Fd Kc Kd) as Q.
  assert (H2 : ab 0 (f32_lit 2 0) 2) by (assert (E : b2r (f32_lit 2 0) = 2) by (unfold f32_lit; vm_compute; lra); rewrite <- E; apply ab_exact; reflexivity).
  assert (B1 : Rabs (b2r a * b2r b) + Rabs (b2r c * b2r d) <= 101/200).
  { assert (Rabs (b2r a * b2r b) <= (b2r a * b2r a + b2r b * b2r b) / 2) by (apply Rabs_le; pose proof (Rle_0_sqr (b2r a - b2r b)); pose proof (Rle_0_sqr (b2r a + b2r b)); unfold Rsqr in *; lra).
    assert (Rabs (b2r c * b2r d) <= (b2r c * b2r c + b2r d * b2r d) / 2) by (apply Rabs_le; pose proof (Rle_0_sqr (b2r c - b2r d)); pose proof (Rle_0_sqr (b2r c + b2r d)); unfold Rsqr in *; lra). lra. }
  set (A := b2r a * b2r b) in *. set (B := b2r c * b2r d) in *. clearbody A B. pose proof (Rabs_pos A) as PA. pose proof (Rabs_pos B) as PB.
  assert (UA : 0 <= u * Rabs A) by (apply Rmult_le_pos; lra). assert (UB : 0 <= u * Rabs B) by (apply Rmult_le_pos; lra). assert (US : u * Rabs A + u * Rabs B <= u * (101/200)) by (rewrite <- Rmult_plus_distr_l; apply Rmult_le_compat_l; lra).
  assert (T1 : Rabs (A + B) <= 101/200) by (pose proof (Rabs_triang A B); lra). assert (T2 : Rabs (A - B) <= 101/200) by (pose proof (Rabs_triang A (- B)) as T; rewrite Rabs_Ropp in T; unfold Rminus; lra).
  assert (R2 : Rabs 2 <= 1000) by (rewrite Rabs_pos_eq by lra; lra). split.
  - pose proof (ab_add _ _ _ _ _ _ (51/100) P Q ltac:(lra) ltac:(lra) ltac:(lra) ltac:(lra) ltac:(lra)) as H1. apply (ab_weak _ (102/100 * u)) in H1; [|lra].
    eapply ab_weak; [|apply (ab_mul 0 (102/100 * u) _ _ 2 (A + B) (204/100 * u) (102/100) H2 H1); try lra; try (rewrite (Rabs_pos_eq 2) by lra; lra)]; [lra|].
    rewrite Rabs_mult, (Rabs_pos_eq 2) by lra. lra.
  - pose proof (ab_sub _ _ _ _ _ _ (51/100) P Q ltac:(lra) ltac:(lra) ltac:(lra) ltac:(lra) ltac:(lra)) as H1. apply (ab_weak _ (102/100 * u)) in H1; [|lra].
    assert (R2' : Rabs (-2) = 2) by (rewrite Rabs_left by lra; lra).
    eapply ab_weak; [|apply (ab_mul 0 (102/100 * u) _ _ (-2) (A - B) (204/100 * u) (102/100) (ab_opp _ _ _ H2) H1); try lra; try (rewrite R2'; lra)]; [lra|].
    rewrite Rabs_mult, R2'. lra.
Qed.
(** from the nearby binary32 quaternion to the exact one *)
Lemma sq_change a A d : Rabs (a - A) <= d -> Rabs (a * a - A * A) <= d * (2 * Rabs A) + d * d.
Proof.
  intros H. replace (a * a - A * A) with ((a - A) * (2 * A) + (a - A) * (a - A)) by ring. eapply Rle_trans; [apply Rabs_triang|]. rewrite !Rabs_mult, (Rabs_pos_eq 2) by lra. pose proof (Rabs_pos (a - A)). pose proof (Rabs_pos A). nra.
Qed.
Lemma pr_change a A b B d : Rabs (a - A) <= d -> Rabs (b - B) <= d -> Rabs (a * b - A * B) <= d * (Rabs A + Rabs B) + d * d.
Proof.
  intros H K. replace (a * b - A * B) with ((a - A) * B + (b - B) * A + (a - A) * (b - B)) by ring. eapply Rle_trans; [eapply Rle_trans; [apply Rabs_triang|apply Rplus_le_compat_r, Rabs_triang]|].
  rewrite !Rabs_mult. pose proof (Rabs_pos (a - A)). pose proof (Rabs_pos (b - B)). pose proof (Rabs_pos A). pose proof (Rabs_pos B). nra.
Qed.
Lemma sum_abs4 x y z w : x * x + y * y + z * z + w * w = 1 -> Rabs x + Rabs y + Rabs z + Rabs w <= 2.
Proof.
  intros H. rewrite <- (abs_sq x), <- (abs_sq y), <- (abs_sq z), <- (abs_sq w) in H. revert H. generalize (Rabs x) (Rabs y) (Rabs z) (Rabs w). intros a b c d H.
  pose proof (Rle_0_sqr (a - / 2)). pose proof (Rle_0_sqr (b - / 2)). pose proof (Rle_0_sqr (c - / 2)). pose proof (Rle_0_sqr (d - / 2)). unfold Rsqr in *. lra.
Qed.

Lemma div_le a b c : 0 < b -> a <= c * b -> a / b <= c.
Proof. intros P H. apply Rmult_le_reg_r with b; [exact P|]. replace (a / b * b) with a by (field; lra). exact H. Qed.
Lemma le_div a b c : 0 < b -> c * b <= a -> c <= a / b.
Proof. intros P H. apply Rmult_le_reg_r with b; [exact P|]. replace (a / b * b) with a by (field; lra). exact H. Qed.

Lemma chord_len2 a b : chord a b = len2 (cos a - cos b) (sin a - sin b). Proof. reflexivity. Qed.
Lemma chord_tri a t b e f : chord a t <= e -> chord t b <= f -> chord a b <= e + f.
Proof.
  rewrite !chord_len2. intros H K. replace (cos a - cos b) with ((cos a - cos t) + (cos t - cos b)) by ring. replace (sin a - sin b) with ((sin a - sin t) + (sin t - sin b)) by ring. now apply len2_tri.
Qed.
Lemma clamp_near L (x : f32) Y e : ab e x Y -> -1 <= Y <= 1 -> let c := clamp_f (F32 L) x (Bopp (f32_lit 1 0)) (f32_lit 1 0) in finite c /\ -1 <= b2r c <= 1 /\ Rabs (b2r c - Y) <= e.
Proof.
  intros [F K] HY c. assert (V1 : b2r (f32_lit 1 0) = 1) by (unfold f32_lit; vm_compute; lra). assert (VM : b2r (Bopp (f32_lit 1 0)) = -1) by (unfold f32_lit; vm_compute; lra).
  assert (F1 : finite (f32_lit 1 0)) by reflexivity. assert (FM : finite (Bopp (f32_lit 1 0))) by reflexivity.
  change c with (let m := if Bltb x (Bopp (f32_lit 1 0)) then Bopp (f32_lit 1 0) else x in if Bltb (f32_lit 1 0) m then f32_lit 1 0 else m). cbv zeta. revert V1 VM F1 FM. generalize (f32_lit 1 0). clear c. intros p1 V1 VM F1 FM. set (m1 := Bopp p1) in *. clearbody m1. apply Rabs_le_inv in K.
  rewrite (bltb_b2r x m1) by assumption. rewrite VM. case Rlt_bool_spec; intros A.
  - rewrite (bltb_b2r p1 m1), VM, V1 by assumption. rewrite Rlt_bool_false by lra. split; [exact FM|]. rewrite VM. split; [lra|]. apply Rabs_le. lra.
  - rewrite (bltb_b2r p1 x), V1 by assumption. case Rlt_bool_spec; intros B.
    + split; [exact F1|]. rewrite V1. split; [lra|]. apply Rabs_le. lra.
    + split; [exact F|]. split; [lra|]. apply Rabs_le. lra.
Qed.
Lemma tri_flip g h j cx sx cy sy cz sz : tri (g * cx) (g * sx) (h * cy) (h * sy) (j * cz) (j * sz) = map (Rmult (g * h * j)) (tri cx sx cy sy cz sz).
Proof. unfold tri. cbn. lring. Qed.
Lemma all_close_tri e f A B C : length B = 4%nat -> length C = 4%nat -> all_close e A B -> norm (vsub B C) <= f -> all_close (e + f) A C.
Proof. intros LB LC H K. eapply all_close_shift; [exact H|now apply each_of_norm4]. Qed.

Section Angles.
Variables (L : Libm) (k d s : R) (q : quat f32) (Q : quat R).
Hypothesis HL : angles_accurate L k.
Hypothesis Hk : 0 <= k <= 16.
Hypothesis HQ : unit_quat Q.
Hypothesis Hd : 0 <= d <= s / 4000.
Hypothesis Hs : / 1000 <= s.
Hypothesis HC : all_close d (lq q) (lq Q).
Hypothesis HG : s * s <= 1 - e_sy Q * e_sy Q.
Let E := 401/100 * d + 41/10 * u.
Lemma s_1 : s <= 1. Proof. pose proof (Rle_0_sqr (e_sy Q)) as P. unfold Rsqr in P. nra. Qed.
Lemma d_small : d <= / 4000. Proof. pose proof s_1. lra. Qed.
Lemma comps : small_f (qx q) /\ small_f (qy q) /\ small_f (qz q) /\ small_f (qw q) /\
  Rabs (b2r (qx q) - qx Q) <= d /\ Rabs (b2r (qy q) - qy Q) <= d /\ Rabs (b2r (qz q) - qz Q) <= d /\ Rabs (b2r (qw q) - qw Q) <= d /\
  qx Q * qx Q + qy Q * qy Q + qz Q * qz Q + qw Q * qw Q = 1 /\ Rabs (qx Q) + Rabs (qy Q) + Rabs (qz Q) + Rabs (qw Q) <= 2 /\
  b2r (qx q) * b2r (qx q) + b2r (qy q) * b2r (qy q) + b2r (qz q) * b2r (qz q) + b2r (qw q) * b2r (qw q) <= 101/100.
Proof.
  pose proof HC as H. pose proof HQ as U. apply unit_quat_eq in U. pose proof d_small as DS. destruct Hd as [D0 _]. clear - H U DS D0. destruct q as [x y z w]. destruct Q as [X Y Z W]. unfold all_close, lq in H. cbn [qx qy qz qw] in *.
  apply Forall2_cons_iff in H as [[F1 H1] H]. apply Forall2_cons_iff in H as [[F2 H2] H]. apply Forall2_cons_iff in H as [[F3 H3] H]. apply Forall2_cons_iff in H as [[F4 H4] _].
  assert (S : Rabs X + Rabs Y + Rabs Z + Rabs W <= 2) by (apply sum_abs4; lra). pose proof (sq_change _ _ _ H1) as Q1. pose proof (sq_change _ _ _ H2) as Q2. pose proof (sq_change _ _ _ H3) as Q3. pose proof (sq_change _ _ _ H4) as Q4.
  assert (B : forall a A, Rabs (a - A) <= d -> A * A <= 1 -> Rabs a <= 101/100).
  { intros a A K KA. replace a with (A + (a - A)) by ring. eapply Rle_trans; [apply Rabs_triang|]. assert (Rabs A <= 1) by (apply Rabs_le; nra). lra. }
  pose proof (Rle_0_sqr X) as P1. pose proof (Rle_0_sqr Y) as P2. pose proof (Rle_0_sqr Z) as P3. pose proof (Rle_0_sqr W) as P4. unfold Rsqr in *.
  split; [split; [exact F1|apply (B _ X); trivial; lra]|]. split; [split; [exact F2|apply (B _ Y); trivial; lra]|]. split; [split; [exact F3|apply (B _ Z); trivial; lra]|]. split; [split; [exact F4|apply (B _ W); trivial; lra]|].
  repeat (split; [assumption|]). apply Rabs_le_inv in Q1, Q2, Q3, Q4. assert (d * (Rabs X + Rabs Y + Rabs Z + Rabs W) <= d * 2) by (apply Rmult_le_compat_l; lra). assert (d * d <= / 4000 * d) by nra. lra.
Qed.
Definition f_sp : f32 := Bmult mode_NE (f32_lit 2 0) (Bplus mode_NE (Bmult mode_NE (qy q) (qz q)) (Bmult mode_NE (qw q) (qx q))).
Definition f_cp : f32 := Bplus mode_NE (Bminus mode_NE (Bminus mode_NE (Bmult mode_NE (qw q) (qw q)) (Bmult mode_NE (qx q) (qx q))) (Bmult mode_NE (qy q) (qy q))) (Bmult mode_NE (qz q) (qz q)).
Definition f_sy : f32 := Bmult mode_NE (Bopp (f32_lit 2 0)) (Bminus mode_NE (Bmult mode_NE (qx q) (qz q)) (Bmult mode_NE (qw q) (qy q))).
Definition f_sr : f32 := Bmult mode_NE (f32_lit 2 0) (Bplus mode_NE (Bmult mode_NE (qx q) (qy q)) (Bmult mode_NE (qw q) (qz q))).
Definition f_cr : f32 := Bminus mode_NE (Bminus mode_NE (Bplus mode_NE (Bmult mode_NE (qw q) (qw q)) (Bmult mode_NE (qx q) (qx q))) (Bmult mode_NE (qy q) (qy q))) (Bmult mode_NE (qz q) (qz q)).
Lemma shift e c x X t : ab e c x -> Rabs (x - X) <= t -> ab (e + t) c X.
Proof. intros [F K] H. split; [exact F|]. replace (b2r c - X) with ((b2r c - x) + (x - X)) by ring. eapply Rle_trans; [apply Rabs_triang|]. lra. Qed.
Lemma entries : ab E f_sp (e_sp Q) /\ ab E f_cp (e_cp Q) /\ ab E f_sy (e_sy Q) /\ ab E f_sr (e_sr Q) /\ ab E f_cr (e_cr Q).
Proof.
  destruct comps as (Cx & Cy & Cz & Cw & Dx & Dy & Dz & Dw & U & S & N). pose proof u_val as Hu. pose proof d_small as DS. destruct Hd as [D0 _].
  pose proof (sq_change _ _ _ Dx) as Sx. pose proof (sq_change _ _ _ Dy) as Sy. pose proof (sq_change _ _ _ Dz) as Sz. pose proof (sq_change _ _ _ Dw) as Sw.
  pose proof (pr_change _ _ _ _ _ Dy Dz) as Pyz. pose proof (pr_change _ _ _ _ _ Dw Dx) as Pwx. pose proof (pr_change _ _ _ _ _ Dx Dz) as Pxz. pose proof (pr_change _ _ _ _ _ Dw Dy) as Pwy. pose proof (pr_change _ _ _ _ _ Dx Dy) as Pxy. pose proof (pr_change _ _ _ _ _ Dw Dz) as Pwz.
  assert (S2 : d * (Rabs (qx Q) + Rabs (qy Q) + Rabs (qz Q) + Rabs (qw Q)) <= d * 2) by (apply Rmult_le_compat_l; lra). assert (DD : 4 * (d * d) <= / 100 * d) by nra.
  apply Rabs_le_inv in Sx, Sy, Sz, Sw, Pyz, Pwx, Pxz, Pwy, Pxy, Pwz.
  destruct (product_pair (qy q) (qz q) (qw q) (qx q)) as [K1 _]; trivial; [lra|]. destruct (squares4 (qw q) (qx q) (qy q) (qz q)) as [K2 K5]; trivial; [lra|]. destruct (product_pair (qx q) (qz q) (qw q) (qy q)) as [_ K3]; trivial; [lra|]. destruct (product_pair (qx q) (qy q) (qw q) (qz q)) as [K4 _]; trivial; [lra|].
  unfold E, e_sp, e_cp, e_sy, e_sr, e_cr. repeat split; try apply K1; try apply K2; try apply K3; try apply K4; try apply K5;
  match goal with |- Rabs (b2r ?c - ?X) <= _ => idtac end.
  - eapply Rle_trans; [apply (shift _ _ _ _ (401/100 * d) K1); apply abs_of; lra|lra].
  - eapply Rle_trans; [apply (shift _ _ _ _ (401/100 * d) K2); apply abs_of; lra|lra].
  - eapply Rle_trans; [apply (shift _ _ _ _ (401/100 * d) K3); apply abs_of; lra|lra].
  - eapply Rle_trans; [apply (shift _ _ _ _ (401/100 * d) K4); apply abs_of; lra|lra].
  - eapply Rle_trans; [apply (shift _ _ _ _ (401/100 * d) K5); apply abs_of; lra|lra].
Qed.
Lemma E_small : 0 <= E <= s / 700.
Proof. pose proof u_val as Hu. unfold E. lra. Qed.
Lemma atan2_near (fy fx : f32) Y X : ab E fy Y -> ab E fx X -> s * s <= X * X + Y * Y ->
  (b2r fx <> 0 \/ b2r fy <> 0) /\ between (-4) 4 (l_atan2 L fy fx) /\ chord (b2r (l_atan2 L fy fx)) (Ratan2 Y X) <= k * u + 28287/10000 * (E / s) /\
  exists g, (g = 1 \/ g = -1) /\ len2 (cos (b2r (l_atan2 L fy fx) / 2) - g * cos (Ratan2 Y X / 2)) (sin (b2r (l_atan2 L fy fx) / 2) - g * sin (Ratan2 Y X / 2)) <= k * u / 2 + 2001/1000 * (E / s).
Proof.
  intros [Fy Ky] [Fx Kx] HR. pose proof u_val as Hu. pose proof E_small as ES. pose proof s_1 as S1. set (R0 := len2 X Y). assert (R0s : s <= R0). { unfold R0. rewrite <- (sqrt_square s) by lra. unfold len2. now apply sqrt_le_1_alt. }
  assert (R0q : R0 * R0 = X * X + Y * Y) by apply len2_sq. set (x := b2r fx) in *. set (y := b2r fy) in *.
  assert (D2 : len2 (x - X) (y - Y) <= 14143/10000 * E).
  { apply len2_le; [lra|]. rewrite <- (abs_sq (x - X)), <- (abs_sq (y - Y)). assert (Rabs (x - X) * Rabs (x - X) <= E * E) by (apply Rmult_le_compat; trivial; apply Rabs_pos). assert (Rabs (y - Y) * Rabs (y - Y) <= E * E) by (apply Rmult_le_compat; trivial; apply Rabs_pos). nra. }
  assert (R1 : s / 2 <= len2 x y). { assert (R0 <= len2 x y + 14143/10000 * E). { unfold R0. replace X with (x + (X - x)) at 1 by ring. replace Y with (y + (Y - y)) at 1 by ring. apply len2_tri; [lra|]. replace (len2 (X - x) (Y - y)) with (len2 (x - X) (y - Y)) by (unfold len2; f_equal; ring). exact D2. } lra. }
  assert (NZ : x <> 0 \/ y <> 0). { destruct (Req_dec x 0) as [->|]; [|now left]. destruct (Req_dec y 0) as [->|]; [|now right]. exfalso. unfold len2 in R1. replace (0 * 0 + 0 * 0) with 0 in R1 by ring. rewrite sqrt_0 in R1. lra. }
  split; [exact NZ|]. destruct HL as (_ & _ & HA). destruct (HA fy fx Fy Fx NZ) as [Fa Ka]. fold x y in Ka. set (a := l_atan2 L fy fx) in *. set (r := len2 x y) in *.
  destruct (Ratan2_polar y x r ltac:(lra) (len2_sq x y)) as (Cc & Cs & Cr). destruct (Ratan2_polar Y X R0 ltac:(lra) R0q) as (Dc & Ds & _). set (t := Ratan2 y x) in *. set (T := Ratan2 Y X) in *.
  assert (KU : 0 <= k * u <= / 1000000) by (assert (k * u <= 16 * / 16777216) by (apply Rmult_le_compat; lra); assert (0 <= k * u) by (apply Rmult_le_pos; lra); lra).
  split. { split; [exact Fa|]. assert (PI < 3999/1000) by (pose proof NumLib.PI_bounds; lra). apply Rabs_le_inv in Ka. lra. }
  assert (CH : len2 (cos t - cos T) (sin t - sin T) <= 28287/10000 * (E / s)).
  { rewrite Cc, Cs, Dc, Ds. rewrite len2_norm.
    assert (PU : norm (vsub (unit_of [x; y; 0]) (unit_of [X; Y; 0])) <= 2 * norm (vsub [x; y; 0] [X; Y; 0]) / norm [X; Y; 0]) by (apply unit_perturb; try reflexivity; rewrite <- len2_norm; [fold r|fold R0]; lra).
    replace (vsub (unit_of [x; y; 0]) (unit_of [X; Y; 0])) with [x / r - X / R0; y / r - Y / R0; 0] in PU by (unfold unit_of; rewrite <- !len2_norm; fold r R0; unfold vsub, vscale; cbn; repeat (apply f_equal2; [field; lra|]); reflexivity).
    eapply Rle_trans; [exact PU|]. rewrite <- len2_norm. fold R0. replace (norm (vsub [x; y; 0] [X; Y; 0])) with (len2 (x - X) (y - Y)) by (rewrite len2_norm; unfold vsub; cbn; do 2 f_equal; lring).
    apply div_le; [lra|]. apply Rle_trans with (2 * (14143/10000 * E)); [lra|]. replace (28287/10000 * (E / s) * R0) with (28287/10000 * E * (R0 / s)) by (field; lra).
    assert (1 <= R0 / s) by (apply le_div; lra). nra. }
  split. { apply (chord_tri _ t); [eapply Rle_trans; [apply chord_arc|exact Ka]|exact CH]. }
  destruct (half_chord t T _ CH) as (g & Hg & HH). exists g. split; [exact Hg|].
  replace (cos (b2r a / 2) - g * cos (T / 2)) with ((cos (b2r a / 2) - cos (t / 2)) + (cos (t / 2) - g * cos (T / 2))) by ring.
  replace (sin (b2r a / 2) - g * sin (T / 2)) with ((sin (b2r a / 2) - sin (t / 2)) + (sin (t / 2) - g * sin (T / 2))) by ring.
  apply len2_tri.
  - eapply Rle_trans; [apply chord_arc|]. replace (b2r a / 2 - t / 2) with ((b2r a - t) * / 2) by field. rewrite Rabs_mult, (Rabs_pos_eq (/ 2)) by lra. lra.
  - eapply Rle_trans; [exact HH|]. assert (0 <= E / s) by (apply le_div; lra). lra.
Qed.
Lemma asin_near (fs : f32) Y : finite fs -> -1 <= b2r fs <= 1 -> Rabs (b2r fs - Y) <= E -> s * s <= 1 - Y * Y -> -1 <= Y <= 1 ->
  between (-4) 4 (l_asin L fs) /\ chord (b2r (l_asin L fs)) (asin Y) <= k * u + 224/100 * (E / s) /\
  exists g, (g = 1 \/ g = -1) /\ len2 (cos (b2r (l_asin L fs) / 2) - g * cos (asin Y / 2)) (sin (b2r (l_asin L fs) / 2) - g * sin (asin Y / 2)) <= k * u / 2 + 159/100 * (E / s).
Proof.
  intros Ff Rf Kf HY RY. pose proof u_val as Hu. pose proof E_small as ES. pose proof s_1 as S1. destruct HL as (_ & HA & _). destruct (HA fs (conj Ff Rf)) as [Fa Ka]. set (a := l_asin L fs) in *. set (y := b2r fs) in *.
  set (t := asin y) in *. set (T := asin Y) in *.
  assert (KU : 0 <= k * u <= / 1000000) by (assert (k * u <= 16 * / 16777216) by (apply Rmult_le_compat; lra); assert (0 <= k * u) by (apply Rmult_le_pos; lra); lra).
  assert (St : sin t = y) by (now apply sin_asin). assert (ST : sin T = Y) by (now apply sin_asin).
  assert (Ct : cos t = sqrt (1 - y * y)) by (unfold t; rewrite cos_asin by exact Rf; reflexivity). assert (CT : cos T = sqrt (1 - Y * Y)) by (unfold T; rewrite cos_asin by exact RY; reflexivity).
  assert (E0 : 0 <= E / s) by (apply le_div; lra).
  split. { split; [exact Fa|]. pose proof (asin_bound y) as AB. fold t in AB. pose proof PI_4. apply Rabs_le_inv in Ka. lra. }
  assert (CH : len2 (cos t - cos T) (sin t - sin T) <= 224/100 * (E / s)).
  { rewrite St, ST. set (c := cos t) in *. set (C := cos T) in *. assert (Pc : 0 <= c) by (rewrite Ct; apply sqrt_pos). assert (PC : s <= C) by (rewrite CT; rewrite <- (sqrt_square s) by lra; now apply sqrt_le_1_alt).
    assert (Qc : c * c = 1 - y * y) by (rewrite Ct; apply sqrt_sqrt; nra). assert (QC : C * C = 1 - Y * Y) by (rewrite CT; apply sqrt_sqrt; nra).
    assert (DC : Rabs (c - C) <= 2 * (E / s)).
    { apply Rmult_le_reg_r with s; [lra|]. replace (2 * (E / s) * s) with (2 * E) by (field; lra). apply Rle_trans with (Rabs (c - C) * (c + C)); [apply Rmult_le_compat_l; [apply Rabs_pos|lra]|].
      rewrite <- (Rabs_pos_eq (c + C)) at 1 by lra. rewrite <- Rabs_mult. replace ((c - C) * (c + C)) with ((Y - y) * (Y + y)) by lra. rewrite Rabs_mult. rewrite Rabs_minus_sym in Kf. assert (Rabs (Y + y) <= 2) by (apply Rabs_le; lra). pose proof (Rabs_pos (Y - y)). pose proof (Rabs_pos (Y + y)). nra. }
    assert (DE : Rabs (y - Y) <= E / s) by (eapply Rle_trans; [exact Kf|]; apply le_div; nra).
    apply len2_le; [lra|]. rewrite <- (abs_sq (c - C)), <- (abs_sq (y - Y)). set (e := E / s) in *. assert (Rabs (c - C) * Rabs (c - C) <= (2 * e) * (2 * e)) by (apply Rmult_le_compat; trivial; apply Rabs_pos). assert (Rabs (y - Y) * Rabs (y - Y) <= e * e) by (apply Rmult_le_compat; trivial; apply Rabs_pos). nra. }
  split. { apply (chord_tri _ t); [eapply Rle_trans; [apply chord_arc|exact Ka]|exact CH]. }
  destruct (half_chord t T _ CH) as (g & Hg & HH). exists g. split; [exact Hg|].
  replace (cos (b2r a / 2) - g * cos (T / 2)) with ((cos (b2r a / 2) - cos (t / 2)) + (cos (t / 2) - g * cos (T / 2))) by ring.
  replace (sin (b2r a / 2) - g * sin (T / 2)) with ((sin (b2r a / 2) - sin (t / 2)) + (sin (t / 2) - g * sin (T / 2))) by ring.
  apply len2_tri.
  - eapply Rle_trans; [apply chord_arc|]. replace (b2r a / 2 - t / 2) with ((b2r a - t) * / 2) by field. rewrite Rabs_mult, (Rabs_pos_eq (/ 2)) by lra. lra.
  - eapply Rle_trans; [exact HH|]. lra.
Qed.
Lemma pitch_shape : pitch (F32 L) q = if Beqb f_cp (B754_zero false) && Beqb f_sp (B754_zero false) then Bmult mode_NE (f32_lit 2 0) (l_atan2 L (qx q) (qw q)) else l_atan2 L f_sp f_cp.
Proof. reflexivity. Qed.
Lemma roll_shape : roll (F32 L) q = l_atan2 L f_sr f_cr. Proof. reflexivity. Qed.
Lemma yaw_shape : yaw (F32 L) q = l_asin L (clamp_f (F32 L) f_sy (Bopp (f32_lit 1 0)) (f32_lit 1 0)). Proof. reflexivity. Qed.
Lemma not_zero (a : f32) : finite a -> b2r a <> 0 -> Beqb a (B754_zero false) = false.
Proof. intros F N. rewrite Beqb_correct by (trivial; reflexivity). cbn [B2R]. now apply Raux.Req_bool_false. Qed.
Lemma three : let G a A j := exists g, (g = 1 \/ g = -1) /\ len2 (cos (b2r a / 2) - g * cos (A / 2)) (sin (b2r a / 2) - g * sin (A / 2)) <= k * u / 2 + j * (E / s) in
  (between (-4) 4 (pitch (F32 L) q) /\ chord (b2r (pitch (F32 L) q)) (Ratan2 (e_sp Q) (e_cp Q)) <= k * u + 28287/10000 * (E / s) /\ G (pitch (F32 L) q) (Ratan2 (e_sp Q) (e_cp Q)) (2001/1000)) /\
  (between (-4) 4 (yaw (F32 L) q) /\ chord (b2r (yaw (F32 L) q)) (asin (e_sy Q)) <= k * u + 224/100 * (E / s) /\ G (yaw (F32 L) q) (asin (e_sy Q)) (159/100)) /\
  (between (-4) 4 (roll (F32 L) q) /\ chord (b2r (roll (F32 L) q)) (Ratan2 (e_sr Q) (e_cr Q)) <= k * u + 28287/10000 * (E / s) /\ G (roll (F32 L) q) (Ratan2 (e_sr Q) (e_cr Q)) (2001/1000)).
Proof.
  intros G. unfold G. clear G. destruct entries as (K1 & K2 & K3 & K4 & K5). destruct (e_norms Q HQ) as [N1 N2]. pose proof (yaw_arg Q HQ) as YA. change (-1 <= e_sy Q <= 1) in YA.
  split; [|split].
  - destruct (atan2_near _ _ _ _ K1 K2 ltac:(rewrite N1; exact HG)) as (NZ & H). rewrite pitch_shape. replace (Beqb f_cp (B754_zero false) && Beqb f_sp (B754_zero false)) with false; [exact H|]. symmetry. destruct K1 as [F1 _]. destruct K2 as [F2 _]. clear - NZ F1 F2. destruct NZ as [NZ|NZ].
    + now rewrite (not_zero f_cp).
    + rewrite (not_zero f_sp) by assumption. now rewrite andb_false_r.
  - rewrite yaw_shape. destruct (clamp_near L _ _ _ K3 YA) as (A & B & C). exact (asin_near _ _ A B C HG YA).
  - rewrite roll_shape. destruct (atan2_near _ _ _ _ K4 K5 ltac:(rewrite N2; exact HG)) as (_ & H). exact H.
Qed.
Lemma pitch_real : pitch RS Q = Ratan2 (e_sp Q) (e_cp Q).
Proof.
  rewrite pitch_eq. pose proof HG as G. destruct (e_norms Q HQ) as [N1 _]. rewrite <- N1 in G. pose proof Hs as S. clear - G S.
  case Req_bool_spec; intros A; [|reflexivity]. case Req_bool_spec; intros B; [|reflexivity]. exfalso. rewrite A, B in G. nra.
Qed.
Lemma roundtrip : all_close_sign ((23 * d + 24 * u) / s + (6 * k + 5) * u) (lq (quat_euler (F32 L) (eulerAngles (F32 L) q))) (lq Q).
Proof.
  destruct three as ((Bp & _ & g1 & G1 & H1) & (By & _ & g2 & G2 & H2) & (Br & _ & g3 & G3 & H3)). pose proof u_val as Hu. pose proof E_small as ES. pose proof s_1 as S1. 
  pose proof (C92_quat_pf L k _ _ _ HL Hk Bp By Br) as QP. destruct (C58_roundtrip_pf Q HQ) as [RT _].
  assert (EX : exists h, (h = 1 \/ h = -1) /\ lq (of_angles (Ratan2 (e_sp Q) (e_cp Q)) (asin (e_sy Q)) (Ratan2 (e_sr Q) (e_cr Q))) = map (Rmult h) (lq Q)).
  { rewrite <- pitch_real, <- qe_real, <- roll_eq. replace (asin (e_sy Q)) with (yaw RS Q) by (apply yaw_eq; exact HQ). change (V3 (pitch RS Q) (yaw RS Q) (roll RS Q)) with (eulerAngles RS Q). clear - RT. destruct RT as [-> | ->].
    - exists 1. split; [now left|]. destruct Q as [x y z w]. unfold lq, quat_neg. cbn. lring.
    - exists (-1). split; [now right|]. destruct Q as [x y z w]. unfold lq, quat_neg. cbn. lring. }
  destruct EX as (h & Hh & EX). rewrite of_angles_tri in EX, QP. exists (g1 * g2 * g3 * h). split.
  { clear - G1 G2 G3 Hh. destruct G1 as [->| ->], G2 as [->| ->], G3 as [->| ->], Hh as [->| ->]; solve [left; ring|right; ring]. }
  replace (map (Rmult (g1 * g2 * g3 * h)) (lq Q)) with (map (Rmult (g1 * g2 * g3)) (map (Rmult h) (lq Q))) by (rewrite map_map; apply map_ext; intros; ring).
  rewrite <- EX, <- tri_flip. change (eulerAngles (F32 L) q) with (V3 (pitch (F32 L) q) (yaw (F32 L) q) (roll (F32 L) q)).
  set (a := k * u / 2 + 2001/1000 * (E / s)) in *. set (b := k * u / 2 + 159/100 * (E / s)) in *.
  eapply all_close_weak; [|eapply (all_close_tri _ (a * (1 + b) * (1 + a) + b * (1 + a) + a)); [| |exact QP|]; [reflexivity|reflexivity|]].
  - assert (KU : 0 <= k * u <= / 1000000) by (assert (k * u <= 16 * / 16777216) by (apply Rmult_le_compat; lra); assert (0 <= k * u) by (apply Rmult_le_pos; lra); lra).
    assert (T : 0 <= E / s <= / 700) by (split; [apply le_div; lra|apply div_le; lra]).
    assert (T2 : 561/100 * (E / s) <= (23 * d + 24 * u) / s). { unfold Rdiv. rewrite <- Rmult_assoc. apply Rmult_le_compat_r; [left; apply Rinv_0_lt_compat; lra|]. unfold E. lra. }
    eapply Rle_trans; [|apply Rplus_le_compat_r; exact T2]. set (t := E / s) in *. assert (A0 : 0 <= a <= 3/1000) by (unfold a; lra). assert (B0 : 0 <= b <= 24/10000) by (unfold b; lra).
    assert (a * (1 + b) * (1 + a) + b * (1 + a) + a <= a + b + a + 6/1000 * a + 3/1000 * b).
    { assert (a * b <= 24/10000 * a) by nra. assert (a * a <= 3/1000 * a) by nra. assert (a * b * a <= 24/10000 * (3/1000) * a) by nra. nra. }
    unfold a, b in *. lra.
  - apply tri_change; trivial; rewrite trig_sign by assumption; apply len2_trig.
Qed.
End Angles.
Lemma e_sy_sin Q : e_sy Q = sin_yaw Q. Proof. unfold e_sy, sin_yaw. ring. Qed.
(** For every quaternion with components within d of those of a rotation whose middle angle has a cosine of at least s, the quaternion of its Euler
    angles is that rotation again, up to sign, with an error that grows like 1/s. *)
Lemma C92_roundtrip_pf : forall (L : Libm) (k d s : R) (q : quat f32) (Q : quat R), angles_accurate L k -> 0 <= k <= 16 ->
  unit_quat Q -> / 1000 <= s -> s * s <= 1 - sin_yaw Q * sin_yaw Q -> 0 <= d <= s / 4000 -> all_close d (lq q) (lq Q) ->
  all_close_sign ((23 * d + 24 * ulp_half) / s + (6 * k + 5) * ulp_half) (lq (quat_euler (F32 L) (eulerAngles (F32 L) q))) (lq Q).
Proof. intros L k d s q Q HL Hk HQ Hs HG Hd HC. rewrite <- e_sy_sin in HG. now apply roundtrip. Qed.
Lemma of_angles_entries P Y R0 : let Q := of_angles P Y R0 in unit_quat Q /\ e_sy Q = sin Y /\
  e_sp Q = cos Y * sin P /\ e_cp Q = cos Y * cos P /\ e_sr Q = cos Y * sin R0 /\ e_cr Q = cos Y * cos R0.
Proof.
  intros Q. pose proof (of_angles_tri P Y R0) as T. fold Q in T. unfold unit_quat. rewrite T, tri_norm, !len2_trig. split; [ring|].
  assert (D : forall a, sin a = 2 * sin (a / 2) * cos (a / 2) /\ cos a = cos (a / 2) * cos (a / 2) - sin (a / 2) * sin (a / 2)).
  { intros a. rewrite <- sin_2a, <- cos_2a. replace (2 * (a / 2)) with a by field. now split. }
  assert (N : forall a, cos (a / 2) * cos (a / 2) + sin (a / 2) * sin (a / 2) = 1) by (intros a; pose proof (sin2_cos2 (a / 2)) as H; unfold Rsqr in H; lra).
  destruct (D P) as [-> ->], (D Y) as [-> ->], (D R0) as [-> ->]. pose proof (N P) as NP. pose proof (N R0) as NR. clear D N. revert T NP NR.
  generalize (cos (P / 2)) (sin (P / 2)) (cos (Y / 2)) (sin (Y / 2)) (cos (R0 / 2)) (sin (R0 / 2)). intros cp sp cy sy cr sr T NP NR.
  destruct Q as [x y z w]. unfold lq, tri in T. cbn [qx qy qz qw] in T. injection T as -> -> -> ->. unfold e_sy, e_sp, e_cp, e_sr, e_cr. cbn [qx qy qz qw].
  repeat split.
  - transitivity (2 * sy * cy * ((cp * cp + sp * sp) * (cr * cr + sr * sr))); [ring|]. rewrite NP, NR. ring.
  - transitivity ((cy * cy - sy * sy) * (2 * sp * cp) * (cr * cr + sr * sr)); [ring|]. rewrite NR. ring.
  - transitivity ((cy * cy - sy * sy) * (cp * cp - sp * sp) * (cr * cr + sr * sr)); [ring|]. rewrite NR. ring.
  - transitivity ((cy * cy - sy * sy) * (2 * sr * cr) * (cp * cp + sp * sp)); [ring|]. rewrite NP. ring.
  - transitivity ((cy * cy - sy * sy) * (cr * cr - sr * sr) * (cp * cp + sp * sp)); [ring|]. rewrite NP. ring.
Qed.
Lemma chord_same a b c : cos b = cos c -> sin b = sin c -> chord a b = chord a c.
Proof. intros H K. unfold chord. now rewrite H, K. Qed.
Lemma polar_of c t : 0 < c -> cos (Ratan2 (c * sin t) (c * cos t)) = cos t /\ sin (Ratan2 (c * sin t) (c * cos t)) = sin t.
Proof.
  intros C. destruct (Ratan2_polar (c * sin t) (c * cos t) c C) as (A & B & _).
  - pose proof (sin2_cos2 t) as H. unfold Rsqr in H. transitivity (c * c * (sin t * sin t + cos t * cos t)); [rewrite H; ring|ring].
  - rewrite A, B. split; field; lra.
Qed.
(** Conversely, for every quaternion with components within d of those of the rotation by three angles, the middle one with a cosine of at least s,
    eulerAngles returns these angles modulo full turns, again with an error that grows like 1/s. *)
Lemma C92_angles_pf : forall (L : Libm) (k d s : R) (q : quat f32) (P Y R0 : R), angles_accurate L k -> 0 <= k <= 16 ->
  / 1000 <= s <= cos Y -> 0 <= d <= s / 4000 -> all_close d (lq q) (lq (of_angles P Y R0)) ->
  let e := k * ulp_half + (12 * d + 12 * ulp_half) / s in
  let a := eulerAngles (F32 L) q in between (-4) 4 (x3 a) /\ between (-4) 4 (y3 a) /\ between (-4) 4 (z3 a) /\
  chord (b2r (x3 a)) P <= e /\ chord (b2r (y3 a)) Y <= e /\ chord (b2r (z3 a)) R0 <= e.
Proof.
  intros L k d s q P Y R0 HL Hk Hs Hd HC e a. destruct (of_angles_entries P Y R0) as (U & Ey & Ep & Cp & Er & Cr). pose proof u_val as Hu.
  assert (HY : cos Y * cos Y = 1 - sin Y * sin Y) by (pose proof (sin2_cos2 Y) as H; unfold Rsqr in H; lra).
  assert (HG : s * s <= 1 - e_sy (of_angles P Y R0) * e_sy (of_angles P Y R0)) by (rewrite Ey, <- HY; apply Rmult_le_compat; lra).
  destruct (three L k d s q _ HL Hk U Hd (proj1 Hs) HC HG) as ((Bp & Kp & _) & (By & Ky & _) & (Br & Kr & _)).
  assert (W : 28287/10000 * ((401/100 * d + 41/10 * u) / s) <= (12 * d + 12 * u) / s). { unfold Rdiv. rewrite <- Rmult_assoc. apply Rmult_le_compat_r; [left; apply Rinv_0_lt_compat; lra|]. lra. }
  assert (W0 : 0 <= (401/100 * d + 41/10 * u) / s) by (apply le_div; lra).
  change (x3 a) with (pitch (F32 L) q). change (y3 a) with (yaw (F32 L) q). change (z3 a) with (roll (F32 L) q).
  rewrite Ey in Ky. rewrite Ep, Cp in Kp. rewrite Er, Cr in Kr. destruct (polar_of (cos Y) P) as [A1 A2]; [lra|]. destruct (polar_of (cos Y) R0) as [B1 B2]; [lra|].
  rewrite (chord_same _ _ _ A1 A2) in Kp. rewrite (chord_same _ _ _ B1 B2) in Kr.
  pose proof (SIN_bound Y) as SB. assert (C1 : sin (asin (sin Y)) = sin Y) by (now apply sin_asin).
  assert (C2 : cos (asin (sin Y)) = cos Y). { rewrite cos_asin by exact SB. unfold Rsqr. rewrite <- HY. apply sqrt_square. lra. }
  rewrite (chord_same _ _ _ C2 C1) in Ky. unfold e. repeat (split; [first [assumption|lra]|]). lra.
Qed.
(** So quat and eulerAngles undo each other: from three angles, the middle one with a cosine of at least s >= 0.02, quat followed by eulerAngles returns
    the angles modulo full turns. *)
Lemma C92_recover_pf : forall (L : Libm) (k s : R) (p y r : f32), angles_accurate L k -> 0 <= k <= 16 ->
  between (-4) 4 p -> between (-4) 4 y -> between (-4) 4 r -> / 50 <= s <= cos (b2r y) ->
  let e := (k + (52 * k + 60) / s) * ulp_half in
  let a := eulerAngles (F32 L) (quat_euler (F32 L) (V3 p y r)) in
  chord (b2r (x3 a)) (b2r p) <= e /\ chord (b2r (y3 a)) (b2r y) <= e /\ chord (b2r (z3 a)) (b2r r) <= e.
Proof.
  intros L k s p y r HL Hk Hp Hy Hr Hs e a. pose proof u_val as Hu. pose proof (C92_quat_pf L k p y r HL Hk Hp Hy Hr) as QP.
  assert (KU : 0 <= k * u <= 16 * u) by (split; [apply Rmult_le_pos; lra|apply Rmult_le_compat_r; lra]).
  destruct (C92_angles_pf L k ((43/10 * k + 4) * u) s _ _ (b2r y) _ HL Hk ltac:(lra) ltac:(lra) QP) as (_ & _ & _ & A & B & C). fold a in A, B, C.
  assert (W : k * u + (12 * ((43/10 * k + 4) * u) + 12 * u) / s <= e).
  { unfold e. rewrite (Rmult_plus_distr_r k). apply Rplus_le_compat_l. replace ((52 * k + 60) / s * u) with ((52 * (k * u) + 60 * u) * / s) by (field; lra). unfold Rdiv. apply Rmult_le_compat_r; [left; apply Rinv_0_lt_compat; lra|]. lra. }
  lra.
Qed.
Lemma sf_value (a : f32) s m e : sf a = SpecFloat.S754_finite s m e -> finite a /\ b2r a = IZR (cond_Zopp s (Zpos m)) * bpow radix2 e.
Proof. intros H. destruct a as [|[]| |s' m' e' He]; try discriminate H. cbn in H. injection H as -> -> ->. now split. Qed.
Lemma sf_zero (a : f32) s : sf a = SpecFloat.S754_zero s -> finite a /\ b2r a = 0.
Proof. intros H. destruct a as [|[]| |s' m' e' He]; try discriminate H. now split. Qed.
Lemma Ratan2_0_pos x : 0 < x -> Ratan2 0 x = 0.
Proof.
  intros H. destruct (Ratan2_polar 0 x x H ltac:(ring)) as (C & S & [A B]). replace (0 / x) with 0 in S by (field; lra). replace (x / x) with 1 in C by (field; lra).
  destruct (Rle_lt_dec 0 (Ratan2 0 x)) as [P|P].
  - destruct (Req_dec (Ratan2 0 x) 0) as [->|N]; [reflexivity|]. destruct (Req_dec (Ratan2 0 x) PI) as [E|N2]; [rewrite E, cos_PI in C; lra|]. assert (0 < sin (Ratan2 0 x)) by (apply sin_gt_0; lra). lra.
  - assert (0 < sin (- Ratan2 0 x)) by (apply sin_gt_0; lra). rewrite sin_neg in H0. lra.
Qed.
(** Near gimbal lock the round trip fails for every accurate C library: there is a quaternion whose squared length is within 1e-7 of 1 and whose Euler
    angles give back a quaternion that differs from it and from its negation by more than 1/2 in some component. *)
Lemma C92_gimbal_refuted_pf : forall (L : Libm) (k : R), angles_accurate L k -> 0 <= k <= 16 -> exists q : quat f32,
  Rabs (ip (map b2r (lq q)) (map b2r (lq q)) - 1) <= / 10000000 /\
  ~ all_close_sign (/ 2) (lq (quat_euler (F32 L) (eulerAngles (F32 L) q))) (map b2r (lq q)).
Proof.
  intros L k HL Hk. exists (Quat (f32_lit 653281510 (-9)) (f32_lit 270598054 (-9)) (f32_lit (-653281510) (-9)) (f32_lit 270598054 (-9))).
  set (q := Quat _ _ _ _). pose proof u_val as Hu. pose proof tiny_small as Ht.
  assert (KU : 0 <= k * u <= 16 * u) by (split; [apply Rmult_le_pos; lra|apply Rmult_le_compat_r; lra]).
  assert (Vx : b2r (f32_lit 653281510 (-9)) = 10960245 / 16777216) by (unfold f32_lit; vm_compute; lra).
  assert (Vz : b2r (f32_lit (-653281510) (-9)) = - 10960245 / 16777216) by (unfold f32_lit; vm_compute; lra).
  assert (Vy : b2r (f32_lit 270598054 (-9)) = 9079764 / 33554432) by (unfold f32_lit; vm_compute; lra).
  split. { unfold q, lq. cbn [qx qy qz qw map]. rewrite Vx, Vy, Vz. unfold ip. cbn [zip fold_right]. apply Rabs_le. lra. }
  assert (S1 : finite (f_sp q) /\ b2r (f_sp q) = 0) by (apply (sf_zero _ false); vm_compute; reflexivity). assert (S2 : finite (f_sr q) /\ b2r (f_sr q) = 0) by (apply (sf_zero _ false); vm_compute; reflexivity).
  assert (S3 : finite (f_cp q) /\ b2r (f_cp q) = IZR (cond_Zopp false 8388608) * bpow radix2 (-48)) by (apply sf_value; vm_compute; reflexivity).
  assert (S4 : finite (f_cr q) /\ b2r (f_cr q) = IZR (cond_Zopp false 8388608) * bpow radix2 (-48)) by (apply sf_value; vm_compute; reflexivity).
  assert (V : 0 < IZR (cond_Zopp false 8388608) * bpow radix2 (-48)) by (apply Rmult_lt_0_compat; [cbn [cond_Zopp]; lra|apply bpow_gt_0]).
  destruct S1 as [F1 E1], S2 as [F2 E2], S3 as [F3 E3], S4 as [F4 E4]. rewrite <- E3 in V. assert (V' : 0 < b2r (f_cr q)) by (rewrite E4, <- E3; exact V). clear E3 E4.
  pose proof (pitch_shape L q) as PS. rewrite (not_zero (f_cp q) F3) in PS by lra. cbn [andb] in PS. pose proof (roll_shape L q) as RS'. pose proof (yaw_shape L q) as YS.
  assert (A1 : within_u k (pitch (F32 L) q) 0) by (rewrite PS; rewrite <- (Ratan2_0_pos _ V), <- E1; apply HL; trivial; left; lra).
  assert (A2 : within_u k (roll (F32 L) q) 0) by (rewrite RS'; rewrite <- (Ratan2_0_pos _ V'), <- E2; apply HL; trivial; left; lra).
  assert (A3 : between (-4) 4 (yaw (F32 L) q)).
  { assert (W : finite (f_sy q) /\ b2r (f_sy q) = IZR (cond_Zopp false 8388609) * bpow radix2 (-23)) by (apply sf_value; vm_compute; reflexivity). destruct W as [Fy Ey].
    destruct (clamp_near L (f_sy q) 0 (Rabs (b2r (f_sy q) - 0)) (conj Fy (Rle_refl _)) ltac:(lra)) as (A & B & _). destruct HL as (_ & HA & _). destruct (HA _ (conj A B)) as [Fa Ka]. rewrite YS. split; [exact Fa|].
    pose proof (asin_bound (b2r (clamp_f (F32 L) (f_sy q) (Bopp (f32_lit 1 0)) (f32_lit 1 0)))) as AB. pose proof PI_4. apply Rabs_le_inv in Ka. lra. }
  destruct A1 as [Fp Kp]. destruct A2 as [Fr Kr]. rewrite Rminus_0_r in Kp, Kr. 
  assert (B1 : between (-4) 4 (pitch (F32 L) q)) by (split; [exact Fp|apply Rabs_le_inv in Kp; lra]). assert (B2 : between (-4) 4 (roll (F32 L) q)) by (split; [exact Fr|apply Rabs_le_inv in Kr; lra]).
  pose proof (C92_quat_pf L k _ _ _ HL Hk B1 A3 B2) as QP. change (V3 (pitch (F32 L) q) (yaw (F32 L) q) (roll (F32 L) q)) with (eulerAngles (F32 L) q) in QP.
  set (X := quat_euler (F32 L) (eulerAngles (F32 L) q)) in *. rewrite of_angles_tri in QP. clearbody X. clear - QP Kp Kr KU Hu Vx. set (p := b2r (pitch (F32 L) q)) in *. set (r := b2r (roll (F32 L) q)) in *. set (y := b2r (yaw (F32 L) q)) in *. clearbody p r y.
  destruct X as [x' y' z' w']. intros (g & Hg & H). unfold q, lq, tri in *. cbn [qx qy qz qw map] in *. apply Forall2_cons_iff in H as [[_ H] _]. apply Forall2_cons_iff in QP as [[_ QP] _]. rewrite Vx in H.
  assert (SP : Rabs (sin (p / 2)) <= 8 * u). { pose proof (sin_lip (p / 2) 0) as SL. rewrite sin_0, !Rminus_0_r in SL. unfold Rdiv in SL at 2. rewrite Rabs_mult, (Rabs_pos_eq (/ 2)) in SL by lra. lra. }
  assert (SR : Rabs (sin (r / 2)) <= 8 * u). { pose proof (sin_lip (r / 2) 0) as SL. rewrite sin_0, !Rminus_0_r in SL. unfold Rdiv in SL at 2. rewrite Rabs_mult, (Rabs_pos_eq (/ 2)) in SL by lra. lra. }
  assert (U1 : forall a b c, Rabs a <= 8 * u -> Rabs b <= 1 -> Rabs c <= 1 -> Rabs (a * b * c) <= 8 * u). { intros a b c A B C. rewrite !Rabs_mult. assert (Rabs a * Rabs b <= 8 * u * 1) by (apply Rmult_le_compat; trivial; apply Rabs_pos). assert (Rabs a * Rabs b * Rabs c <= 8 * u * 1 * 1) by (apply Rmult_le_compat; trivial; [apply Rmult_le_pos; apply Rabs_pos|apply Rabs_pos]). lra. }
  assert (C1 : forall t, Rabs (cos t) <= 1) by (intros t; apply Rabs_le; apply COS_bound). assert (C2 : forall t, Rabs (sin t) <= 1) by (intros t; apply Rabs_le; apply SIN_bound).
  pose proof (U1 _ _ _ SP (C1 (y / 2)) (C1 (r / 2))) as T1. pose proof (U1 _ _ _ SR (C2 (y / 2)) (C1 (p / 2))) as T2. replace (sin (r / 2) * sin (y / 2) * cos (p / 2)) with (cos (p / 2) * sin (y / 2) * sin (r / 2)) in T2 by ring.
  apply Rabs_le_inv in T1, T2, QP, H. destruct Hg as [->| ->]; lra.
Qed.
(** the nearest binary32 number is that close *)
Lemma nearest_within x : Rabs x <= 3999/1000 -> within_u 4 (nearest x) x.
Proof.
  intros H. pose proof u_val as Hu. pose proof tiny_small as Ht. pose proof (rnd_err_t x _ H) as E. destruct (nearest_ok x) as [F V].
  - apply Rle_lt_trans with 5; [|unfold big; apply (IZR_lt 5 (2 ^ 128)); reflexivity]. replace (rnd x) with (x + (rnd x - x)) by ring. eapply Rle_trans; [apply Rabs_triang|]. lra.
  - split; [exact F|]. rewrite V. lra.
Qed.
Lemma nearest_trig t : within_u 4 (nearest (sin t)) (sin t) /\ within_u 4 (nearest (cos t)) (cos t).
Proof. pose proof (SIN_bound t). pose proof (COS_bound t). split; apply nearest_within, Rabs_le; lra. Qed.
Lemma nearest_asin t : within_u 4 (nearest (asin t)) (asin t).
Proof. pose proof (asin_bound t). pose proof PI_4. apply nearest_within, Rabs_le; lra. Qed.
Lemma nearest_atan2 y x : x <> 0 \/ y <> 0 -> within_u 4 (nearest (Ratan2 y x)) (Ratan2 y x).
Proof.
  intros N. assert (P : 0 < x * x + y * y) by nra. destruct (Ratan2_polar y x (sqrt (x * x + y * y))) as (_ & _ & B); [now apply sqrt_lt_R0|apply sqrt_sqrt; lra|].
  pose proof NumLib.PI_bounds. apply nearest_within, Rabs_le; lra.
Qed.
(*PROPS
(** a C library that returns the nearest binary32 number meets the hypothesis with k = 4 *)
Example C92_rounded_library : forall L0 : Libm, exists L, angles_accurate L 4 /\ l_tan L = l_tan L0.
Proof.
  intros L0. exists (mkLibm (fun x => nearest (cos (b2r x))) (fun x => nearest (sin (b2r x))) (l_tan L0) (l_acos L0) (fun x => nearest (asin (b2r x))) (l_atan L0) (fun y x => nearest (Ratan2 (b2r y) (b2r x)))
    (l_cosh L0) (l_sinh L0) (l_tanh L0) (l_acosh L0) (l_asinh L0) (l_atanh L0) (l_pow L0) (l_exp L0) (l_log L0) (l_log2 L0) (l_cbrt L0)).
  split; [|reflexivity]. split; [|split].
  - intros x _. apply nearest_trig.
  - intros x _. apply nearest_asin.
  - intros y x _ _ H. now apply nearest_atan2.
Qed.
(** a turn by 120 degrees about (1,1,1), far from gimbal lock, meets the hypotheses of the round trip exactly; a middle angle of 1 radian those of the other direction *)
Example C92_case : let q := Quat (f32_lit 5 (-1)) (f32_lit 5 (-1)) (f32_lit 5 (-1)) (f32_lit 5 (-1)) in
  let Q := Quat (/ 2) (/ 2) (/ 2) (/ 2) in unit_quat Q /\ 1 * 1 <= 1 - sin_yaw Q * sin_yaw Q /\ all_close 0 (lq q) (lq Q) /\
  between (-4) 4 (f32_lit 1 0) /\ / 2 <= cos (b2r (f32_lit 1 0)).
Proof.
  cbv zeta. assert (H : b2r (f32_lit 5 (-1)) = / 2) by (vm_compute; lra). assert (V : b2r (f32_lit 1 0) = 1) by (vm_compute; lra). rewrite V. split; [|split; [|split; [|split]]].
  - unfold unit_quat, norm, ip. cbn. replace (_ + _) with (1 * 1) by lra. apply sqrt_square. lra.
  - unfold sin_yaw. cbn. lra.
  - unfold all_close, lq. cbn [qx qy qz qw]. repeat constructor; rewrite H, Rminus_diag_eq, Rabs_R0; trivial; lra.
  - split; [reflexivity|]. rewrite V. lra.
  - replace (/ 2) with (1 / 2) by lra. rewrite <- cos_PI3. apply cos_decr_1; pose proof PI2_1; pose proof PI_4; pose proof NumLib.PI_bounds; lra.
Qed.
PROPS*)
