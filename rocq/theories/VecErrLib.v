(** * Errors of vectors in the Euclidean norm: cross product, normalization, inner product *)
From Coq Require Import ZArith Bool Reals List Lra Lia Psatz.
From Flocq Require Import Core IEEE754.BinarySingleNaN.
From Verif Require Import Scalar IEEE32 RealInst Types Outcome Spec SpecR SpecMat SpecGeo SpecF32 SpecErr SpecOrd SpecAcc SpecProj FloatBasics FloatOps
  ModelVec ModelCommon ModelGeom RealTac ErrLib OvfLib LenLib RelLib PfErr PfOvf PfLen PfQuatAcc NumLib.
Import ListNotations.
Local Open Scope R_scope.

(** ** Real vectors of length three *)
Ltac lring := repeat match goal with |- _ :: _ = _ :: _ => apply f_equal2; [ring|] end; reflexivity.
Ltac list3 A := destruct A as [|?a [|?a [|?a [|? ?]]]]; try discriminate.
Lemma triangle3 A B : length A = 3%nat -> length B = 3%nat -> norm (vadd A B) <= norm A + norm B.
Proof. intros HA HB. apply norm_triangle. congruence. Qed.
Lemma norm_from_parts A B C a b : length A = 3%nat -> length B = 3%nat -> C = vadd A B -> norm A <= a -> norm B <= b -> norm C <= a + b.
Proof. intros HA HB -> Ha Hb. pose proof (triangle3 A B HA HB). lra. Qed.
Lemma norm_scale3 k A : norm (vscale k A) = Rabs k * norm A.
Proof. apply norm_scale. Qed.
Lemma norm_nn A : 0 <= norm A. Proof. apply norm_pos. Qed.
Lemma sq_le_norm A b : 0 <= b -> ip A A <= b * b -> norm A <= b.
Proof. intros Hb H. unfold norm. rewrite <- (sqrt_square b) by exact Hb. now apply sqrt_le_1_alt. Qed.
(** |A x B| <= |A| |B| *)
Lemma cross_norm A B : length A = 3%nat -> length B = 3%nat -> norm (cross_l A B) <= norm A * norm B.
Proof.
  intros HA HB. list3 A. list3 B. apply sq_le_norm; [apply Rmult_le_pos; apply norm_nn|].
  replace (norm [a; a0; a1] * norm [a2; a3; a4] * (norm [a; a0; a1] * norm [a2; a3; a4])) with ((norm [a; a0; a1] * norm [a; a0; a1]) * (norm [a2; a3; a4] * norm [a2; a3; a4])) by ring.
  rewrite !norm_sq. unfold ip, cross_l. cbn. pose proof (Rle_0_sqr (a * a2 + a0 * a3 + a1 * a4)) as S. unfold Rsqr in S. lra.
Qed.
Lemma cross_mag_norm A B : length A = 3%nat -> length B = 3%nat -> norm (cross_mag (map Rabs A) (map Rabs B)) <= 142/100 * (norm A * norm B).
Proof.
  intros HA HB. list3 A. list3 B. apply sq_le_norm; [apply Rmult_le_pos; [lra|apply Rmult_le_pos; apply norm_nn]|].
  match goal with |- _ <= ?c * (?x * ?y) * (?c * (?x * ?y)) => replace (c * (x * y) * (c * (x * y))) with (c * c * ((x * x) * (y * y))) by ring end.
  rewrite !norm_sq. unfold ip, cross_mag. cbn.
  assert (Q : forall p q, (Rabs p + Rabs q) * (Rabs p + Rabs q) <= 2 * (p * p + q * q)).
  { intros p q. pose proof (Rle_0_sqr (Rabs p - Rabs q)) as S. unfold Rsqr in S. pose proof (abs_sq p). pose proof (abs_sq q). lra. }
  rewrite <- !Rabs_mult. pose proof (Q (a0 * a4) (a1 * a3)). pose proof (Q (a1 * a2) (a * a4)). pose proof (Q (a * a3) (a0 * a2)).
  pose proof (Rle_0_sqr (a * a2)). pose proof (Rle_0_sqr (a0 * a3)). pose proof (Rle_0_sqr (a1 * a4)).
  pose proof (Rle_0_sqr (a0 * a4)). pose proof (Rle_0_sqr (a1 * a3)). pose proof (Rle_0_sqr (a1 * a2)).
  pose proof (Rle_0_sqr (a * a4)). pose proof (Rle_0_sqr (a * a3)). pose proof (Rle_0_sqr (a0 * a2)). unfold Rsqr in *. lra.
Qed.
Lemma ip_norm A B : length A = 3%nat -> length B = 3%nat -> Rabs (ip A B) <= norm A * norm B.
Proof.
  intros HA HB. pose proof (cauchy_schwarz A B ltac:(congruence)) as C. apply Rsqr_incr_0_var; [|apply Rmult_le_pos; apply norm_nn]. rewrite <- Rsqr_abs. unfold Rsqr.
  replace (norm A * norm B * (norm A * norm B)) with ((norm A * norm A) * (norm B * norm B)) by ring. now rewrite !norm_sq.
Qed.
Lemma norm_abs A : norm (map Rabs A) = norm A.
Proof. unfold norm. f_equal. unfold ip. induction A as [|x A IH]; [reflexivity|]. cbn. rewrite IH. f_equal. apply abs_sq. Qed.
Lemma vsub_len A B : length A = 3%nat -> length B = 3%nat -> length (vsub A B) = 3%nat.
Proof. intros HA HB. list3 A. list3 B. reflexivity. Qed.
Lemma vscale_len k A : length (vscale k A) = length A.
Proof. apply map_length. Qed.
Lemma cross_len A B : length (cross_l A B) = 3%nat. Proof. reflexivity. Qed.
(** how far apart two normalized vectors are *)
Lemma unit_perturb C D : length C = 3%nat -> length D = 3%nat -> 0 < norm C -> 0 < norm D -> norm (vsub (unit_of C) (unit_of D)) <= 2 * norm (vsub C D) / norm D.
Proof.
  intros HC HD PC PD. set (e := norm (vsub C D)).
  assert (T : Rabs (norm C - norm D) <= e).
  { assert (norm C <= norm D + e) by (apply (norm_from_parts D (vsub C D)); try apply Rle_refl; [assumption|now apply vsub_len|list3 C; list3 D; unfold vadd, vsub; cbn; lring]).
    assert (norm D <= norm C + e).
    { apply (norm_from_parts C (vscale (-1) (vsub C D))); [assumption|rewrite vscale_len; now apply vsub_len|list3 C; list3 D; unfold vadd, vsub; cbn; lring|apply Rle_refl|].
      rewrite norm_scale3, Rabs_left by lra. fold e. lra. }
    apply Rabs_le. lra. }
  replace (2 * e / norm D) with (e / norm D + e / norm D) by (field; lra).
  apply (norm_from_parts (vscale (/ norm D) (vsub C D)) (vscale ((norm D - norm C) / (norm C * norm D)) C)).
  - rewrite vscale_len. now apply vsub_len.
  - now rewrite vscale_len.
  - unfold unit_of. set (c := norm C) in *. set (d := norm D) in *. clearbody c d. list3 C. list3 D. unfold vadd, vsub, vscale. cbn. repeat match goal with |- _ :: _ = _ :: _ => apply f_equal2; [field; lra|] end; reflexivity.
  - rewrite norm_scale3. fold e. rewrite Rabs_pos_eq by (left; now apply Rinv_0_lt_compat). unfold Rdiv. rewrite Rmult_comm. apply Rle_refl.
  - rewrite norm_scale3. rewrite Rabs_minus_sym in T. unfold Rdiv. rewrite Rabs_mult. rewrite (Rabs_pos_eq (/ (norm C * norm D))) by (left; apply Rinv_0_lt_compat; now apply Rmult_lt_0_compat).
    replace (Rabs (norm D - norm C) * / (norm C * norm D) * norm C) with (Rabs (norm D - norm C) * / norm D) by (field; lra).
    apply Rmult_le_compat_r; [left; now apply Rinv_0_lt_compat|exact T].
Qed.
Lemma unit_norm C : length C = 3%nat -> 0 < norm C -> norm (unit_of C) = 1.
Proof. intros HC P. unfold unit_of. rewrite norm_scale3, Rabs_pos_eq by (left; now apply Rinv_0_lt_compat). field. lra. Qed.
Lemma norm_diff c y d t : length c = 3%nat -> length y = 3%nat -> 0 <= d -> 0 <= t ->
  Forall2 (fun a b => Rabs (a - b) <= d * Rabs b + t) c y -> norm (vsub c y) <= d * norm y + 2 * t.
Proof.
  intros LC LY Pd Pt H. list3 c. list3 y.
  apply Forall2_cons_iff in H as [H0 H]. apply Forall2_cons_iff in H as [H1 H]. apply Forall2_cons_iff in H as [H2 _].
  rewrite <- (norm_abs [a2; a3; a4]).
  apply Rle_trans with (norm (vadd (vscale d (map Rabs [a2; a3; a4])) (vscale t [1; 1; 1]))).
  - apply norm_mono. unfold vsub, vadd, vscale. cbn. repeat (apply Forall2_cons; [lra|]). apply Forall2_nil.
  - eapply Rle_trans; [apply triangle3; reflexivity|]. rewrite !norm_scale3, !Rabs_pos_eq by assumption. apply Rplus_le_compat_l. rewrite (Rmult_comm 2).
    apply Rmult_le_compat_l; [exact Pt|]. apply sq_le_norm; [lra|]. unfold ip. cbn. lra.
Qed.
Lemma comp_norm A x : length A = 3%nat -> In x A -> Rabs x <= norm A.
Proof.
  intros HA HI. rewrite <- (sqrt_square (Rabs x)) by apply Rabs_pos. unfold norm. apply sqrt_le_1_alt. rewrite abs_sq. list3 A. unfold ip. cbn.
  pose proof (Rle_0_sqr a). pose proof (Rle_0_sqr a0). pose proof (Rle_0_sqr a1). unfold Rsqr in *. destruct HI as [<-|[<-|[<-|[]]]]; lra.
Qed.

(** ** binary32 vectors *)
Definition vnear (e : R) (a : vec3 f32) (A : list R) : Prop := length A = 3%nat /\ all_finite (l3 a) /\ norm (vsub (vals (l3 a)) A) <= e.
Lemma vals_len (a : vec3 f32) : length (vals (l3 a)) = 3%nat. Proof. reflexivity. Qed.
Lemma near_norm e a A : vnear e a A -> norm (vals (l3 a)) <= norm A + e /\ norm A <= norm (vals (l3 a)) + e /\ 0 <= e.
Proof.
  intros (LA & _ & H). pose proof (norm_nn (vsub (vals (l3 a)) A)). split; [|split]; [| |lra].
  - apply (norm_from_parts A (vsub (vals (l3 a)) A)); [assumption|now apply vsub_len| |apply Rle_refl|exact H].
    list3 A. destruct a as [x y z]. unfold vadd, vsub. cbn. lring.
  - apply (norm_from_parts (vals (l3 a)) (vscale (-1) (vsub (vals (l3 a)) A))); [reflexivity|rewrite vscale_len; now apply vsub_len| |apply Rle_refl|].
    + list3 A. destruct a as [x y z]. unfold vadd, vsub. cbn. lring.
    + rewrite norm_scale3, Rabs_left by lra. lra.
Qed.
Lemma near_weaken e e' a A : e <= e' -> vnear e a A -> vnear e' a A.
Proof. intros H (LA & F & K). split; [exact LA|]. split; [exact F|]. lra. Qed.
Lemma near_exact a : all_finite (l3 a) -> vnear 0 a (vals (l3 a)).
Proof.
  intros F. split; [reflexivity|]. split; [exact F|]. destruct a as [x y z]. apply sq_le_norm; [lra|]. unfold ip, vsub. cbn. right. ring.
Qed.
Lemma near_all_close e a A : vnear e a A -> all_close e (l3 a) A.
Proof.
  intros (LA & F & K). destruct a as [x y z]. list3 A. unfold all_close, l3 in *. cbn [x3 y3 z3] in *. unfold all_finite in F.
  apply Forall_cons_iff in F as [F0 F]. apply Forall_cons_iff in F as [F1 F]. apply Forall_cons_iff in F as [F2 _].
  assert (C : forall r, In r (vsub (vals [x; y; z]) [a; a0; a1]) -> Rabs r <= e) by (intros r Hr; eapply Rle_trans; [apply (comp_norm (vsub (vals [x; y; z]) [a; a0; a1]) r eq_refl Hr)|exact K]).
  repeat (apply Forall2_cons; [split; [assumption|apply C; cbn; auto]|]). apply Forall2_nil.
Qed.
Lemma bounded_of_norm M (a : vec3 f32) : norm (vals (l3 a)) <= M -> bounded_by M (l3 a).
Proof.
  intros H. destruct a as [x y z]. unfold bounded_by, l3. cbn [x3 y3 z3].
  repeat (apply Forall_cons; [eapply Rle_trans; [apply (comp_norm (vals [x; y; z])); [reflexivity|cbn; auto]|exact H]|]). apply Forall_nil.
Qed.
Lemma bounded_mono M M' l : M <= M' -> bounded_by M l -> bounded_by M' l.
Proof. intros H. unfold bounded_by. apply Forall_impl. intros x K. lra. Qed.
(** rounding of a cross product *)
Lemma cross_round L (a b : vec3 f32) : all_finite (l3 a) -> all_finite (l3 b) -> norm (vals (l3 a)) <= IZR (2 ^ 62) -> norm (vals (l3 b)) <= IZR (2 ^ 62) ->
  vnear (285/100 * u * (norm (vals (l3 a)) * norm (vals (l3 b))) + 4 * tiny) (cross (F32 L) a b) (cross_l (vals (l3 a)) (vals (l3 b))).
Proof.
  intros Fa Fb Ba Bb.
  assert (F : all_finite (l3 (cross (F32 L) a b))).
  { destruct (C71_products_pf L) as (_ & _ & _ & _ & H & _). apply (H a b (IZR (2 ^ 62))).
    - now apply (IZR_le 1).
    - unfold all_finite in *. apply Forall_app. now split.
    - apply Forall_app. split; now apply bounded_of_norm.
    - cbn [pow]. rewrite Rmult_1_r, <- !mult_IZR. apply IZR_lt. reflexivity. }
  split; [reflexivity|]. split; [exact F|].
  pose proof (C65_cross_pf L a b F) as K.
  assert (G : 0 <= gam 2 <= 2001/1000 * u) by (split; [apply gam_nonneg; lia|]; unfold gam; rewrite uval; cbn [INR]; lra).
  pose proof tiny_pos as T.
  apply Rle_trans with (norm (vadd (vscale (gam 2) (cross_mag (map Rabs (vals (l3 a))) (map Rabs (vals (l3 b))))) (vscale (2 * tiny) [1; 1; 1]))).
  - apply norm_mono. destruct (cross (F32 L) a b) as [c0 c1 c2]. destruct a as [a0 a1 a2], b as [b0 b1 b2]. unfold vsub, vadd, vscale. cbn in K |- *. unfold near in K.
    repeat (apply Forall2_cons; [lra|]). apply Forall2_nil.
  - eapply Rle_trans; [apply triangle3; reflexivity|]. rewrite !norm_scale3, !Rabs_pos_eq by lra.
    pose proof (cross_mag_norm (vals (l3 a)) (vals (l3 b)) eq_refl eq_refl) as M.
    assert (N : norm [1; 1; 1] <= 2) by (apply sq_le_norm; [lra|unfold ip; cbn; lra]).
    pose proof (norm_nn (vals (l3 a))) as Pa. pose proof (norm_nn (vals (l3 b))) as Pb. pose proof (Rmult_le_pos _ _ Pa Pb) as Pab.
    pose proof (norm_nn (cross_mag (map Rabs (vals (l3 a))) (map Rabs (vals (l3 b))))) as Pm. pose proof u_val as U.
    assert (gam 2 * norm (cross_mag (map Rabs (vals (l3 a))) (map Rabs (vals (l3 b)))) <= 2001/1000 * u * (142/100 * (norm (vals (l3 a)) * norm (vals (l3 b))))) by (apply Rmult_le_compat; lra).
    assert (2 * tiny * norm [1; 1; 1] <= 2 * tiny * 2) by (apply Rmult_le_compat_l; lra).
    assert (0 <= u * (norm (vals (l3 a)) * norm (vals (l3 b)))) by (apply Rmult_le_pos; lra). lra.
Qed.
(** the cross product of nearby vectors *)
Lemma cross_near L ea eb a b A B : vnear ea a A -> vnear eb b B -> norm (vals (l3 a)) <= IZR (2 ^ 62) -> norm (vals (l3 b)) <= IZR (2 ^ 62) ->
  vnear (ea * norm (vals (l3 b)) + norm A * eb + 285/100 * u * (norm (vals (l3 a)) * norm (vals (l3 b))) + 4 * tiny) (cross (F32 L) a b) (cross_l A B).
Proof.
  intros (LA & Fa & Ka) (LB & Fb & Kb) Ba Bb. destruct (cross_round L a b Fa Fb Ba Bb) as (_ & F & K). split; [reflexivity|]. split; [exact F|].
  set (va := vals (l3 a)) in *. set (vb := vals (l3 b)) in *. set (vc := vals (l3 (cross (F32 L) a b))) in *.
  replace (ea * norm vb + norm A * eb + 285/100 * u * (norm va * norm vb) + 4 * tiny) with ((285/100 * u * (norm va * norm vb) + 4 * tiny) + (ea * norm vb + norm A * eb)) by ring.
  assert (Lva : length va = 3%nat) by reflexivity. assert (Lvb : length vb = 3%nat) by reflexivity. assert (Lvc : length vc = 3%nat) by reflexivity.
  match goal with |- _ <= ?r => change (norm (vsub vc (cross_l A B)) <= r) end.
  apply (norm_from_parts (vsub vc (cross_l va vb)) (vsub (cross_l va vb) (cross_l A B))); [now apply vsub_len|reflexivity| |exact K|].
  - clear -Lvc. clearbody vc. list3 vc. unfold vadd, vsub, cross_l. cbn. lring.
  - apply (norm_from_parts (cross_l (vsub va A) vb) (cross_l A (vsub vb B))); [reflexivity|reflexivity| | |].
    + clear -Lva Lvb LA LB. clearbody va vb. list3 va. list3 vb. list3 A. list3 B. unfold vadd, vsub, cross_l. cbn. lring.
    + eapply Rle_trans; [apply cross_norm; [now apply vsub_len|exact Lvb]|]. apply Rmult_le_compat_r; [apply norm_nn|exact Ka].
    + eapply Rle_trans; [apply cross_norm; [exact LA|now apply vsub_len]|]. apply Rmult_le_compat_l; [apply norm_nn|exact Kb].
Qed.
(** normalization of a vector near C *)
Lemma normalize_near L e c C : vnear e c C -> 0 < norm C -> / IZR (2 ^ 48) <= norm (vals (l3 c)) <= IZR (2 ^ 62) ->
  vnear (2 * e / norm C + 15/2 * u + 2 * tiny) (normalize3 (F32 L) c) (unit_of C).
Proof.
  intros (LC & Fc & K) PC HN. destruct (C72_normalize_pf L) as (_ & H & _). destruct (H c Fc HN) as (F & KN & _). clear H.
  assert (LU : length (unit_of C) = 3%nat) by (unfold unit_of; now rewrite vscale_len).
  split; [exact LU|]. split; [exact F|]. set (v := vals (l3 c)) in *. assert (Lv : length v = 3%nat) by reflexivity. cbv zeta in KN. fold v in KN.
  assert (PN : 0 < norm v) by (eapply Rlt_le_trans; [|apply HN]; apply Rinv_0_lt_compat; now apply (IZR_lt 0)).
  replace (2 * e / norm C + 15/2 * u + 2 * tiny) with ((15/2 * u + 2 * tiny) + 2 * e / norm C) by ring.
  assert (LUv : length (unit_of v) = 3%nat) by (unfold unit_of; now rewrite vscale_len).
  set (n := vals (l3 (normalize3 (F32 L) c))). match goal with |- _ <= ?r => change (norm (vsub n (unit_of C)) <= r) end.
  apply (norm_from_parts (vsub n (unit_of v)) (vsub (unit_of v) (unit_of C))).
  - now apply vsub_len.
  - now apply vsub_len.
  - assert (Ln : length n = 3%nat) by reflexivity. clear -LU LUv Ln. clearbody n. set (p := unit_of v) in *. set (q := unit_of C) in *. clearbody p q.
    list3 n. list3 p. list3 q. unfold vadd, vsub. cbn. lring.
  - replace (15/2 * u) with (15/2 * u * norm (unit_of v)) by (rewrite unit_norm by assumption; ring).
    apply norm_diff; [reflexivity|exact LUv|pose proof u_val; lra|left; apply tiny_pos|].
    set (w := unit_of v). assert (W : w = map (fun x => x / norm v) v) by (unfold w, unit_of, vscale; apply map_ext; intros; unfold Rdiv; ring). rewrite W. clear w W.
    clear -KN. destruct (normalize3 (F32 L) c) as [n0 n1 n2]. destruct c as [c0 c1 c2]. set (N := norm v) in *. clearbody N. unfold v in *.
    replace (INR 3 / 2 + 6) with (15/2) in KN by (cbn [INR]; field). cbn in KN |- *.
    apply Forall2_cons_iff in KN as [K0 K]. apply Forall2_cons_iff in K as [K1 K]. apply Forall2_cons_iff in K as [K2 _].
    repeat (apply Forall2_cons; [assumption|]). apply Forall2_nil.
  - eapply Rle_trans; [apply unit_perturb; assumption|]. unfold Rdiv. apply Rmult_le_compat_r; [left; now apply Rinv_0_lt_compat|]. lra.
Qed.
(** inner product of a vector near A with an exact vector *)
Lemma dot_near L e a A (b : vec3 f32) : vnear e a A -> all_finite (l3 b) -> norm (vals (l3 a)) <= IZR (2 ^ 62) -> norm (vals (l3 b)) <= IZR (2 ^ 62) ->
  finite (dot3 (F32 L) a b) /\ Rabs (b2r (dot3 (F32 L) a b) - ip A (vals (l3 b))) <= (e + 3001/1000 * u * norm (vals (l3 a))) * norm (vals (l3 b)) + 3 * tiny.
Proof.
  intros (LA & Fa & Ka) Fb Ba Bb.
  assert (F : finite (dot3 (F32 L) a b)).
  { destruct (C71_products_pf L) as (_ & H & _). assert (X : all_finite [dot3 (F32 L) a b]); [|unfold all_finite in X; now apply Forall_cons_iff in X].
    apply (H a b (IZR (2 ^ 62))).
    - now apply (IZR_le 1).
    - unfold all_finite in *. apply Forall_app. now split.
    - apply Forall_app. split; now apply bounded_of_norm.
    - cbn [pow]. rewrite Rmult_1_r, <- !mult_IZR. apply IZR_lt. reflexivity. }
  split; [exact F|]. destruct (C64_dot_pf L) as (_ & H & _). specialize (H a b F). unfold near in H.
  assert (E1 : total (map (fun p => fst p * snd p) (combine (vals (l3 a)) (vals (l3 b)))) = ip (vals (l3 a)) (vals (l3 b))) by (destruct a, b; reflexivity).
  assert (E2 : total (map (fun p => fst p * snd p) (combine (mags (l3 a)) (mags (l3 b)))) = ip (map Rabs (vals (l3 a))) (map Rabs (vals (l3 b)))) by (destruct a, b; reflexivity).
  rewrite E1, E2 in H. clear E1 E2. set (va := vals (l3 a)) in *. set (vb := vals (l3 b)) in *.
  assert (Lva : length va = 3%nat) by reflexivity. assert (Lvb : length vb = 3%nat) by reflexivity.
  pose proof (ip_norm (map Rabs va) (map Rabs vb) ltac:(now rewrite map_length) ltac:(now rewrite map_length)) as I1. rewrite !norm_abs in I1.
  pose proof (ip_norm (vsub va A) vb ltac:(now apply vsub_len) Lvb) as I2.
  assert (G : 0 <= gam 3 <= 3001/1000 * u) by (split; [apply gam_nonneg; lia|]; unfold gam; rewrite uval; cbn [INR]; lra).
  pose proof (Rle_abs (ip (map Rabs va) (map Rabs vb))) as I3. pose proof (norm_nn va). pose proof (norm_nn vb). pose proof u_val as U.
  assert (P : gam 3 * ip (map Rabs va) (map Rabs vb) <= 3001/1000 * u * (norm va * norm vb)).
  { apply Rle_trans with (gam 3 * (norm va * norm vb)); [apply Rmult_le_compat_l; lra|]. apply Rmult_le_compat_r; [apply Rmult_le_pos; lra|lra]. }
  assert (Q : Rabs (ip (vsub va A) vb) <= e * norm vb) by (eapply Rle_trans; [exact I2|apply Rmult_le_compat_r; assumption]).
  assert (S : ip va vb - ip A vb = ip (vsub va A) vb).
  { clear -LA Lva Lvb. clearbody va vb. list3 va. list3 vb. list3 A. unfold ip, vsub. cbn. ring. }
  replace (b2r (dot3 (F32 L) a b) - ip A vb) with ((b2r (dot3 (F32 L) a b) - ip va vb) + (ip va vb - ip A vb)) by ring. rewrite S.
  eapply Rle_trans; [apply Rabs_triang|]. replace (INR 3 * tiny) with (3 * tiny) in H by (cbn [INR]; ring). lra.
Qed.
