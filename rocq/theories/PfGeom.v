(** * Proofs: dot, length, normalize, reflect, refract over the reals *)
From Coq Require Import ZArith Bool Reals List Lra.
From Flocq Require Import Core IEEE754.BinarySingleNaN.
From Verif Require Import Scalar IEEE32 F32Tac RealInst FloatBasics Outcome Types Spec SpecF32 SpecR RealTac ModelVec ModelCommon
  ModelQuat ModelExp ModelGeom.
Import ListNotations.
Local Open Scope R_scope.
(** a float as a one-component vector *)
Notation l1 := (fun x : R => [x]).
(*HEADER END*)
From Coq Require Import Lia.

(** ** From lists to the library's types *)
Section Generic.
Context {V : Type} (comps : V -> list R) (n : nat) (add : V -> V -> V) (sub : V -> V -> V) (scale : V -> R -> V).
Hypothesis comps_inj : forall u v, comps u = comps v -> u = v.
Hypothesis comps_len : forall u, length (comps u) = n.
Hypothesis add_comps : forall u v, comps (add u v) = zip Rplus (comps u) (comps v).
Hypothesis sub_comps : forall u v, comps (sub u v) = zip Rminus (comps u) (comps v).
Hypothesis scale_comps : forall u a, comps (scale u a) = map (Rmult a) (comps u).

Lemma len_eq u v : length (comps u) = length (comps v).
Proof. now rewrite !comps_len. Qed.

Lemma inner_generic dot : (forall u v, dot u v = ip (comps u) (comps v)) ->
  inner_product_ok comps add scale dot.
Proof.
  intros D. unfold inner_product_ok. ands; intros; rewrite ?D, ?add_comps, ?scale_comps.
  - reflexivity.
  - apply ip_comm.
  - apply ip_add_l, len_eq.
  - apply ip_scale_l.
  - apply ip_pos.
  - apply ip_zero.
  - apply cauchy_schwarz, len_eq.
Qed.

Lemma norm_generic len : (forall u, len u = norm (comps u)) -> norm_ok comps add scale len.
Proof.
  intros D. unfold norm_ok. ands; intros; rewrite ?D, ?add_comps, ?scale_comps.
  - reflexivity.
  - apply norm_pos.
  - apply norm_zero.
  - apply norm_scale.
  - apply norm_triangle, len_eq.
Qed.

Lemma metric_generic dist : (forall u v, dist u v = norm (zip Rminus (comps u) (comps v))) ->
  metric_ok comps dist.
Proof.
  intros D. unfold metric_ok. ands; intros; rewrite ?D.
  - reflexivity.
  - rewrite norm_zero. split.
    + intros Z. apply comps_inj, zip_sub_zero; [apply len_eq|exact Z].
    + intros ->. apply zip_sub_self.
  - replace (zip Rminus (comps u) (comps v)) with (map (Rmult (- 1)) (zip Rminus (comps v) (comps u))).
    + rewrite norm_scale, Rabs_left by lra. ring.
    + pose proof (len_eq u v) as E. revert E. generalize (comps u) (comps v).
      induction l as [|a l IH]; intros [|b l']; cbn; intros E; try discriminate; [reflexivity|].
      rewrite IH by congruence. f_equal. ring.
  - replace (zip Rminus (comps u) (comps w)) with (zip Rplus (zip Rminus (comps u) (comps v)) (zip Rminus (comps v) (comps w))).
    + apply norm_triangle. rewrite !zip_len; [apply len_eq|apply len_eq|apply len_eq].
    + pose proof (len_eq u v) as E. pose proof (len_eq v w) as E2. revert E E2. generalize (comps u) (comps v) (comps w).
      induction l as [|a l IH]; intros [|b l'] [|c l'']; cbn; intros E E2; try discriminate; [reflexivity|].
      rewrite IH by congruence. f_equal. ring.
Qed.

Lemma normalize_generic nrm : (forall v, ~ zeros (comps v) -> comps (nrm v) = map (Rmult (/ norm (comps v))) (comps v)) ->
  normalize_ok comps scale nrm.
Proof.
  intros D v Z.
  assert (N : 0 < norm (comps v)).
  { destruct (norm_pos (comps v)) as [H|H]; [exact H|]. symmetry in H. apply norm_zero in H. contradiction. }
  assert (P : 0 < / norm (comps v)) by (now apply Rinv_0_lt_compat).
  assert (U : norm (comps (nrm v)) = 1).
  { rewrite D by exact Z. rewrite norm_scale, Rabs_pos_eq by lra. field. lra. }
  ands.
  - exact U.
  - exists (/ norm (comps v)). split; [exact P|]. apply comps_inj. now rewrite scale_comps, D.
  - apply comps_inj. rewrite D.
    + rewrite U, Rinv_1. apply scale_1.
    + intros Q. apply norm_zero in Q. rewrite Q in U. lra.
  - intros a Ha. apply comps_inj. rewrite !D; [|exact Z|].
    + rewrite scale_comps, norm_scale, scale_scale. rewrite (Rabs_pos_eq a) by lra. f_equal. f_equal. field. lra.
    + rewrite scale_comps. intros Q. apply zeros_scale in Q; [contradiction|lra].
Qed.

Lemma reflect_generic refl :
  (forall i m, comps (refl i m) = zip Rminus (comps i) (map (Rmult (2 * ip (comps m) (comps i))) (comps m))) ->
  reflection_ok comps refl.
Proof.
  intros D i m U. apply norm1_ip in U.
  assert (El : forall a, length (comps i) = length (map (Rmult a) (comps m))) by (intros; rewrite map_length; apply len_eq).
  assert (I2 : ip (comps (refl i m)) (comps m) = - ip (comps i) (comps m)).
  { rewrite D, ip_sub_l, ip_scale_l, U, (ip_comm (comps m) (comps i)) by apply El. ring. }
  ands.
  - apply comps_inj. rewrite D. rewrite (ip_comm (comps m)), I2, D, (ip_comm (comps m)).
    pose proof (len_eq i m) as E. revert E. generalize (ip (comps i) (comps m)) as d. generalize (comps i) (comps m).
    induction l as [|a l IH]; intros [|b l'] d; cbn; intros E; try discriminate; [reflexivity|].
    rewrite IH by congruence. f_equal. ring.
  - unfold norm. f_equal. rewrite D. rewrite ip_sub_l by apply El. rewrite !ip_sub_r by apply El.
    rewrite !ip_scale_l, !ip_scale_r, U, (ip_comm (comps m) (comps i)). ring.
  - exact I2.
  - intros O. apply comps_inj. rewrite D, (ip_comm (comps m)), O, Rmult_0_r.
    pose proof (len_eq i m) as E. revert E. generalize (comps i) (comps m).
    induction l as [|a l IH]; intros [|b l']; cbn; intros E; try discriminate; [reflexivity|].
    rewrite IH by congruence. f_equal. ring.
  - intros a E. rewrite D, E, ip_scale_r, U, Rmult_1_r.
    generalize (comps m). induction l as [|b l IH]; cbn; [reflexivity|]. rewrite IH. f_equal. ring.
Qed.

Lemma refract_generic refr :
  (forall i m eta, let d := ip (comps m) (comps i) in let k := 1 - eta * eta * (1 - d * d) in
     comps (refr i m eta) =
       if Rlt_bool k 0 then map (fun _ => 0) (comps i)
       else zip Rminus (map (Rmult eta) (comps i)) (map (Rmult (eta * d + sqrt k)) (comps m))) ->
  refraction_ok comps refr.
Proof.
  intros D i m eta Ui Um Hd t total. apply norm1_ip in Ui. apply norm1_ip in Um.
  set (d := ip (comps m) (comps i)) in *.
  assert (El : forall a b, length (map (Rmult a) (comps i)) = length (map (Rmult b) (comps m)))
    by (intros; rewrite !map_length; apply len_eq).
  assert (NT : ~ total -> norm t = 1 /\ ip t (comps m) <= 0 /\
     tangential t (comps m) = map (Rmult eta) (tangential (comps i) (comps m))).
  { unfold total, t. intros NT. rewrite D. fold d. cbv zeta. rewrite Rlt_bool_false by lra.
    set (k := 1 - eta * eta * (1 - d * d)). assert (Hk : 0 <= k) by (unfold k; lra).
    set (s := sqrt k). assert (Hs : s * s = k) by (now apply sqrt_sqrt). assert (Hs0 : 0 <= s) by apply sqrt_pos.
    set (T := zip Rminus (map (Rmult eta) (comps i)) (map (Rmult (eta * d + s)) (comps m))).
    assert (TN : ip T (comps m) = - s).
    { unfold T. rewrite ip_sub_l, !ip_scale_l, Um, (ip_comm (comps i)) by apply El. fold d. ring. }
    ands.
    - apply norm1_ip. unfold T. rewrite ip_sub_l by apply El. rewrite !ip_sub_r by apply El.
      rewrite !ip_scale_l, !ip_scale_r, Ui, Um, (ip_comm (comps i)). fold d.
      transitivity (eta * eta - eta * eta * d * d + s * s); [ring|].
      rewrite Hs. unfold k. ring.
    - rewrite TN. lra.
    - unfold tangential. rewrite TN, (ip_comm (comps i)). fold d. unfold T.
      pose proof (len_eq i m) as E. revert E. generalize (comps i) (comps m). clearbody d s. clear.
      induction l as [|a l IH]; intros [|b l']; cbn; intros E; try discriminate; [reflexivity|].
      rewrite IH by congruence. f_equal. ring. }
  ands.
  - split.
    + intros Z. destruct (Rlt_or_le 1 (eta * eta * (1 - d * d))) as [H|H]; [unfold total; lra|].
      exfalso. destruct NT as [N _]; [unfold total; lra|]. apply norm_zero in Z. rewrite Z in N. lra.
    + unfold total, t. intros T. rewrite D. fold d. cbv zeta. rewrite Rlt_bool_true by lra.
      unfold zeros. generalize (comps i). induction l as [|a l IH]; cbn; constructor; [reflexivity|exact IH].
  - exact NT.
  - apply comps_inj. rewrite D. fold d. cbv zeta.
    replace (1 - 1 * 1 * (1 - d * d)) with (d * d) by ring.
    rewrite Rlt_bool_false by nra.
    replace (sqrt (d * d)) with (- d).
    2:{ symmetry. change (sqrt (Rsqr d) = - d). rewrite sqrt_Rsqr_abs. apply Rabs_left1; lra. }
    pose proof (len_eq i m) as E. revert E. generalize (comps i) (comps m). clearbody d. clear.
    induction l as [|a l IH]; intros [|b l']; cbn; intros E; try discriminate; [reflexivity|].
    rewrite IH by congruence. f_equal. ring.
Qed.
End Generic.

(** ** Instances of the componentwise hypotheses *)
Lemma l1_inj (u v : R) : [u] = [v] -> u = v. Proof. congruence. Qed.
Lemma cons_eq (a b : R) u v : a = b -> u = v -> a :: u = b :: v. Proof. congruence. Qed.
Ltac law :=
  intros; vdestruct; unfold norm, ip; rs;
  first [ reflexivity | ring | repeat (apply cons_eq; [ring|]); reflexivity | f_equal; ring ].
Ltac gen lem := apply lem; solve [law | apply l1_inj | apply l2_inj | apply l3_inj | apply l4_inj | apply lq_inj].

(** ** C31 *)
(** C31: dot is a positive definite symmetric bilinear form satisfying Cauchy-Schwarz. *)
Lemma C31_dot_pf :
  inner_product_ok l1 Rplus Rmult (dot_f RS) /\
  inner_product_ok l2 (vec2_add RS) (vec2_mul_sc RS) (dot2 RS) /\
  inner_product_ok l3 (vec3_add RS) (vec3_mul_sc RS) (dot3 RS) /\
  inner_product_ok l4 (vec4_add RS) (vec4_mul_sc RS) (dot4 RS) /\
  inner_product_ok lq (quat_add RS) (quat_mul_sc RS) (dot_q RS).
Proof.
  ands; [gen (inner_generic l1 1)|gen (inner_generic (@l2 R) 2)|gen (inner_generic (@l3 R) 3)|gen (inner_generic (@l4 R) 4)
        |gen (inner_generic (@lq R) 4)].
Qed.

(** C31: length is the Euclidean norm. *)
Lemma C31_length_pf :
  norm_ok l2 (vec2_add RS) (vec2_mul_sc RS) (ModelGeom.length2 RS) /\
  norm_ok l3 (vec3_add RS) (vec3_mul_sc RS) (length3 RS) /\
  norm_ok l4 (vec4_add RS) (vec4_mul_sc RS) (length4 RS) /\
  norm_ok lq (quat_add RS) (quat_mul_sc RS) (length_q RS).
Proof.
  ands; [gen (norm_generic (@l2 R) 2)|gen (norm_generic (@l3 R) 3)|gen (norm_generic (@l4 R) 4)|gen (norm_generic (@lq R) 4)].
Qed.

(** C31: distance is the Euclidean metric. *)
Lemma C31_distance_pf :
  metric_ok l1 (distance_f RS) /\ metric_ok l2 (distance2 RS) /\ metric_ok l3 (distance3 RS) /\ metric_ok l4 (distance4 RS).
Proof.
  ands.
  - apply (metric_generic l1 1); [apply l1_inj|law|]. intros u v. unfold norm, ip. rs. cbn.
    rewrite Rplus_0_r. symmetry. apply (sqrt_Rsqr_abs (u - v)).
  - gen (metric_generic (@l2 R) 2).
  - gen (metric_generic (@l3 R) 3).
  - gen (metric_generic (@l4 R) 4).
Qed.

(*PROPS
(** the triangle 3-4-5 *)
Example C31_ex : ModelGeom.length2 RS (V2 3 4) = 5 /\ dot2 RS (V2 3 4) (V2 4 (- 3)) = 0 /\ distance2 RS (V2 4 6) (V2 1 2) = 5.
Proof.
  repeat split; rs; try ring.
  - replace (3 * 3 + 4 * 4) with (5 * 5) by ring. apply sqrt_square; lra.
  - replace ((4 - 1) * (4 - 1) + (6 - 2) * (6 - 2)) with (5 * 5) by ring. apply sqrt_square; lra.
Qed.

PROPS*)
(** ** C32 *)
(** C32: length2 is the squared length; distance2 is the squared distance for float and vec2. *)
Lemma C32_squared_pf :
  (forall v, length2_2 RS v = (ModelGeom.length2 RS v)^2) /\
  (forall v, length2_3 RS v = (length3 RS v)^2) /\
  (forall v, length2_4 RS v = (length4 RS v)^2) /\
  (forall q, length2_q RS q = (length_q RS q)^2) /\
  (forall x : R, length2_f RS x = (Rabs x)^2) /\
  (forall x y : R, distance2_f RS x y = (distance_f RS x y)^2) /\
  (forall u v, distance2_2 RS u v = (distance2 RS u v)^2).
Proof.
  assert (A : forall x, x * x = Rabs x ^ 2) by (intros x; rewrite pow2_abs; ring).
  assert (B : forall x, 0 <= x -> x = sqrt x ^ 2) by (intros x Hx; now rewrite pow2_sqrt).
  ands; intros; first [apply B|apply A]; vdestruct; rs; repeat apply Rplus_le_le_0_compat; apply Rle_0_sqr.
Qed.

(** C32: distance2 of vec3 and vec4 is the plain distance, for every scalar type ... *)
Lemma C32_distance2_is_distance_pf : forall S : Scalar,
  (forall u v, distance2_3 S u v = distance3 S u v) /\ (forall u v, distance2_4 S u v = distance4 S u v) /\
  (forall x : S, length_f S x = x).
Proof.
  intros S. ands; reflexivity.
Qed.

(** C32: ... hence not the square of the distance, unless that is 0 or 1; and length(float) is the
    length only of nonnegative numbers. *)
Lemma C32_distance2_refuted_pf :
  (forall u v, distance2_3 RS u v = (distance3 RS u v)^2 <-> distance3 RS u v = 0 \/ distance3 RS u v = 1) /\
  (forall u v, distance2_4 RS u v = (distance4 RS u v)^2 <-> distance4 RS u v = 0 \/ distance4 RS u v = 1) /\
  (forall x : R, length_f RS x = norm [x] <-> 0 <= x).
Proof.
  assert (A : forall r : R, r = r ^ 2 <-> r = 0 \/ r = 1).
  { intros r. split; [|intros [->| ->]; ring]. intros E. assert (r * (1 - r) = 0) as H by lra. apply Rmult_integral in H. destruct H; lra. }
  ands.
  - intros u v. apply A.
  - intros u v. apply A.
  - intros x. unfold norm, ip. rs. cbn. rewrite Rplus_0_r.
    replace (sqrt (x * x)) with (Rabs x) by (symmetry; apply (sqrt_Rsqr_abs x)).
    split; intros H; [rewrite H; apply Rabs_pos|now rewrite Rabs_pos_eq].
Qed.

(*PROPS
(** distance2 of two points at distance 2 is 2, not 4, in binary32 too. *)
Example C32_ex : let u := V3 (f32_lit 2 0) (f32_lit 0 0) (f32_lit 0 0) in let v := V3 (f32_lit 0 0) (f32_lit 0 0) (f32_lit 0 0) in
  distance2_3 (F32 L0) u v = f32_lit 2 0.
Proof. f32_eq. Qed.

PROPS*)
(** ** C33 *)
(** C33: normalize keeps the direction and makes the length one. *)
Lemma C33_normalize_pf :
  normalize_ok l2 (vec2_mul_sc RS) (normalize2 RS) /\
  normalize_ok l3 (vec3_mul_sc RS) (normalize3 RS) /\
  normalize_ok l4 (vec4_mul_sc RS) (normalize4 RS) /\
  normalize_ok lq (quat_mul_sc RS) (normalize_q RS).
Proof.
  assert (A : forall a r s, r = s -> a * (1 / sqrt r) = / sqrt s * a) by (intros a r s ->; unfold Rdiv; ring).
  assert (B : forall a r s, r = s -> a / sqrt r = / sqrt s * a) by (intros a r s ->; unfold Rdiv; ring).
  ands.
  - apply (normalize_generic (@l2 R)); [apply l2_inj|law|]. intros v _. vdestruct. unfold norm, ip. rs.
    repeat (apply cons_eq; [apply A; ring|]). reflexivity.
  - apply (normalize_generic (@l3 R)); [apply l3_inj|law|]. intros v _. vdestruct. unfold norm, ip. rs.
    repeat (apply cons_eq; [apply A; ring|]). reflexivity.
  - apply (normalize_generic (@l4 R)); [apply l4_inj|law|]. intros v _. vdestruct. unfold norm, ip. rs.
    repeat (apply cons_eq; [apply A; ring|]). reflexivity.
  - apply (normalize_generic (@lq R)); [apply lq_inj|law|]. intros v _. vdestruct. unfold norm, ip. rs.
    repeat (apply cons_eq; [apply B; ring|]). reflexivity.
Qed.

(** C33: in binary32 normalizing a zero vector gives NaN in every component. *)
Lemma C33_zero_pf : forall L : Libm,
  (forall v, Forall (fun x => iszero x = true) (l2 v) -> Forall (fun x => is_nan x = true) (l2 (normalize2 (F32 L) v))) /\
  (forall v, Forall (fun x => iszero x = true) (l3 v) -> Forall (fun x => is_nan x = true) (l3 (normalize3 (F32 L) v))) /\
  (forall v, Forall (fun x => iszero x = true) (l4 v) -> Forall (fun x => is_nan x = true) (l4 (normalize4 (F32 L) v))) /\
  (forall q, Forall (fun x => iszero x = true) (lq q) -> Forall (fun x => is_nan x = true) (lq (normalize_q (F32 L) q))).
Proof.
  assert (Z : forall x : f32, iszero x = true -> exists s, x = B754_zero s) by (intros [s|s| |s m e H]; cbn; try discriminate; eauto).
  intros L; ands; intros v H; vdestruct;
    repeat match goal with H : Forall _ _ |- _ => inversion H; clear H; subst | H : iszero _ = true |- _ => apply Z in H; destruct H as [? ->] end;
    repeat match goal with b : bool |- _ => destruct b end; repeat constructor; vm_compute; reflexivity.
Qed.

(*PROPS
Example C33_ex : normalize2 RS (V2 3 4) = V2 (3 / 5) (4 / 5).
Proof.
  rs. replace (3 * 3 + 4 * 4) with (5 * 5) by ring. rewrite sqrt_square by lra. f_equal; field.
Qed.

PROPS*)
(** ** C36 *)
(** C36: reflect is the mirror image. *)
Lemma C36_reflect_pf :
  reflection_ok l1 (reflect_f RS) /\ reflection_ok l2 (reflect2 RS) /\ reflection_ok l3 (reflect3 RS) /\
  reflection_ok l4 (reflect4 RS).
Proof.
  ands; [gen (reflect_generic l1 1)|gen (reflect_generic (@l2 R) 2)|gen (reflect_generic (@l3 R) 3)|gen (reflect_generic (@l4 R) 4)].
Qed.

(*PROPS
Example C36_ex : norm (l2 (V2 (3 / 5) (4 / 5))) = 1 /\ reflect2 RS (V2 1 0) (V2 (3 / 5) (4 / 5)) = V2 (7 / 25) (- (24 / 25)).
Proof.
  split.
  - unfold norm, ip; cbn. replace (3 / 5 * (3 / 5) + (4 / 5 * (4 / 5) + 0)) with 1 by field. apply sqrt_1.
  - rs. f_equal; field.
Qed.

PROPS*)
(** ** C37 *)
(** C37: refract obeys Snell's law. *)
Lemma C37_refract_pf :
  refraction_ok l1 (refract_f RS) /\ refraction_ok l2 (refract2 RS) /\ refraction_ok l3 (refract3 RS) /\
  refraction_ok l4 (refract4 RS).
Proof.
  ands; [apply (refract_generic l1 1)|apply (refract_generic (@l2 R) 2)|apply (refract_generic (@l3 R) 3)|apply (refract_generic (@l4 R) 4)];
    try solve [law | apply l1_inj | apply l2_inj | apply l3_inj | apply l4_inj];
    intros i m eta d k; unfold k.
  - replace d with (dot_f RS m i) by (unfold d; law).
    rs. destruct (Rlt_bool _ _); reflexivity.
  - replace d with (dot2 RS m i) by (unfold d; law).
    vdestruct. rs. destruct (Rlt_bool _ _); reflexivity.
  - replace d with (dot3 RS m i) by (unfold d; law).
    vdestruct. rs. destruct (Rlt_bool _ _); reflexivity.
  - replace d with (dot4 RS m i) by (unfold d; law).
    vdestruct. rs. destruct (Rlt_bool _ _); reflexivity.
Qed.

(*PROPS
(** 3/5 of the sine of a ray with sine 4/5; and total reflection at eta = 2 *)
Example C37_ex : refract2 RS (V2 (4 / 5) (- (3 / 5))) (V2 0 1) 0 = V2 0 (- 1) /\
  refract2 RS (V2 (4 / 5) (- (3 / 5))) (V2 0 1) 2 = V2 0 0.
Proof.
  split; rs.
  - rewrite Rlt_bool_false by lra. match goal with |- context [sqrt ?k] => replace k with 1 by field end.
    rewrite sqrt_1. f_equal; field.
  - now rewrite Rlt_bool_true by lra.
Qed.

PROPS*)
