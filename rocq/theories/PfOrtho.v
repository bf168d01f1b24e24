(** * Proofs: cross product, orthogonal vectors, octahedral encoding over the reals *)
From Coq Require Import ZArith Bool Reals List Lra.
From Flocq Require Import Core IEEE754.BinarySingleNaN.
From Verif Require Import Scalar IEEE32 F32Tac RealInst FloatBasics Outcome Types Spec SpecF32 SpecR RealTac ModelVec ModelCommon
  ModelQuat ModelExp ModelGeom.
Import ListNotations.
Local Open Scope R_scope.
(*HEADER END*)
From Verif Require Import PfGeom.
From Coq Require Import Lia.

Ltac vring := intros; vdestruct; unfold ip; rs; first [ring | f_equal; ring].

(** ** C34 *)
(** C34: the algebra of the cross product; [det] is the triple product. *)
Lemma C34_cross_pf :
  let add := vec3_add RS in let scale := vec3_mul_sc RS in let X := cross RS in
  (forall u v w, X (add u v) w = add (X u w) (X v w)) /\
  (forall u v w, X u (add v w) = add (X u v) (X u w)) /\
  (forall a u v, X (scale u a) v = scale (X u v) a /\ X u (scale v a) = scale (X u v) a) /\
  (forall u v, X u v = vec3_neg RS (X v u)) /\
  (forall u v, ip (l3 u) (l3 (X u v)) = 0 /\ ip (l3 v) (l3 (X u v)) = 0) /\
  (forall u v, ip (l3 (X u v)) (l3 (X u v)) = ip (l3 u) (l3 u) * ip (l3 v) (l3 v) - (ip (l3 u) (l3 v))^2) /\
  (forall u v w, add (X u (X v w)) (add (X v (X w u)) (X w (X u v))) = V3 0 0 0) /\
  (forall u v w, X u (X v w) = vec3_sub RS (scale v (ip (l3 u) (l3 w))) (scale w (ip (l3 u) (l3 v)))) /\
  (forall u v w, ip (l3 u) (l3 (X v w)) = ip (l3 v) (l3 (X w u))) /\
  X (V3 1 0 0) (V3 0 1 0) = V3 0 0 1.
Proof.
  cbv zeta. ands; try (intros; split); vring.
Qed.

(** C34: |u x v| = |u| |v| sin of the angle, so parallel vectors are those with zero cross product. *)
Lemma C34_parallel_pf : forall u v : vec3 R, ~ zeros (l3 v) ->
  (l3 (cross RS u v) = [0; 0; 0] <-> exists k, l3 u = map (Rmult k) (l3 v)).
Proof.
  intros u v Z. split.
  - intros E. exists (ip (l3 u) (l3 v) / ip (l3 v) (l3 v)).
    assert (V : ip (l3 v) (l3 v) <> 0) by (intros H; now apply ip_zero in H).
    revert E V. clear Z. destruct u as [a b c], v as [x y z]. unfold ip. rs. intros E V. injection E as E1 E2 E3.
    set (q := _ + _) in V.
    assert (F : forall a b, a * q - b = 0 -> a = b / q) by (intros p r Hp; replace r with (p * q) by lra; field; exact V).
    f_equal; [|f_equal; [|f_equal]]; match goal with |- ?a = ?b / ?d * ?c => transitivity ((b * c) / q); [|unfold Rdiv, q; ring] end; apply F; unfold q.
    + transitivity (y * (a * y - b * x) - z * (c * x - a * z)); [ring|rewrite E3, E2; ring].
    + transitivity (z * (b * z - c * y) - x * (a * y - b * x)); [ring|rewrite E1, E3; ring].
    + transitivity (x * (c * x - a * z) - y * (b * z - c * y)); [ring|rewrite E1, E2; ring].
  - intros [k E]. revert E. clear Z. vdestruct. rs. intros E. injection E as -> -> ->.
    repeat (apply cons_eq; [ring|]). reflexivity.
Qed.

(*PROPS
Example C34_ex : cross RS (V3 1 2 3) (V3 4 5 6) = V3 (- 3) 6 (- 3).
Proof. rs. f_equal; ring. Qed.

PROPS*)
(** ** C38 *)
(** C38: orthogonal gives a nonzero perpendicular vector. *)
Lemma C38_orthogonal_pf : forall v : vec3 R,
  ip (l3 v) (l3 (orthogonal RS v)) = 0 /\
  (~ zeros (l3 v) -> ~ zeros (l3 (orthogonal RS v))).
Proof.
  intros v. split.
  - vdestruct. unfold ip. rs. rbool; cbv; ring.
  - intros Z O. apply Z. revert O. clear Z. vdestruct. unfold zeros. rs. rbool; cbv [fold_right]; intros O;
      inversion O as [|? ? O1 O']; subst; inversion O' as [|? ? O2 O'']; subst; inversion O'' as [|? ? O3 O3']; subst; clear O O' O'' O3'.
    + exfalso. rewrite Rabs_R0 in H. pose proof (Rabs_pos e1). lra.
    + assert (e1 = 0) by lra. subst. rewrite Rabs_R0 in H. pose proof (Rabs_pos e).
      assert (e = 0). { destruct (Req_dec e 0) as [|N]; [assumption|]. apply Rabs_pos_lt in N. lra. }
      subst. repeat constructor.
Qed.

(** C38: orthogonal_branchless is perpendicular, and nonzero on every unit vector. *)
Lemma C38_branchless_pf : forall v : vec3 R,
  ip (l3 v) (l3 (orthogonal_branchless RS v)) = 0 /\
  (norm (l3 v) = 1 -> ~ zeros (l3 (orthogonal_branchless RS v))).
Proof.
  intros v. split.
  - vdestruct. unfold ip. rs. cbv; ring.
  - intros U. apply norm1_ip in U. revert U. destruct v as [x y z]. unfold ip, zeros. rs. cbv [fold_right]. intros U O.
    inversion O as [|? ? O1 O']; subst; inversion O' as [|? ? O2 O'']; subst; inversion O'' as [|? ? O3 O3']; subst; clear O O' O'' O3'.
    assert (y = 0) by lra. subst y. clear O1 O3.
    set (a := Rabs x) in *. assert (A0 : 0 <= a) by apply Rabs_pos.
    assert (AX : a * a = x * x) by (unfold a; rewrite <- Rabs_mult; apply Rabs_pos_eq; nra).
    assert (A1 : a <= 1) by nra.
    assert (Z1 : Rabs z * Rabs z = 1 - a * a) by (rewrite <- Rabs_mult, Rabs_pos_eq; nra).
    pose proof (Rabs_pos z) as Z0.
    assert (Q : forall k : R, 0 <= k -> x - k * z = 0 -> a = k * Rabs z).
    { intros k K E. unfold a. replace x with (k * z) by lra. rewrite Rabs_mult, (Rabs_pos_eq k) by lra. reflexivity. }
    assert (half : 5 / 10 = / 2) by lra. rewrite half in O2.
    destruct (Rlt_or_le a (/ 2)) as [H|H].
    + assert (F : Zfloor (a + / 2) = 0%Z) by (apply Zfloor_imp; cbn; lra).
      rewrite F in O2. cbn in O2. apply Q in O2; [|lra].
      assert (3 / 4 < Rabs z) by nra. nra.
    + assert (F : Zfloor (a + / 2) = 1%Z) by (apply Zfloor_imp; cbn; lra).
      rewrite F in O2. cbn in O2. apply Q in O2; [|lra]. nra.
Qed.

(** C38: but off the unit sphere it can be the zero vector. *)
Lemma C38_branchless_refuted_pf : exists v : vec3 R, ~ zeros (l3 v) /\ orthogonal_branchless RS v = V3 0 0 0.
Proof.
  exists (V3 1 0 2). split.
  - intros Z. inversion Z; lra.
  - rs. rewrite Rabs_R1. assert (F : Zfloor (1 + 5 / 10) = 1%Z) by (apply Zfloor_imp; cbn; lra).
    rewrite F. f_equal; field.
Qed.

(*PROPS
Example C38_ex : orthogonal RS (V3 1 2 3) = V3 0 (- 3) 2.
Proof. rs. rewrite !Rabs_pos_eq by lra. now rewrite Rlt_bool_false by lra. Qed.
(** the zero result above is what binary32 computes as well *)
Example C38_ex2 : orthogonal_branchless (F32 L0) (V3 (f32_lit 1 0) (f32_lit 0 0) (f32_lit 2 0)) =
  V3 (Bopp (f32_lit 0 0)) (f32_lit 0 0) (f32_lit 0 0).
Proof. f32_eq. Qed.

PROPS*)
(** ** C39 *)
Definition sg (x : R) : R := if Rle_bool 0 x then 1 else - 1.
Definition l1norm (v : vec3 R) : R := Rabs (x3 v) + Rabs (y3 v) + Rabs (z3 v).

Lemma l1norm_pos v : ~ zeros (l3 v) -> 0 < l1norm v.
Proof.
  intros Z. destruct v as [a b c]. unfold l1norm; cbn.
  pose proof (Rabs_pos a). pose proof (Rabs_pos b). pose proof (Rabs_pos c).
  destruct (Req_dec a 0) as [->|Ha]; [|apply Rabs_pos_lt in Ha; lra].
  destruct (Req_dec b 0) as [->|Hb]; [|apply Rabs_pos_lt in Hb; lra].
  destruct (Req_dec c 0) as [->|Hc]; [|apply Rabs_pos_lt in Hc; lra].
  exfalso. apply Z. repeat constructor.
Qed.

Lemma enc_scale v a : 0 < a -> encode_octahedral RS (vec3_mul_sc RS v a) = encode_octahedral RS v.
Proof.
  intros Ha. destruct v as [x y z]. rs.
  assert (E : Rle_bool (z * a) 0 = Rle_bool z 0).
  { destruct (Rle_bool_spec z 0); [apply Rle_bool_true|apply Rle_bool_false]; nra. }
  rewrite E.
  assert (K : forall t, t * a * (1 / (Rabs (x * a) + Rabs (y * a) + Rabs (z * a))) = t * (1 / (Rabs x + Rabs y + Rabs z))).
  { intros t. rewrite !Rabs_mult, (Rabs_pos_eq a) by lra. rewrite <- !Rmult_plus_distr_r. unfold Rdiv. rewrite Rinv_mult. generalize (/ (Rabs x + Rabs y + Rabs z)). intros i. field. lra. }
  rewrite !K.
  reflexivity.
Qed.

Definition unit1 (v : vec3 R) : vec3 R := vec3_mul_sc RS v (/ l1norm v).
Lemma unit1_norm v : ~ zeros (l3 v) -> l1norm (unit1 v) = 1.
Proof.
  intros Z. apply l1norm_pos in Z. unfold unit1. set (s := l1norm v) in *.
  assert (0 < / s) by now apply Rinv_0_lt_compat.
  unfold l1norm, vec3_mul_sc, IMPL_V3_SC_BINOP; cbn. rewrite !Rabs_mult, !(Rabs_pos_eq (/ s)) by lra.
  transitivity (s * / s); [unfold s at 4, l1norm; ring|field; lra].
Qed.

Lemma enc1 p q r : Rabs p + Rabs q + Rabs r = 1 ->
  encode_octahedral RS (V3 p q r) = if Rle_bool r 0 then V2 ((1 - Rabs q) * sg p) ((1 - Rabs p) * sg q) else V2 p q.
Proof.
  intros E. rs. rewrite E. replace (1 / 1) with 1 by field. rewrite !Rmult_1_r. destruct (Rle_bool r 0); reflexivity.
Qed.

Lemma reduce v : ~ zeros (l3 v) -> exists p q r,
  Rabs p + Rabs q + Rabs r = 1 /\ encode_octahedral RS v = encode_octahedral RS (V3 p q r) /\
  normalize3 RS v = normalize3 RS (V3 p q r) /\ (z3 v < 0 -> r < 0) /\ (0 <= z3 v -> 0 <= r) /\ ~ zeros [p; q; r].
Proof.
  intros Z. pose proof (unit1_norm v Z) as U. pose proof (l1norm_pos v Z) as P.
  assert (I : 0 < / l1norm v) by now apply Rinv_0_lt_compat.
  destruct (unit1 v) as [p q r] eqn:E. exists p, q, r. ands.
  - exact U.
  - rewrite <- E. symmetry. now apply enc_scale.
  - rewrite <- E. unfold unit1. destruct C33_normalize_pf as (_ & N & _). symmetry. now apply N.
  - intros H. assert (r = z3 v * / l1norm v) by (unfold unit1 in E; destruct v; cbn in E; now injection E). nra.
  - intros H. assert (r = z3 v * / l1norm v) by (unfold unit1 in E; destruct v; cbn in E; now injection E). nra.
  - intros H. inversion H as [|? ? H1 H']; subst; inversion H' as [|? ? H2 H'']; subst; inversion H''; subst.
    unfold l1norm in U; cbn in U. rewrite Rabs_R0 in U. lra.
Qed.

Lemma sg_cases x : (0 <= x /\ sg x = 1) \/ (x < 0 /\ sg x = - 1).
Proof. unfold sg. destruct (Rle_bool_spec 0 x); [left|right]; split; auto. Qed.

Lemma dec_spec e : exists a b c, decode_octahedral RS e = normalize3 RS (V3 a b c) /\
  c = 1 - Rabs (x2 e) - Rabs (y2 e) /\
  (c < 0 -> a = 1 - Rabs (y2 e) * sg (x2 e) /\ b = 1 - Rabs a * sg (y2 e)) /\
  (0 <= c -> a = x2 e /\ b = y2 e).
Proof.
  destruct e as [x y]. unfold decode_octahedral. cbn [x2 y2 z3 RS slt ssub sabs abs_f slit Rlit].
  destruct (Rlt_bool_spec (1 - Rabs x - Rabs y) 0) as [H|H].
  - eexists _, _, _. split; [reflexivity|]. split; [reflexivity|]. split; [|cbn; lra]. intros _. split; reflexivity.
  - eexists _, _, _. split; [reflexivity|]. split; [reflexivity|]. split; [cbn; lra|]. intros _. split; reflexivity.
Qed.

(** C39: the encoding lies in the square and depends only on the direction. *)
Lemma C39_encode_pf : forall v : vec3 R, ~ zeros (l3 v) ->
  Forall (fun c => -1 <= c <= 1) (l2 (encode_octahedral RS v)) /\
  (forall a, 0 < a -> encode_octahedral RS (vec3_mul_sc RS v a) = encode_octahedral RS v).
Proof.
  intros v Z. split; [|intros; now apply enc_scale].
  destruct (reduce v Z) as (p & q & r & E & -> & _). rewrite enc1 by exact E.
  pose proof (Rabs_pos p). pose proof (Rabs_pos q). pose proof (Rabs_pos r).
  assert (- Rabs p <= p <= Rabs p) by (split; [pose proof (Rle_abs (- p)); rewrite Rabs_Ropp in *; lra|apply Rle_abs]).
  assert (- Rabs q <= q <= Rabs q) by (split; [pose proof (Rle_abs (- q)); rewrite Rabs_Ropp in *; lra|apply Rle_abs]).
  destruct (Rle_bool r 0); unfold l2; cbn [x2 y2]; (apply Forall_cons; [|apply Forall_cons; [|apply Forall_nil]]); try lra;
    [destruct (sg_cases p) as [[? ->]|[? ->]]|destruct (sg_cases q) as [[? ->]|[? ->]]]; lra.
Qed.

(** C39: decoding always gives a unit vector. *)
Lemma C39_decode_unit_pf : forall e : vec2 R, norm (l3 (decode_octahedral RS e)) = 1.
Proof.
  intros e. destruct (dec_spec e) as (a & b & c & -> & Ec & H1 & H2).
  destruct C33_normalize_pf as (_ & N & _). apply N. intros Z.
  inversion Z as [|? ? Z1 Z']; subst; inversion Z' as [|? ? Z2 Z'']; subst; inversion Z'' as [|? ? Z3 Z3']; subst. cbn in *. subst.
  destruct H2 as [Hx Hy]; [lra|]. rewrite <- Hx, <- Hy, Rabs_R0 in Z3. lra.
Qed.

(** C39: decode inverts encode on the closed upper hemisphere. *)
Lemma C39_roundtrip_upper_pf : forall v : vec3 R, ~ zeros (l3 v) -> 0 <= z3 v ->
  decode_octahedral RS (encode_octahedral RS v) = normalize3 RS v.
Proof.
  intros v Z Hz. destruct (reduce v Z) as (p & q & r & E & -> & -> & _ & Hr & _). specialize (Hr Hz).
  rewrite enc1 by exact E. rewrite (Rabs_pos_eq r) in E by exact Hr.
  assert (K : (if Rle_bool r 0 then V2 ((1 - Rabs q) * sg p) ((1 - Rabs p) * sg q) else V2 p q) = V2 p q).
  { destruct (Rle_bool_spec r 0); [|reflexivity]. assert (r = 0) by lra. subst.
    replace (1 - Rabs q) with (Rabs p) by lra. replace (1 - Rabs p) with (Rabs q) by lra.
    assert (S : forall x, Rabs x * sg x = x).
    { intros x. destruct (sg_cases x) as [[? ->]|[? ->]]; [rewrite Rabs_pos_eq by lra|rewrite Rabs_left by lra]; ring. }
    now rewrite !S. }
  etransitivity; [exact (f_equal (decode_octahedral RS) K)|]. destruct (dec_spec (V2 p q)) as (a & b & c & -> & Ec & _ & H2). cbn in *.
  destruct H2 as [-> ->]; [lra|]. f_equal. f_equal. lra.
Qed.

(** C39: and never on the open lower hemisphere. *)
Lemma C39_roundtrip_lower_refuted_pf : forall v : vec3 R, z3 v < 0 ->
  decode_octahedral RS (encode_octahedral RS v) <> normalize3 RS v.
Proof.
  intros v Hz.
  assert (Z : ~ zeros (l3 v)). { destruct v; cbn in *. intros Z. inversion Z as [|? ? _ Z']; subst. inversion Z' as [|? ? _ Z'']; subst. inversion Z''; subst. lra. }
  destruct (reduce v Z) as (p & q & r & E & -> & -> & Hr & _ & Zp). specialize (Hr Hz).
  rewrite enc1 by exact E. rewrite (Rabs_left r) in E by exact Hr. rewrite Rle_bool_true by lra.
  pose proof (Rabs_pos p) as Pp. pose proof (Rabs_pos q) as Pq.
  set (ex := (1 - Rabs q) * sg p). set (ey := (1 - Rabs p) * sg q).
  assert (Ax : Rabs ex = 1 - Rabs q).
  { unfold ex. destruct (sg_cases p) as [[? ->]|[? ->]]; [rewrite Rmult_1_r, Rabs_pos_eq by lra|rewrite Rabs_left by lra]; ring. }
  assert (Ay : Rabs ey = 1 - Rabs p).
  { unfold ey. destruct (sg_cases q) as [[? ->]|[? ->]]; [rewrite Rmult_1_r, Rabs_pos_eq by lra|rewrite Rabs_left by lra]; ring. }
  destruct (dec_spec (V2 ex ey)) as (a & b & c & -> & Ec & H1 & _). cbn [x2 y2] in *.
  rewrite Ax, Ay in Ec. assert (Hcr : c = r) by lra. rewrite Hcr in *. clear c Hcr Ec. destruct H1 as [Ha Hb]; [lra|].
  intros N.
  destruct C33_normalize_pf as (_ & NN & _).
  assert (Zc : ~ zeros (l3 (V3 a b r))). { cbn. intros Q. inversion Q as [|? ? _ Q']; subst. inversion Q' as [|? ? _ Q'']; subst. inversion Q''; subst. lra. }
  destruct (NN _ Zc) as (_ & [k [K0 K]] & _). destruct (NN (V3 p q r) Zp) as (_ & [k' [K0' K']] & _).
  assert (N' := eq_trans (eq_sym K) (eq_trans N K')). clear N. rs_in N'. injection N' as N1 N2 N3.
  assert (k = k') by nra. subst k'. assert (Eap : a = p) by nra. assert (Ebq : b = q) by nra. rewrite Eap in Hb. rewrite Eap in Ha. rewrite Ebq in Hb. clear N1 N2 N3 K K' NN.
  assert (Sx : sg ex = sg p).
  { unfold ex. destruct (sg_cases p) as [[? ->]|[? ->]]; unfold sg.
    - rewrite Rle_bool_true by lra. reflexivity.
    - rewrite Rle_bool_false by lra. reflexivity. }
  assert (Sy : sg ey = sg q).
  { unfold ey. destruct (sg_cases q) as [[? ->]|[? ->]]; unfold sg.
    - rewrite Rle_bool_true by lra. reflexivity.
    - rewrite Rle_bool_false by lra. reflexivity. }
  rewrite Ay, Sx in Ha. rewrite Sy in Hb.
  destruct (sg_cases p) as [[Hp Ep]|[Hp Ep]]; rewrite Ep in *; [|lra].
  rewrite (Rabs_pos_eq p) in * by lra.
  destruct (sg_cases q) as [[Hq Eq]|[Hq Eq]]; rewrite Eq in *.
  - rewrite (Rabs_pos_eq q) in * by lra. lra.
  - lra.
Qed.

(*PROPS
(** (0,0,-1) encodes to the corner (1,1), which decodes to (0,1,-1)/sqrt 2 *)
Example C39_ex : encode_octahedral (F32 L0) (V3 (f32_lit 0 0) (f32_lit 0 0) (f32_lit (-1) 0)) = V2 (f32_lit 1 0) (f32_lit 1 0) /\
  Beqb (y3 (decode_octahedral (F32 L0) (V2 (f32_lit 1 0) (f32_lit 1 0)))) (f32_lit 0 0) = false.
Proof. split; [f32_eq|reflexivity]. Qed.

PROPS*)
