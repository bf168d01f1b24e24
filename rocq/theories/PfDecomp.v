(** * Proofs: decompose_orthogonal in binary32 *)
From Coq Require Import ZArith Bool Reals List Lra Lia.
From Flocq Require Import Core IEEE754.BinarySingleNaN.
From Verif Require Import Scalar IEEE32 RealInst Types Outcome Spec SpecR SpecMat SpecGeo SpecF32 SpecErr SpecOrd SpecDom SpecAcc SpecDecomp FloatBasics FloatOps
  ModelVec ModelCommon ModelExp ModelGeom ModelMat ModelMatrix ModelQuat ModelQuaternion ModelTransform ErrLib OvfLib F32Tac RealTac.
Import ListNotations.
Local Open Scope R_scope.
(*HEADER END*)
From Coq Require Import Psatz.
From Verif Require Import FloatAlg NumLib PfErr PfOvf PfLen ScaleLib LenLib MonoLib DomLib PfDomain PfQuatAcc PfOctAcc AbsLib VecErrLib PfRound PfMono.

(** ** The orientation *)
Section Orient.
Variables (dl pk pa pb pc : R) (y Na Nb Nc : f32).
Hypothesis Hd : 0 <= dl <= / 1000.
Hypothesis N1 : pk * pk + pa * pa + pb * pb + pc * pc = 1.
Hypothesis Q : 248 / 1000 <= pk * pk.
Hypothesis Cy : close (3 * dl + 6 * u) y (4 * (pk * pk) - 1).
Hypothesis Ca : close (2 * dl + 3 * u) Na (4 * (pk * pa)).
Hypothesis Cb : close (2 * dl + 3 * u) Nb (4 * (pk * pb)).
Hypothesis Cc : close (2 * dl + 3 * u) Nc (4 * (pk * pc)).
Let r := Bsqrt mode_NE (Bplus mode_NE y (f32_lit 1 0)).
Let v := Bmult mode_NE (f32_lit 5 (-1)) r.
Let m := Bdiv mode_NE (f32_lit 5 (-1)) r.
Lemma orient_branch : exists s, (s = 1 \/ s = -1) /\ close (3 * dl + 16 * u) v (s * pk) /\ close (3 * dl + 16 * u) (Bmult mode_NE m Na) (s * pa) /\
    close (3 * dl + 16 * u) (Bmult mode_NE m Nb) (s * pb) /\ close (3 * dl + 16 * u) (Bmult mode_NE m Nc) (s * pc).
Proof.
  pose proof u_val as U.
  destruct (one_branch dl y Na Nb Nc pk pa pb pc Hd N1 Q Cy Ca Cb Cc) as (s & S & V & A & B & C).
  fold r in V, A, B, C. rewrite (bmul_comm r) in V, A, B, C. fold v in V, A, B, C. set (m' := Bdiv mode_NE (f32_lit 25 (-2)) v) in *.
  exists s. split; [exact S|]. split; [exact V|].
  destruct V as [Fv Kv]. pose proof (mult_inv _ _ Fv) as (_ & Fr & Ev). fold v in Ev. rewrite b2r_lit_half in Ev.
  assert (Bv : 49/100 <= b2r v).
  { destruct (sign_of pk) as (t & T & P). assert (Ak : 497/1000 <= Rabs pk).
    { pose proof (Rabs_pos pk). assert (Rabs pk * Rabs pk = pk * pk) by (rewrite <- Rabs_mult, Rabs_pos_eq; lra). nra. }
    assert (Pv : 0 <= b2r v). { rewrite Ev. apply rnd_pos. apply Rmult_le_pos; [lra|]. unfold r. rewrite b2r_sqrt. apply rnd_pos, sqrt_pos. }
    clear - Ak Pv Kv S U Hd. unfold Rabs in Ak. destruct (Rcase_abs pk), S as [-> | ->]; lra. }
  assert (Ev' : b2r v = / 2 * b2r r).
  { rewrite Ev. apply rnd_id. assert (G : bpow radix2 (-20) <= Rabs (/ 2 * b2r r)).
    { apply Rnot_lt_le. intros H. assert (Rabs (rnd (/ 2 * b2r r)) <= bpow radix2 (-20)) by (apply rnd_abs_le; [apply fmt_bpow; lia|lra]).
      rewrite <- Ev in H0. apply Rabs_le_inv in H0. change (bpow radix2 (-20)) with (/ 1048576) in H0. lra. }
    rewrite Rmult_comm. apply (fmt_half (b2r r)); [apply fmt_b2r|]. change (bpow radix2 (-20)) with (/ 1048576) in G. rewrite Rabs_mult, (Rabs_pos_eq (/ 2)) in G by lra.
    change (bpow radix2 (-125)) with (/ IZR (2 ^ 125)). apply Rle_trans with (/ 1000000); [|lra]. apply Rinv_le_contravar; [lra|]. apply IZR_le. vm_compute. discriminate. }
  assert (EQ : b2r m = b2r m' /\ finite m).
  { assert (Er : b2r r = 2 * b2r v) by lra. assert (Bv2 : Rabs (/ 4 / b2r v) <= 1).
    { rewrite Rabs_pos_eq; [apply (Rmult_le_reg_r (b2r v)); [lra|]; unfold Rdiv; rewrite Rmult_assoc, Rinv_l by lra; lra|apply Rmult_le_pos; [lra|left; apply Rinv_0_lt_compat; lra]]. }
    assert (B1 : Rabs (rnd (/ 4 / b2r v)) < big). { eapply Rle_lt_trans; [apply rnd_abs_le; [apply fmt_1|exact Bv2]|]. apply one_lt_big. }
    destruct (div_ok (f32_lit 25 (-2)) v) as [F1 E1]; [reflexivity|exact Fv|lra|rewrite qlit; exact B1|].
    destruct (div_ok (f32_lit 5 (-1)) r) as [F2 E2]; [reflexivity|exact Fr|lra|rewrite b2r_lit_half; replace (/ 2 / b2r r) with (/ 4 / b2r v) by (rewrite Er; field; lra); exact B1|].
    split; [|exact F2]. unfold m, m'. rewrite E1, E2, qlit, b2r_lit_half. f_equal. rewrite Er. field. lra. }
  destruct EQ as [EQ Fm].
  assert (T : forall (X : f32) w, close (3 * dl + 16 * u) (Bmult mode_NE X m') w -> close (3 * dl + 16 * u) (Bmult mode_NE m X) w).
  { intros X w [F K]. pose proof (mult_inv _ _ F) as (FX & _ & E). destruct (mult_ok m X Fm FX) as [F' E'].
    { rewrite EQ, (Rmult_comm (b2r m')), <- E. apply Rabs_def1; apply b2r_lt_big. }
    split; [exact F'|]. rewrite E', EQ, (Rmult_comm (b2r m')), <- E. exact K. }
  split; [|split]; now apply T.
Qed.
End Orient.

(** the two halves of the source function *)
Definition or_pos (S : Scalar) (Row : mat3 S) (trace : S) : quat S :=
    let orientation := quat_default S in
    let root := sqrt_f S (sadd trace f1) in
    let orientation := qset orientation 3 (smul f0_5 root) in
    let root := sdiv f0_5 root in
    let orientation := qset orientation 0 (smul root (ssub (z3 (col3 Row 1)) (y3 (col3 Row 2)))) in
    let orientation := qset orientation 1 (smul root (ssub (x3 (col3 Row 2)) (z3 (col3 Row 0)))) in
    qset orientation 2 (smul root (ssub (y3 (col3 Row 0)) (x3 (col3 Row 1)))).
Definition or_at (S : Scalar) (Row : mat3 S) (i : nat) : quat S :=
    let orientation := quat_default S in
    let j := Next i in
    let k := Next j in
    let root := sqrt_f S (sadd (ssub (ssub (at3 Row i i) (at3 Row j j)) (at3 Row k k)) f1) in
    let orientation := qset orientation i (smul f0_5 root) in
    let root := sdiv f0_5 root in
    let orientation := qset orientation j (smul root (sadd (at3 Row i j) (at3 Row j i))) in
    let orientation := qset orientation k (smul root (sadd (at3 Row i k) (at3 Row k i))) in
    qset orientation 3 (smul root (ssub (at3 Row j k) (at3 Row k j))).
Lemma or_split (S : Scalar) (Row : mat3 S) :
  let trace := sadd (sadd (x3 (col3 Row 0)) (y3 (col3 Row 1))) (z3 (col3 Row 2)) in
  let i := if slt (x3 (col3 Row 0)) (y3 (col3 Row 1)) then 1%nat else 0%nat in
  let i := if slt (at3 Row i i) (z3 (col3 Row 2)) then 2%nat else i in
  orientation_of S Row = if slt f0 trace then or_pos S Row trace else or_at S Row i.
Proof. reflexivity. Qed.
(** the branch taken and the formula in it *)
Lemma or_shape L (a00 a01 a02 a10 a11 a12 a20 a21 a22 : f32) :
  let tr := Bplus mode_NE (Bplus mode_NE a00 a11) a22 in
  let Q y (f : f32 -> f32 -> quat f32) := let r := Bsqrt mode_NE (Bplus mode_NE y (f32_lit 1 0)) in f (Bmult mode_NE (f32_lit 5 (-1)) r) (Bdiv mode_NE (f32_lit 5 (-1)) r) in
  orientation_of (F32 L) (M3 (V3 a00 a01 a02) (V3 a10 a11 a12) (V3 a20 a21 a22)) =
  if Bltb (f32_lit 0 0) tr then
    Q tr (fun v m => Quat (Bmult mode_NE m (Bminus mode_NE a12 a21)) (Bmult mode_NE m (Bminus mode_NE a20 a02)) (Bmult mode_NE m (Bminus mode_NE a01 a10)) v)
  else if Bltb a00 a11 then
    if Bltb a11 a22 then Q (Bminus mode_NE (Bminus mode_NE a22 a00) a11) (fun v m => Quat (Bmult mode_NE m (Bplus mode_NE a20 a02)) (Bmult mode_NE m (Bplus mode_NE a21 a12)) v (Bmult mode_NE m (Bminus mode_NE a01 a10)))
    else Q (Bminus mode_NE (Bminus mode_NE a11 a22) a00) (fun v m => Quat (Bmult mode_NE m (Bplus mode_NE a10 a01)) v (Bmult mode_NE m (Bplus mode_NE a12 a21)) (Bmult mode_NE m (Bminus mode_NE a20 a02)))
  else if Bltb a00 a22 then Q (Bminus mode_NE (Bminus mode_NE a22 a00) a11) (fun v m => Quat (Bmult mode_NE m (Bplus mode_NE a20 a02)) (Bmult mode_NE m (Bplus mode_NE a21 a12)) v (Bmult mode_NE m (Bminus mode_NE a01 a10)))
    else Q (Bminus mode_NE (Bminus mode_NE a00 a11) a22) (fun v m => Quat v (Bmult mode_NE m (Bplus mode_NE a01 a10)) (Bmult mode_NE m (Bplus mode_NE a02 a20)) (Bmult mode_NE m (Bminus mode_NE a12 a21))).
Proof.
  intros tr Q. rewrite or_split. cbv zeta. change (@slt (F32 L)) with (@Bltb 24 128).
  change (x3 (col3 (M3 (V3 a00 a01 a02) (V3 a10 a11 a12) (V3 a20 a21 a22)) 0)) with a00.
  change (y3 (col3 (M3 (V3 a00 a01 a02) (V3 a10 a11 a12) (V3 a20 a21 a22)) 1)) with a11.
  change (z3 (col3 (M3 (V3 a00 a01 a02) (V3 a10 a11 a12) (V3 a20 a21 a22)) 2)) with a22.
  change (@sadd (F32 L) (@sadd (F32 L) a00 a11) a22) with tr. change (@slit (F32 L) 0 0) with (f32_lit 0 0).
  destruct (Bltb (f32_lit 0 0) tr); [reflexivity|].
  destruct (Bltb a00 a11).
  - change (at3 (M3 (V3 a00 a01 a02) (V3 a10 a11 a12) (V3 a20 a21 a22)) 1 1) with a11. destruct (Bltb a11 a22); reflexivity.
  - change (at3 (M3 (V3 a00 a01 a02) (V3 a10 a11 a12) (V3 a20 a21 a22)) 0 0) with a00. destruct (Bltb a00 a22); reflexivity.
Qed.
Lemma diag_cmp dl (a b : f32) p q : close dl a (2 * p) -> close dl b (2 * q) -> (Bltb a b = true -> p <= q + dl) /\ (Bltb a b = false -> q <= p + dl).
Proof.
  intros [Fa Ka] [Fb Kb]. rewrite (bltb_b2r a b Fa Fb). destruct (Rlt_bool_spec (b2r a) (b2r b)); split; intros E; try discriminate; lra.
Qed.
Lemma orient_close L m x y z w dl : 0 <= dl <= / 1000 -> x * x + y * y + z * z + w * w = 1 ->
  Forall2 (close dl) (lm3 m) (rotation_entries (-1) x y z w) ->
  exists s, (s = 1 \/ s = -1) /\ Forall2 (close (3 * dl + 16 * u)) (lq (orientation_of (F32 L) m)) [s * x; s * y; s * z; s * w].
Proof.
  intros Hd N. destruct m as [[a00 a01 a02] [a10 a11 a12] [a20 a21 a22]]. unfold rotation_entries. cbn [lm3 l3 concat app m3c0 m3c1 m3c2 x3 y3 z3]. intros F.
  apply Forall2_cons_iff in F as [A00 F]. apply Forall2_cons_iff in F as [A01 F]. apply Forall2_cons_iff in F as [A02 F]. apply Forall2_cons_iff in F as [A10 F]. apply Forall2_cons_iff in F as [A11 F]. apply Forall2_cons_iff in F as [A12 F]. apply Forall2_cons_iff in F as [A20 F]. apply Forall2_cons_iff in F as [A21 F]. apply Forall2_cons_iff in F as [A22 F]. clear F.
  assert (B00 : -1 <= 1 + -1 * (2 * (y * y + z * z)) <= 1) by nra. assert (B11 : -1 <= 1 + -1 * (2 * (x * x + z * z)) <= 1) by nra.
  assert (B22 : -1 <= 1 + -1 * (2 * (x * x + y * y)) <= 1) by nra.
  assert (B01 : -1 <= 2 * (x * y + w * z) <= 1) by (replace (w * z) with (1 * (w * z)) by ring; apply off_range; lra).
  assert (B02 : -1 <= 2 * (x * z + -1 * (w * y)) <= 1) by (apply off_range; lra).
  assert (B10 : -1 <= 2 * (x * y + -1 * (w * z)) <= 1) by (apply off_range; lra).
  assert (B12 : -1 <= 2 * (y * z + w * x) <= 1) by (replace (w * x) with (1 * (w * x)) by ring; apply off_range; lra).
  assert (B20 : -1 <= 2 * (x * z + w * y) <= 1) by (replace (w * y) with (1 * (w * y)) by ring; apply off_range; lra).
  assert (B21 : -1 <= 2 * (y * z + -1 * (w * x)) <= 1) by (apply off_range; lra).
  assert (CE : forall e (c : f32) r r', close e c r -> r = r' -> close e c r') by (intros; subst; trivial).
  assert (CX := CE _ _ _ (4 * (x * x) - 1) (three_diff dl Hd _ _ _ _ _ _ A00 A11 A22 B00 B11 B22) ltac:(nra)).
  assert (CY := CE _ _ _ (4 * (y * y) - 1) (three_diff dl Hd _ _ _ _ _ _ A11 A22 A00 B11 B22 B00) ltac:(nra)).
  assert (CZ := CE _ _ _ (4 * (z * z) - 1) (three_diff dl Hd _ _ _ _ _ _ A22 A00 A11 B22 B00 B11) ltac:(nra)).
  assert (CW := CE _ _ _ (4 * (w * w) - 1) (three_sum dl Hd _ _ _ _ _ _ A00 A11 A22 B00 B11 B22) ltac:(nra)).
  pose proof u_val as U.
  assert (D1 := CE _ _ _ (4 * (w * x)) (two_diff dl Hd _ _ _ _ A12 A21 B12 B21) ltac:(ring)).
  assert (D2 := CE _ _ _ (4 * (w * y)) (two_diff dl Hd _ _ _ _ A20 A02 B20 B02) ltac:(ring)).
  assert (D3 := CE _ _ _ (4 * (w * z)) (two_diff dl Hd _ _ _ _ A01 A10 B01 B10) ltac:(ring)).
  assert (S1 := CE _ _ _ (4 * (x * y)) (two_sum dl Hd _ _ _ _ A01 A10 B01 B10) ltac:(ring)).
  assert (S2 := CE _ _ _ (4 * (x * z)) (two_sum dl Hd _ _ _ _ A20 A02 B20 B02) ltac:(ring)).
  assert (S3 := CE _ _ _ (4 * (y * z)) (two_sum dl Hd _ _ _ _ A12 A21 B12 B21) ltac:(ring)).
  assert (S1' := CE _ _ _ (4 * (y * x)) (two_sum dl Hd _ _ _ _ A10 A01 B10 B01) ltac:(ring)).
  assert (S2' := CE _ _ _ (4 * (x * z)) (two_sum dl Hd _ _ _ _ A02 A20 B02 B20) ltac:(ring)).
  assert (S3' := CE _ _ _ (4 * (z * y)) (two_sum dl Hd _ _ _ _ A21 A12 B21 B12) ltac:(ring)).
  pose proof (diag_cmp dl a00 a11 (x * x + w * w - / 2) (y * y + w * w - / 2) (CE _ _ _ (2 * (x * x + w * w - / 2)) A00 ltac:(lra)) (CE _ _ _ (2 * (y * y + w * w - / 2)) A11 ltac:(lra))) as [P1 P1'].
  pose proof (diag_cmp dl a11 a22 (y * y + w * w - / 2) (z * z + w * w - / 2) (CE _ _ _ (2 * (y * y + w * w - / 2)) A11 ltac:(lra)) (CE _ _ _ (2 * (z * z + w * w - / 2)) A22 ltac:(lra))) as [P2 P2'].
  pose proof (diag_cmp dl a00 a22 (x * x + w * w - / 2) (z * z + w * w - / 2) (CE _ _ _ (2 * (x * x + w * w - / 2)) A00 ltac:(lra)) (CE _ _ _ (2 * (z * z + w * w - / 2)) A22 ltac:(lra))) as [P3 P3'].
  assert (T0 : Bltb (f32_lit 0 0) (Bplus mode_NE (Bplus mode_NE a00 a11) a22) = Rlt_bool 0 (b2r (Bplus mode_NE (Bplus mode_NE a00 a11) a22))).
  { rewrite bltb_b2r; [f_equal|reflexivity|apply CW]. }
  pose proof (or_shape L a00 a01 a02 a10 a11 a12 a20 a21 a22) as E. cbv zeta in E. rewrite E, T0. clear E T0.
  assert (ZB : x * x <= z * z + dl -> y * y <= z * z + dl -> w * w <= / 4 + dl -> 248/1000 <= z * z) by lra.
  assert (YB : x * x <= y * y + dl -> z * z <= y * y + dl -> w * w <= / 4 + dl -> 248/1000 <= y * y) by lra.
  assert (XB : y * y <= x * x + dl -> z * z <= x * x + dl -> w * w <= / 4 + dl -> 248/1000 <= x * x) by lra.
  pose proof (proj2 CW) as KW.
  destruct (Rlt_bool_spec 0 (b2r (Bplus mode_NE (Bplus mode_NE a00 a11) a22))) as [GT|LE].
  - destruct (orient_branch dl w x y z _ _ _ _ Hd ltac:(lra) ltac:(lra) CW D1 D2 D3) as (s & Hs & K0 & K1 & K2 & K3).
    exists s. split; [exact Hs|]. cbn [lq qx qy qz qw]. repeat (apply Forall2_cons; [assumption|]). apply Forall2_nil.
  - assert (WB : w * w <= / 4 + (3 * dl + 6 * u) / 4) by lra.
    destruct (Bltb a00 a11) eqn:C1.
    + specialize (P1 eq_refl). destruct (Bltb a11 a22) eqn:C2.
      * specialize (P2 eq_refl).
        destruct (orient_branch dl z x y w _ _ _ _ Hd ltac:(lra) ltac:(lra) CZ (CE _ _ _ (4 * (z * x)) S2 ltac:(ring)) S3' (CE _ _ _ (4 * (z * w)) D3 ltac:(ring))) as (s & Hs & K0 & K1 & K2 & K3).
        exists s. split; [exact Hs|]. cbn [lq qx qy qz qw]. repeat (apply Forall2_cons; [assumption|]). apply Forall2_nil.
      * specialize (P2' eq_refl).
        destruct (orient_branch dl y x z w _ _ _ _ Hd ltac:(lra) ltac:(lra) CY S1' S3 (CE _ _ _ (4 * (y * w)) D2 ltac:(ring))) as (s & Hs & K0 & K1 & K2 & K3).
        exists s. split; [exact Hs|]. cbn [lq qx qy qz qw]. repeat (apply Forall2_cons; [assumption|]). apply Forall2_nil.
    + specialize (P1' eq_refl). destruct (Bltb a00 a22) eqn:C3.
      * specialize (P3 eq_refl).
        destruct (orient_branch dl z x y w _ _ _ _ Hd ltac:(lra) ltac:(lra) CZ (CE _ _ _ (4 * (z * x)) S2 ltac:(ring)) S3' (CE _ _ _ (4 * (z * w)) D3 ltac:(ring))) as (s & Hs & K0 & K1 & K2 & K3).
        exists s. split; [exact Hs|]. cbn [lq qx qy qz qw]. repeat (apply Forall2_cons; [assumption|]). apply Forall2_nil.
      * specialize (P3' eq_refl).
        destruct (orient_branch dl x y z w _ _ _ _ Hd ltac:(lra) ltac:(lra) CX S1 S2' (CE _ _ _ (4 * (x * w)) D1 ltac:(ring))) as (s & Hs & K0 & K1 & K2 & K3).
        exists s. split; [exact Hs|]. cbn [lq qx qy qz qw]. repeat (apply Forall2_cons; [assumption|]). apply Forall2_nil.
Qed.

(** ** One column divided by its computed length *)
Section Col.
Variables (L : Libm) (e s g r0 r1 r2 : R) (c0 c1 c2 : f32).
Hypothesis He : 0 <= e <= / 4000.
Hypothesis Hs : scale_range s.
Hypothesis Hg : g = 1 \/ g = -1.
Hypothesis Hr : r0 * r0 + r1 * r1 + r2 * r2 = 1.
Hypothesis C0 : close (e * s) c0 (g * s * r0).
Hypothesis C1 : close (e * s) c1 (g * s * r1).
Hypothesis C2 : close (e * s) c2 (g * s * r2).
Let l := length3 (F32 L) (V3 c0 c1 c2).
Lemma s_pos : 0 < s.
Proof. destruct Hs as [H _]. eapply Rlt_le_trans; [|exact H]. apply Rinv_0_lt_compat. now apply IZR_lt. Qed.
Lemma s_tiny : / IZR (2 ^ 73) <= u / 400 * s.
Proof.
  apply Rle_trans with (u / 400 * / IZR (2 ^ 40)); [|apply Rmult_le_compat_l; [pose proof u_val; lra|apply Hs]].
  unfold u. change (IZR (2 ^ 24)) with 16777216. replace (/ 16777216 / 400 * / IZR (2 ^ 40)) with (/ (6710886400 * IZR (2 ^ 40))).
  - rewrite <- mult_IZR. apply Rinv_le_contravar; [now apply IZR_lt|]. apply IZR_le. vm_compute. discriminate.
  - field. apply IZR_neq; discriminate.
Qed.
Lemma col_len : finite l /\ - ((2 * e + 301/100 * u) * s) <= b2r l - s <= (2 * e + 301/100 * u) * s.
Proof.
  pose proof s_pos as P. pose proof u_val as U.
  set (B := [g * s * r0; g * s * r1; g * s * r2]).
  assert (NB : norm B = s).
  { unfold B. replace [g * s * r0; g * s * r1; g * s * r2] with (vscale (g * s) [r0; r1; r2]) by reflexivity. rewrite norm_scale3.
    replace (norm [r0; r1; r2]) with 1; [|symmetry; unfold norm, ip; cbn; replace (r0 * r0 + (r1 * r1 + (r2 * r2 + 0))) with 1 by lra; apply sqrt_1].
    rewrite Rabs_mult, (Rabs_pos_eq s) by lra. destruct Hg as [-> | ->]; [rewrite Rabs_R1|rewrite Rabs_left by lra]; lra. }
  assert (D : norm (vsub (vals (l3 (V3 c0 c1 c2))) B) <= 0 * norm B + 2 * (e * s)).
  { apply norm_diff; [reflexivity|reflexivity|lra|apply Rmult_le_pos; lra|]. destruct C0 as [_ K0], C1 as [_ K1], C2 as [_ K2]. unfold B. cbn [vals l3 map x3 y3 z3].
    repeat (apply Forall2_cons; [rewrite Rmult_0_l, Rplus_0_l; now apply Rabs_le|]). apply Forall2_nil. }
  assert (F : all_finite (l3 (V3 c0 c1 c2))) by (unfold all_finite; cbn [l3 x3 y3 z3]; repeat (apply Forall_cons; [apply C0 || apply C1 || apply C2|]); apply Forall_nil).
  destruct (near_norm (2 * (e * s)) (V3 c0 c1 c2) B) as (N1 & N2 & _); [split; [reflexivity|split; [exact F|lra]]|]. rewrite NB in N1, N2.
  set (N := norm (vals (l3 (V3 c0 c1 c2)))) in *.
  assert (ES : e * s <= / 4000 * s) by (apply Rmult_le_compat_r; lra).
  assert (TOP : 2 * IZR (2 ^ 60) <= IZR (2 ^ 62)) by (rewrite <- mult_IZR; apply IZR_le; vm_compute; discriminate).
  pose proof (proj2 Hs) as HS2.
  destruct (C72_length_pf L) as (_ & K & _). destruct (K (V3 c0 c1 c2) F) as [Fl Kl]; [fold N; lra|]. fold N l in Kl, Fl. split; [exact Fl|].
  replace ((INR 3 + 3) / 2 * ulp_half * N) with (3 * (u * N)) in Kl by (cbn [INR]; field).
  assert (UN : u * N <= u * (1001/1000 * s)) by (apply Rmult_le_compat_l; lra).
  pose proof s_tiny as T. apply Rabs_le_inv in Kl. lra.
Qed.
Lemma col_div (c : f32) r : -1 <= r <= 1 -> close (e * s) c (g * s * r) -> close (301/100 * e + 41/10 * u) (Bdiv mode_NE c l) (g * r).
Proof.
  intros Br [Fc Kc]. pose proof s_pos as P. pose proof u_val as U. destruct col_len as [Fl Kl].
  assert (ES : 0 <= e * s <= / 4000 * s) by (split; [apply Rmult_le_pos; lra|apply Rmult_le_compat_r; lra]).
  assert (US : 0 <= u * s <= / 16777216 * s) by (split; [apply Rmult_le_pos; lra|apply Rmult_le_compat_r; lra]).
  assert (Lo : 9994/10000 * s <= b2r l) by lra. assert (Pl : 0 < b2r l) by lra.
  set (q := b2r c / b2r l). assert (EQ : q - g * r = ((b2r c - g * s * r) + (g * r) * (s - b2r l)) * / b2r l) by (unfold q; field; lra).
  assert (GR : - (1) <= g * r <= 1) by (destruct Hg as [-> | ->]; lra).
  assert (I : 0 < / b2r l <= 10007/10000 * / s).
  { split; [now apply Rinv_0_lt_compat|]. replace (10007/10000 * / s) with (/ (10000/10007 * s)) by (field; lra). apply Rinv_le_contravar; lra. }
  assert (T1 : - ((2 * e + 301/100 * u) * s) <= s - b2r l <= (2 * e + 301/100 * u) * s) by lra.
  pose proof (prod_bound _ _ _ _ GR T1) as T2.
  assert (T3 : - ((3 * e + 301/100 * u) * s) <= (b2r c - g * s * r) + (g * r) * (s - b2r l) <= (3 * e + 301/100 * u) * s) by lra.
  assert (T4 : - (10007/10000 * / s) <= / b2r l <= 10007/10000 * / s) by lra.
  pose proof (prod_bound _ _ _ _ T3 T4) as T5. rewrite <- EQ in T5.
  replace ((3 * e + 301/100 * u) * s * (10007/10000 * / s)) with (10007/10000 * (3 * e + 301/100 * u)) in T5 by (field; lra).
  assert (Bq : - (1002/1000) <= q <= 1002/1000) by lra.
  destruct (div_ok c l Fc Fl ltac:(lra)) as [F E].
  { fold q. eapply Rle_lt_trans; [apply (rnd_abs_le q (bpow radix2 1)); [apply fmt_bpow; lia|apply Rabs_le; change (bpow radix2 1) with 2; lra]|]. apply (big_p2 1). lia. }
  split; [exact F|]. rewrite E. fold q. pose proof (rnd_abs_err q _ Bq) as K. lra.
Qed.
End Col.

(** ** The sign of the determinant *)
Lemma det_shape L (a0 a1 a2 b0 b1 b2 c0 c1 c2 : f32) :
  dot3 (F32 L) (V3 a0 a1 a2) (cross (F32 L) (V3 b0 b1 b2) (V3 c0 c1 c2)) =
  Bplus mode_NE (Bplus mode_NE (Bmult mode_NE a0 (Bminus mode_NE (Bmult mode_NE b1 c2) (Bmult mode_NE b2 c1)))
    (Bmult mode_NE a1 (Bminus mode_NE (Bmult mode_NE b2 c0) (Bmult mode_NE b0 c2)))) (Bmult mode_NE a2 (Bminus mode_NE (Bmult mode_NE b0 c1) (Bmult mode_NE b1 c0))).
Proof. reflexivity. Qed.
Lemma ab_prod1 (a b : f32) A B : ab (/ 1000) a A -> ab (/ 1000) b B -> Rabs A <= 1 -> Rabs B <= 1 -> ab (3/1000) (Bmult mode_NE a b) (A * B) /\ Rabs (A * B) <= 1.
Proof.
  intros Ha Hb KA KB. pose proof u_val as U. pose proof tiny_u as T. pose proof (Rabs_pos A). pose proof (Rabs_pos B).
  assert (P : Rabs (A * B) <= 1) by (rewrite Rabs_mult; replace 1 with (1 * 1) by ring; apply Rmult_le_compat; lra). split; [|exact P].
  eapply ab_weak; [|apply (ab_mul (/ 1000) (/ 1000) a b A B (21/10000) 2 Ha Hb); lra]. lra.
Qed.
Lemma ab_minor (a b c d : f32) A B C D : ab (/ 1000) a A -> ab (/ 1000) b B -> ab (/ 1000) c C -> ab (/ 1000) d D ->
  Rabs A <= 1 -> Rabs B <= 1 -> Rabs C <= 1 -> Rabs D <= 1 ->
  ab (7/1000) (Bminus mode_NE (Bmult mode_NE a b) (Bmult mode_NE c d)) (A * B - C * D) /\ Rabs (A * B - C * D) <= 2.
Proof.
  intros Ha Hb Hc Hd KA KB KC KD. pose proof u_val as U. pose proof tiny_u as T.
  destruct (ab_prod1 a b A B Ha Hb KA KB) as [P1 Q1]. destruct (ab_prod1 c d C D Hc Hd KC KD) as [P2 Q2].
  assert (Q : Rabs (A * B - C * D) <= 2). { unfold Rminus. eapply Rle_trans; [apply Rabs_triang|]. rewrite Rabs_Ropp. lra. } split; [|exact Q].
  eapply ab_weak; [|apply (ab_sub (3/1000) (3/1000) _ _ (A * B) (C * D) 3 P1 P2); lra]. lra.
Qed.
Lemma ab_term (a b : f32) A B : ab (/ 1000) a A -> ab (7/1000) b B -> Rabs A <= 1 -> Rabs B <= 2 -> ab (11/1000) (Bmult mode_NE a b) (A * B) /\ Rabs (A * B) <= 2.
Proof.
  intros Ha Hb KA KB. pose proof u_val as U. pose proof tiny_u as T. pose proof (Rabs_pos A). pose proof (Rabs_pos B).
  assert (P : Rabs (A * B) <= 2) by (rewrite Rabs_mult; replace 2 with (1 * 2) by ring; apply Rmult_le_compat; lra). split; [|exact P].
  eapply ab_weak; [|apply (ab_mul (/ 1000) (7/1000) a b A B (10/1000) 3 Ha Hb); lra]. lra.
Qed.
Lemma ab_three (a b c : f32) A B C : ab (11/1000) a A -> ab (11/1000) b B -> ab (11/1000) c C -> Rabs A <= 2 -> Rabs B <= 2 -> Rabs C <= 2 ->
  ab (40/1000) (Bplus mode_NE (Bplus mode_NE a b) c) (A + B + C).
Proof.
  intros Ha Hb Hc KA KB KC. pose proof u_val as U. pose proof tiny_u as T.
  assert (Q : Rabs (A + B) <= 4) by (eapply Rle_trans; [apply Rabs_triang|lra]).
  assert (P : ab (23/1000) (Bplus mode_NE a b) (A + B)) by (eapply ab_weak; [|apply (ab_add (11/1000) (11/1000) a b A B 5 Ha Hb); lra]; lra).
  assert (Q' : Rabs (A + B + C) <= 6) by (eapply Rle_trans; [apply Rabs_triang|lra]).
  eapply ab_weak; [|apply (ab_add (23/1000) (11/1000) _ c (A + B) C 7 P Hc); lra]. lra.
Qed.

(** ** The whole function *)
Definition vdiv (a0 a1 a2 l : f32) : vec3 f32 := V3 (Bdiv mode_NE a0 l) (Bdiv mode_NE a1 l) (Bdiv mode_NE a2 l).
Definition vneg1 (v : vec3 f32) : vec3 f32 := V3 (Bmult mode_NE (x3 v) (Bopp (f32_lit 1 0))) (Bmult mode_NE (y3 v) (Bopp (f32_lit 1 0))) (Bmult mode_NE (z3 v) (Bopp (f32_lit 1 0))).
Lemma dec_shape L (a0 a1 a2 a3 b0 b1 b2 b3 c0 c1 c2 c3 t0 t1 t2 t3 : f32) :
  let la := length3 (F32 L) (V3 a0 a1 a2) in let lb := length3 (F32 L) (V3 b0 b1 b2) in let lc := length3 (F32 L) (V3 c0 c1 c2) in
  let A := vdiv a0 a1 a2 la in let B := vdiv b0 b1 b2 lb in let C := vdiv c0 c1 c2 lc in
  decompose_orthogonal (F32 L) (M4 (V4 a0 a1 a2 a3) (V4 b0 b1 b2 b3) (V4 c0 c1 c2 c3) (V4 t0 t1 t2 t3)) =
  if Bltb (dot3 (F32 L) A (cross (F32 L) B C) : f32) (f32_ofZ 0)
  then (vneg1 (V3 la lb lc), orientation_of (F32 L) (M3 (vneg1 A) (vneg1 B) (vneg1 C)), V3 t0 t1 t2)
  else (V3 la lb lc, orientation_of (F32 L) (M3 A B C), V3 t0 t1 t2).
Proof.
  intros la lb lc A B C. unfold decompose_orthogonal.
  change (length3 (F32 L) (V3 (at4 (M4 (V4 a0 a1 a2 a3) (V4 b0 b1 b2 b3) (V4 c0 c1 c2 c3) (V4 t0 t1 t2 t3)) 0 0) (at4 (M4 (V4 a0 a1 a2 a3) (V4 b0 b1 b2 b3) (V4 c0 c1 c2 c3) (V4 t0 t1 t2 t3)) 0 1) (at4 (M4 (V4 a0 a1 a2 a3) (V4 b0 b1 b2 b3) (V4 c0 c1 c2 c3) (V4 t0 t1 t2 t3)) 0 2))) with la.
  cbv zeta. 
  change (slt ?a ?b) with (Bltb (dot3 (F32 L) A (cross (F32 L) B C) : f32) (f32_ofZ 0)).
  destruct (Bltb _ _); reflexivity.
Qed.
Lemma neg1 (c : f32) : finite c -> finite (Bmult mode_NE c (Bopp (f32_lit 1 0))) /\ b2r (Bmult mode_NE c (Bopp (f32_lit 1 0))) = - b2r c.
Proof.
  intros F. assert (E : b2r (Bopp (f32_lit 1 0)) = -1) by (rewrite Bopp_b2r, b2r_lit1; reflexivity).
  assert (R : rnd (b2r c * b2r (Bopp (f32_lit 1 0))) = - b2r c) by (rewrite E; replace (b2r c * -1) with (- b2r c) by ring; rewrite rnd_opp, rnd_b2r; reflexivity).
  destruct (mult_ok c (Bopp (f32_lit 1 0)) F) as [F' E']; [reflexivity|rewrite R, Rabs_Ropp; apply Rabs_def1; apply b2r_lt_big|]. split; [exact F'|]. now rewrite E'.
Qed.
Lemma det_rotation x y z w : x * x + y * y + z * z + w * w = 1 ->
  let a0 := 1 + -1 * (2 * (y * y + z * z)) in let a1 := 2 * (x * y + w * z) in let a2 := 2 * (x * z + -1 * (w * y)) in
  let b0 := 2 * (x * y + -1 * (w * z)) in let b1 := 1 + -1 * (2 * (x * x + z * z)) in let b2 := 2 * (y * z + w * x) in
  let c0 := 2 * (x * z + w * y) in let c1 := 2 * (y * z + -1 * (w * x)) in let c2 := 1 + -1 * (2 * (x * x + y * y)) in
  a0 * (b1 * c2 - b2 * c1) + a1 * (b2 * c0 - b0 * c2) + a2 * (b0 * c1 - b1 * c0) = 1 /\
  a0 * a0 + a1 * a1 + a2 * a2 = 1 /\ b0 * b0 + b1 * b1 + b2 * b2 = 1 /\ c0 * c0 + c1 * c1 + c2 * c2 = 1.
Proof.
  intros N. cbv zeta. set (n := x * x + y * y + z * z + w * w) in N.
  replace (1 + -1 * (2 * (y * y + z * z))) with (x * x + w * w - y * y - z * z) by (unfold n in N; lra).
  replace (1 + -1 * (2 * (x * x + z * z))) with (y * y + w * w - x * x - z * z) by (unfold n in N; lra).
  replace (1 + -1 * (2 * (x * x + y * y))) with (z * z + w * w - x * x - y * y) by (unfold n in N; lra).
  split; [transitivity (n * n * n); [unfold n; ring|rewrite N; ring]|].
  split; [|split]; (transitivity (n * n); [unfold n; ring|rewrite N; ring]).
Qed.
Lemma comp1 a b c : a * a + b * b + c * c = 1 -> -1 <= a <= 1 /\ -1 <= b <= 1 /\ -1 <= c <= 1.
Proof. intros H. pose proof (Rle_0_sqr a). pose proof (Rle_0_sqr b). pose proof (Rle_0_sqr c). unfold Rsqr in *. ands; nra. Qed.

Lemma Forall2_impl' {A B} (P Q : A -> B -> Prop) l k : (forall a b, P a b -> Q a b) -> Forall2 P l k -> Forall2 Q l k.
Proof. intros H K. induction K; constructor; auto. Qed.
Lemma map_mul1 l : map (Rmult 1) l = l.
Proof. induction l as [|a l IH]; [reflexivity|]. cbn. now rewrite IH, Rmult_1_l. Qed.

Section Main.
Variables (L : Libm) (e g s0 s1 s2 x y z w : R).
Variables a0 a1 a2 a3 b0 b1 b2 b3 c0 c1 c2 c3 t0 t1 t2 t3 : f32.
Hypothesis He : 0 <= e <= / 4000.
Hypothesis Hg : g = 1 \/ g = -1.
Hypothesis H0 : scale_range s0. Hypothesis H1 : scale_range s1. Hypothesis H2 : scale_range s2.
Hypothesis N : x * x + y * y + z * z + w * w = 1.
Let A0 := 1 + -1 * (2 * (y * y + z * z)). Let A1 := 2 * (x * y + w * z). Let A2 := 2 * (x * z + -1 * (w * y)).
Let B0 := 2 * (x * y + -1 * (w * z)). Let B1 := 1 + -1 * (2 * (x * x + z * z)). Let B2 := 2 * (y * z + w * x).
Let C0 := 2 * (x * z + w * y). Let C1 := 2 * (y * z + -1 * (w * x)). Let C2 := 1 + -1 * (2 * (x * x + y * y)).
Hypothesis Ka : close (e * s0) a0 (g * s0 * A0) /\ close (e * s0) a1 (g * s0 * A1) /\ close (e * s0) a2 (g * s0 * A2).
Hypothesis Kb : close (e * s1) b0 (g * s1 * B0) /\ close (e * s1) b1 (g * s1 * B1) /\ close (e * s1) b2 (g * s1 * B2).
Hypothesis Kc : close (e * s2) c0 (g * s2 * C0) /\ close (e * s2) c1 (g * s2 * C1) /\ close (e * s2) c2 (g * s2 * C2).
Let d := 301/100 * e + 41/10 * u.
Let la := length3 (F32 L) (V3 a0 a1 a2). Let lb := length3 (F32 L) (V3 b0 b1 b2). Let lc := length3 (F32 L) (V3 c0 c1 c2).
Let A := vdiv a0 a1 a2 la. Let B := vdiv b0 b1 b2 lb. Let C := vdiv c0 c1 c2 lc.
Lemma rows_close : Forall2 (close d) (lm3 (M3 A B C)) (map (Rmult g) (rotation_entries (-1) x y z w)).
Proof.
  destruct (det_rotation x y z w N) as (_ & QA & QB & QC). fold A0 A1 A2 in QA. fold B0 B1 B2 in QB. fold C0 C1 C2 in QC.
  destruct (comp1 _ _ _ QA) as (RA0 & RA1 & RA2). destruct (comp1 _ _ _ QB) as (RB0 & RB1 & RB2). destruct (comp1 _ _ _ QC) as (RC0 & RC1 & RC2).
  unfold rotation_entries. fold A0 A1 A2 B0 B1 B2 C0 C1 C2. unfold A, B, C, vdiv. cbn [lm3 l3 concat app m3c0 m3c1 m3c2 x3 y3 z3 map].
  destruct Ka as (Ka0 & Ka1 & Ka2), Kb as (Kb0 & Kb1 & Kb2), Kc as (Kc0 & Kc1 & Kc2).
  pose proof (col_div L e s0 g A0 A1 A2 a0 a1 a2 He H0 Hg QA Ka0 Ka1 Ka2) as DA.
  pose proof (col_div L e s1 g B0 B1 B2 b0 b1 b2 He H1 Hg QB Kb0 Kb1 Kb2) as DB.
  pose proof (col_div L e s2 g C0 C1 C2 c0 c1 c2 He H2 Hg QC Kc0 Kc1 Kc2) as DC.
  fold la in DA. fold lb in DB. fold lc in DC. fold d in DA, DB, DC.
  repeat apply Forall2_cons; try apply Forall2_nil; first [now apply DA|now apply DB|now apply DC].
Qed.
Lemma close_ab c r : close d c r -> ab (/ 1000) c r.
Proof. intros [F K]. split; [exact F|]. apply Rabs_le. pose proof u_val. unfold d in K. lra. Qed.
Lemma det_sign : Bltb (dot3 (F32 L) A (cross (F32 L) B C) : f32) (f32_ofZ 0) = Rlt_bool g 0.
Proof.
  pose proof rows_close as R. unfold rotation_entries in R. fold A0 A1 A2 B0 B1 B2 C0 C1 C2 in R. unfold A, B, C, vdiv in *. rewrite det_shape.
  set (p0 := Bdiv mode_NE a0 la) in *. set (p1 := Bdiv mode_NE a1 la) in *. set (p2 := Bdiv mode_NE a2 la) in *.
  set (q0 := Bdiv mode_NE b0 lb) in *. set (q1 := Bdiv mode_NE b1 lb) in *. set (q2 := Bdiv mode_NE b2 lb) in *.
  set (r0 := Bdiv mode_NE c0 lc) in *. set (r1 := Bdiv mode_NE c1 lc) in *. set (r2 := Bdiv mode_NE c2 lc) in *.
  cbn [lm3 l3 concat app m3c0 m3c1 m3c2 x3 y3 z3 map] in R.
  apply Forall2_cons_iff in R as [P0 R]. apply Forall2_cons_iff in R as [P1 R]. apply Forall2_cons_iff in R as [P2 R].
  apply Forall2_cons_iff in R as [Q0 R]. apply Forall2_cons_iff in R as [Q1 R]. apply Forall2_cons_iff in R as [Q2 R].
  apply Forall2_cons_iff in R as [R0 R]. apply Forall2_cons_iff in R as [R1 R]. apply Forall2_cons_iff in R as [R2 _].
  destruct (det_rotation x y z w N) as (DET & QA & QB & QC). fold A0 A1 A2 B0 B1 B2 C0 C1 C2 in DET. fold A0 A1 A2 in QA. fold B0 B1 B2 in QB. fold C0 C1 C2 in QC.
  destruct (comp1 _ _ _ QA) as (RA0 & RA1 & RA2). destruct (comp1 _ _ _ QB) as (RB0 & RB1 & RB2). destruct (comp1 _ _ _ QC) as (RC0 & RC1 & RC2).
  assert (G : forall r, -1 <= r <= 1 -> Rabs (g * r) <= 1) by (intros r Hr; apply Rabs_le; destruct Hg as [-> | ->]; lra).
  apply close_ab in P0, P1, P2, Q0, Q1, Q2, R0, R1, R2.
  destruct (ab_minor q1 r2 q2 r1 _ _ _ _ Q1 R2 Q2 R1) as [M0 V0]; [now apply G..|].
  destruct (ab_minor q2 r0 q0 r2 _ _ _ _ Q2 R0 Q0 R2) as [M1 V1]; [now apply G..|].
  destruct (ab_minor q0 r1 q1 r0 _ _ _ _ Q0 R1 Q1 R0) as [M2 V2]; [now apply G..|].
  destruct (ab_term _ _ _ _ P0 M0) as [T0 W0]; [now apply G|exact V0|].
  destruct (ab_term _ _ _ _ P1 M1) as [T1 W1]; [now apply G|exact V1|].
  destruct (ab_term _ _ _ _ P2 M2) as [T2 W2]; [now apply G|exact V2|].
  pose proof (ab_three _ _ _ _ _ _ T0 T1 T2 W0 W1 W2) as D.
  assert (E : g * A0 * (g * B1 * (g * C2) - g * B2 * (g * C1)) + g * A1 * (g * B2 * (g * C0) - g * B0 * (g * C2)) + g * A2 * (g * B0 * (g * C1) - g * B1 * (g * C0)) = g).
  { transitivity (g * (g * g) * (A0 * (B1 * C2 - B2 * C1) + A1 * (B2 * C0 - B0 * C2) + A2 * (B0 * C1 - B1 * C0))); [ring|]. rewrite DET. destruct Hg as [-> | ->]; ring. }
  rewrite E in D. destruct D as [F K]. rewrite bltb_b2r; [|exact F|reflexivity]. replace (b2r (f32_ofZ 0)) with 0 by reflexivity.
  apply Rabs_le_inv in K. destruct Hg as [-> | ->].
  - rewrite !Rlt_bool_false by lra. reflexivity.
  - rewrite !Rlt_bool_true by lra. reflexivity.
Qed.
Lemma lens_close : Forall2 (fun c s => finite c /\ Rabs (b2r c - s) <= (2 * e + 4 * u) * Rabs s) [la; lb; lc] [s0; s1; s2].
Proof.
  destruct (det_rotation x y z w N) as (_ & QA & QB & QC). fold A0 A1 A2 in QA. fold B0 B1 B2 in QB. fold C0 C1 C2 in QC.
  destruct Ka as (Ka0 & Ka1 & Ka2), Kb as (Kb0 & Kb1 & Kb2), Kc as (Kc0 & Kc1 & Kc2). pose proof u_val as U.
  assert (T : forall c s, scale_range s -> finite c /\ - ((2 * e + 301/100 * u) * s) <= b2r c - s <= (2 * e + 301/100 * u) * s -> finite c /\ Rabs (b2r c - s) <= (2 * e + 4 * u) * Rabs s).
  { intros c s Hs [F K]. pose proof (s_pos s Hs) as P. split; [exact F|]. rewrite (Rabs_pos_eq s) by lra. assert (0 <= u * s) by (apply Rmult_le_pos; lra). apply Rabs_le. lra. }
  apply Forall2_cons; [apply T; [exact H0|exact (col_len L e s0 g A0 A1 A2 a0 a1 a2 He H0 Hg QA Ka0 Ka1 Ka2)]|].
  apply Forall2_cons; [apply T; [exact H1|exact (col_len L e s1 g B0 B1 B2 b0 b1 b2 He H1 Hg QB Kb0 Kb1 Kb2)]|].
  apply Forall2_cons; [apply T; [exact H2|exact (col_len L e s2 g C0 C1 C2 c0 c1 c2 He H2 Hg QC Kc0 Kc1 Kc2)]|]. apply Forall2_nil.
Qed.
Lemma dec_main : let '(sc, o, t) := decompose_orthogonal (F32 L) (M4 (V4 a0 a1 a2 a3) (V4 b0 b1 b2 b3) (V4 c0 c1 c2 c3) (V4 t0 t1 t2 t3)) in
  scales_close (2 * e + 4 * u) (l3 sc) [g * s0; g * s1; g * s2] /\ all_close_sign (10 * e + 30 * u) (lq o) [x; y; z; w].
Proof.
  pose proof (dec_shape L a0 a1 a2 a3 b0 b1 b2 b3 c0 c1 c2 c3 t0 t1 t2 t3) as E. cbv zeta in E. rewrite E. clear E. fold la lb lc. fold A B C. rewrite det_sign.
  pose proof rows_close as R. pose proof lens_close as S. pose proof u_val as U.
  assert (Hd : 0 <= d <= / 1000) by (unfold d; lra).
  assert (FIN : forall m, Forall2 (close d) (lm3 m) (rotation_entries (-1) x y z w) -> all_close_sign (10 * e + 30 * u) (lq (orientation_of (F32 L) m)) [x; y; z; w]).
  { intros m Hm. destruct (orient_close L m x y z w d Hd N Hm) as (s & Hs & K). exists s. split; [exact Hs|]. apply all_close_iff. cbn [map].
    eapply Forall2_impl'; [|exact K]. intros c r [F Q]. split; [exact F|]. unfold d in Q. lra. }
  destruct Hg as [Eg | Eg].
  - rewrite Rlt_bool_false by lra. rewrite Eg in *. split.
    + unfold scales_close. cbn [l3 x3 y3 z3]. rewrite !Rmult_1_l. exact S.
    + apply FIN. rewrite <- (map_mul1 (rotation_entries (-1) x y z w)). exact R.
  - rewrite Rlt_bool_true by lra. rewrite Eg in *. split.
    + unfold scales_close. cbn [vneg1 l3 x3 y3 z3].
      assert (T : forall c s, finite c /\ Rabs (b2r c - s) <= (2 * e + 4 * u) * Rabs s -> finite (Bmult mode_NE c (Bopp (f32_lit 1 0))) /\ Rabs (b2r (Bmult mode_NE c (Bopp (f32_lit 1 0))) - -1 * s) <= (2 * e + 4 * u) * Rabs (-1 * s)).
      { intros c s [F K]. destruct (neg1 c F) as [F' E']. split; [exact F'|]. rewrite E'. replace (- b2r c - -1 * s) with (- (b2r c - s)) by ring. replace (-1 * s) with (- s) by ring. now rewrite !Rabs_Ropp. }
      apply Forall2_cons_iff in S as [S0 S]. apply Forall2_cons_iff in S as [S1 S]. apply Forall2_cons_iff in S as [S2 _].
      repeat (apply Forall2_cons; [now apply T|]). apply Forall2_nil.
    + apply FIN. clear FIN S. assert (T : forall c r, close d c (-1 * r) -> close d (Bmult mode_NE c (Bopp (f32_lit 1 0))) r).
      { intros c r [F K]. destruct (neg1 c F) as [F' E']. split; [exact F'|]. rewrite E'. lra. }
      unfold rotation_entries in *. destruct A as [p0 p1 p2], B as [q0 q1 q2], C as [r0 r1 r2]. cbn [vneg1 lm3 l3 concat app m3c0 m3c1 m3c2 x3 y3 z3 map] in *.
      repeat match goal with H : Forall2 _ (_ :: _) (_ :: _) |- _ => let K := fresh "R0" in apply Forall2_cons_iff in H as [K H] end.
      repeat (apply Forall2_cons; [now apply T|]). apply Forall2_nil.
Qed.
End Main.

(** For a matrix whose three columns are those of a rotation times factors s0, s1, s2 (all positive, or all negated: any other
    pattern of signs is one of these two for another rotation), up to a relative error e, the scale returned is within 2 e plus four half-ulps
    of the factors and the quaternion within 10 e plus thirty half-ulps of the one of the rotation, up to sign. *)
Lemma C96_decompose_pf : forall (L : Libm) (m : mat4 f32) (p : quat R) (s0 s1 s2 e g : R),
  unit_quat p -> 0 <= e <= / 4000 -> Forall scale_range [s0; s1; s2] -> g = 1 \/ g = -1 ->
  let r := rotation_entries (-1) (qx p) (qy p) (qz p) (qw p) in
  column_near e (m4c0 m) (g * s0) (column_of 0 r) -> column_near e (m4c1 m) (g * s1) (column_of 1 r) -> column_near e (m4c2 m) (g * s2) (column_of 2 r) ->
  let '(sc, o, t) := decompose_orthogonal (F32 L) m in
  scales_close (2 * e + 4 * ulp_half) (l3 sc) [g * s0; g * s1; g * s2] /\ all_close_sign (10 * e + 30 * ulp_half) (lq o) (lq p).
Proof.
  intros L m p s0 s1 s2 e g U He Hs Hg r K0 K1 K2. apply norm1_ip in U. destruct p as [x y z w]. cbn in U.
  destruct m as [[a0 a1 a2 a3] [b0 b1 b2 b3] [c0 c1 c2 c3] [t0 t1 t2 t3]].
  apply Forall_cons_iff in Hs as [H0 Hs]. apply Forall_cons_iff in Hs as [H1 Hs]. apply Forall_cons_iff in Hs as [H2 _].
  assert (T : forall s c0 c1 c2 c3 r0 r1 r2, scale_range s -> column_near e (V4 c0 c1 c2 c3) (g * s) [r0; r1; r2] -> close (e * s) c0 (g * s * r0) /\ close (e * s) c1 (g * s * r1) /\ close (e * s) c2 (g * s * r2)).
  { intros s k0 k1 k2 k3 r0 r1 r2 Hs' K. unfold column_near in K. apply all_close_iff in K. cbn [x4 y4 z4 map] in K. pose proof (s_pos s Hs') as P.
    replace (Rabs (g * s)) with s in K by (rewrite Rabs_mult, (Rabs_pos_eq s) by lra; destruct Hg as [-> | ->]; [rewrite Rabs_R1|rewrite Rabs_left by lra]; ring).
    apply Forall2_cons_iff in K as [Q0 K]. apply Forall2_cons_iff in K as [Q1 K]. apply Forall2_cons_iff in K as [Q2 _]. ands; assumption. }
  apply (dec_main L e g s0 s1 s2 x y z w a0 a1 a2 a3 b0 b1 b2 b3 c0 c1 c2 c3 t0 t1 t2 t3 He Hg H0 H1 H2 ltac:(lra)).
  - exact (T s0 _ _ _ _ _ _ _ H0 K0).
  - exact (T s1 _ _ _ _ _ _ _ H1 K1).
  - exact (T s2 _ _ _ _ _ _ _ H2 K2).
Qed.

(** Whatever the matrix, the translation is the last column, bit for bit, and the scale factors are, with a common sign, the computed lengths
    of the first three columns: within three half-ulps of the exact ones whenever the columns are finite and not longer than 2^62. *)
Lemma C96_parts_pf : forall (L : Libm) (m : mat4 f32),
  let '(sc, o, t) := decompose_orthogonal (F32 L) m in
  l3 t = firstn 3 (l4 (m4c3 m)) /\
  let cols := map (fun c => firstn 3 (l4 c)) [m4c0 m; m4c1 m; m4c2 m] in
  (Forall all_finite cols -> Forall (fun c => norm (vals c) <= IZR (2 ^ 62)) cols ->
   exists g, (g = 1 \/ g = -1) /\
     Forall2 (fun c k => finite k /\ Rabs (b2r k - g * norm (vals c)) <= 3 * ulp_half * norm (vals c) + / IZR (2 ^ 73)) cols (l3 sc)).
Proof.
  intros L [[a0 a1 a2 a3] [b0 b1 b2 b3] [c0 c1 c2 c3] [t0 t1 t2 t3]].
  pose proof (dec_shape L a0 a1 a2 a3 b0 b1 b2 b3 c0 c1 c2 c3 t0 t1 t2 t3) as E. cbv zeta in E. rewrite E. clear E.
  set (la := length3 (F32 L) (V3 a0 a1 a2)). set (lb := length3 (F32 L) (V3 b0 b1 b2)). set (lc := length3 (F32 L) (V3 c0 c1 c2)).
  assert (LN : forall k0 k1 k2 : f32, all_finite [k0; k1; k2] -> norm (vals [k0; k1; k2]) <= IZR (2 ^ 62) ->
    finite (length3 (F32 L) (V3 k0 k1 k2)) /\ Rabs (b2r (length3 (F32 L) (V3 k0 k1 k2)) - norm (vals [k0; k1; k2])) <= 3 * u * norm (vals [k0; k1; k2]) + / IZR (2 ^ 73)).
  { intros k0 k1 k2 F B. destruct (C72_length_pf L) as (_ & K & _). destruct (K (V3 k0 k1 k2) F B) as [Fl Kl]. split; [exact Fl|].
    change (vals [k0; k1; k2]) with (vals (l3 (V3 k0 k1 k2))). set (NN := norm _) in *. replace (3 * u * NN) with ((INR 3 + 3) / 2 * u * NN) by (cbn [INR]; field). exact Kl. }
  match goal with |- context [if ?b then _ else _] => destruct b end; (split; [reflexivity|]); cbn [map l4 firstn x4 y4 z4 w4 m4c0 m4c1 m4c2 l3 x3 y3 z3 vneg1]; intros HF HB;
    apply Forall_cons_iff in HF as [F0 HF]; apply Forall_cons_iff in HF as [F1 HF]; apply Forall_cons_iff in HF as [F2 _];
    apply Forall_cons_iff in HB as [B0 HB]; apply Forall_cons_iff in HB as [B1 HB]; apply Forall_cons_iff in HB as [B2 _];
    pose proof (LN _ _ _ F0 B0) as Q0; pose proof (LN _ _ _ F1 B1) as Q1; pose proof (LN _ _ _ F2 B2) as Q2; fold la in Q0; fold lb in Q1; fold lc in Q2.
  - exists (-1). split; [now right|]. assert (T : forall (l : f32) n t, finite l /\ Rabs (b2r l - n) <= t -> finite (Bmult mode_NE l (Bopp (f32_lit 1 0))) /\ Rabs (b2r (Bmult mode_NE l (Bopp (f32_lit 1 0))) - -1 * n) <= t).
    { intros l n t [F K]. destruct (neg1 l F) as [F' E']. split; [exact F'|]. rewrite E'. replace (- b2r l - -1 * n) with (- (b2r l - n)) by ring. now rewrite Rabs_Ropp. }
    repeat (apply Forall2_cons; [now apply T|]). apply Forall2_nil.
  - exists 1. split; [now left|]. repeat (apply Forall2_cons; [rewrite Rmult_1_l; assumption|]). apply Forall2_nil.
Qed.
(*PROPS
(** The columns (0,-2,0), (3,0,0), (0,0,-4) are those of the quarter turn about z scaled by -2, -3 and -4. *)
Example C96_case : forall L : Libm, let z := f32_ofZ in let h := sqrt (/ 2) in
  let '(sc, o, t) := decompose_orthogonal (F32 L) (M4 (V4 (z 0) (z (-2)) (z 0) (z 0)) (V4 (z 3) (z 0) (z 0) (z 0)) (V4 (z 0) (z 0) (z (-4)) (z 0)) (V4 (z 5) (z 6) (z 7) (z 1)))%Z in
  scales_close (4 * ulp_half) (l3 sc) [-2; -3; -4] /\ all_close_sign (30 * ulp_half) (lq o) [0; 0; h; h] /\ l3 t = [z 5; z 6; z 7]%Z.
Proof.
  intros L z h. assert (Hh : h * h = / 2) by (apply sqrt_sqrt; lra).
  set (m := M4 _ _ _ _). pose proof (C96_decompose L m (Quat 0 0 h h) 2 3 4 0 (-1)) as D. pose proof (C96_parts L m) as P.
  destruct (decompose_orthogonal (F32 L) m) as [[sc o] t]. destruct P as [P _].
  assert (SR : forall n, 1 <= n <= 4 -> scale_range n).
  { intros n Hn. split; [apply Rle_trans with 1; [rewrite <- Rinv_1; apply Rinv_le_contravar; [lra|]; now apply IZR_le|lra]|]. apply Rle_trans with 4; [lra|]. now apply IZR_le. }
  assert (CL : forall (c : Z) r, (Z.abs c <= 2 ^ 24)%Z -> IZR c = r -> finite (f32_ofZ c) /\ Rabs (b2r (f32_ofZ c) - r) <= 0).
  { intros c r Hc%Z.leb_le <-. assert (E := ofZ_exact c Hc). split; [rewrite ofZ_lit; exact (lit_finite c Hc)|]. rewrite E, Rminus_diag_eq, Rabs_R0 by reflexivity. lra. }
  assert (G : forall (c0 c1 c2 c3 : Z) s (r : list R), Forall (fun c => (Z.abs c <= 2 ^ 24)%Z) [c0; c1; c2] -> map IZR [c0; c1; c2] = map (Rmult s) r -> column_near 0 (V4 (z c0) (z c1) (z c2) (z c3)) s r).
  { intros c0 c1 c2 c3 s r Hc E. unfold column_near, all_close. rewrite <- E, Rmult_0_l. cbn [map x4 y4 z4]. inversion Hc as [|? ? H0 Hc1]; subst. inversion Hc1 as [|? ? H1 Hc2]; subst. inversion Hc2 as [|? ? H2 _]; subst.
    repeat (apply Forall2_cons; [now apply CL|]). apply Forall2_nil. }
  assert (R : rotation_entries (-1) 0 0 h h = [0; 1; 0; -1; 0; 0; 0; 0; 1]).
  { unfold rotation_entries. repeat (apply f_equal2; [lra|]). reflexivity. }
  cbv zeta in D. cbn [qx qy qz qw] in D. rewrite R in D. destruct D as [D1 D2].
  - unfold unit_quat, norm, ip. cbn. replace (0 * 0 + (0 * 0 + (h * h + (h * h + 0)))) with 1 by lra. apply sqrt_1.
  - lra.
  - repeat (apply Forall_cons; [apply SR; lra|]). apply Forall_nil.
  - now right.
  - apply G; [repeat (apply Forall_cons; [cbn; lia|]); apply Forall_nil|]. cbn. repeat (apply f_equal2; [lra|]). reflexivity.
  - apply G; [repeat (apply Forall_cons; [cbn; lia|]); apply Forall_nil|]. cbn. repeat (apply f_equal2; [lra|]). reflexivity.
  - apply G; [repeat (apply Forall_cons; [cbn; lia|]); apply Forall_nil|]. cbn. repeat (apply f_equal2; [lra|]). reflexivity.
  - rewrite !Rmult_0_r, !Rplus_0_l in *. split; [|split].
    + replace (-2) with (-1 * 2) by ring. replace (-3) with (-1 * 3) by ring. replace (-4) with (-1 * 4) by ring. exact D1.
    + exact D2.
    + exact P.
Qed.
PROPS*)
(** A column of zeros leaves a scale factor of 0, which is right, and an orientation that is not a number: diag(0,1,1). *)
Lemma C96_zero_column_refuted_pf : forall L : Libm, exists m : mat4 f32,
  let '(sc, o, t) := decompose_orthogonal (F32 L) m in
  all_finite (l4 (m4c0 m) ++ l4 (m4c1 m) ++ l4 (m4c2 m) ++ l4 (m4c3 m)) /\ l3 sc = [f32_ofZ 0; f32_ofZ 1; f32_ofZ 1] /\ Forall (fun c => is_nan c = true) (lq o).
Proof.
  intros L. set (z := f32_ofZ 0). set (o := f32_ofZ 1). exists (M4 (V4 z z z z) (V4 z o z z) (V4 z z o z) (V4 z z z o)).
  pose proof (dec_shape L z z z z z o z z z z o z z z z o) as E. cbv zeta in E. rewrite E. clear E.
  assert (L0 : length3 (F32 L) (V3 z z z) = z) by (apply f32_by_sf; vm_compute; reflexivity).
  assert (L1 : length3 (F32 L) (V3 z o z) = o) by (apply f32_by_sf; vm_compute; reflexivity).
  assert (L2 : length3 (F32 L) (V3 z z o) = o) by (apply f32_by_sf; vm_compute; reflexivity).
  rewrite L0, L1, L2.
  assert (B : Bltb (dot3 (F32 L) (vdiv z z z z) (cross (F32 L) (vdiv z o z o) (vdiv z z o o)) : f32) (f32_ofZ 0) = false) by (vm_compute; reflexivity).
  rewrite B. split; [|split; [reflexivity|]].
  - unfold all_finite. cbn [l4 app m4c0 m4c1 m4c2 m4c3 x4 y4 z4 w4]. repeat (apply Forall_cons; [reflexivity|]). apply Forall_nil.
  - vm_compute. repeat (apply Forall_cons; [reflexivity|]). apply Forall_nil.
Qed.
