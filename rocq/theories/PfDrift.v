(** * Proofs: repeated updates of an orientation in binary32 *)
From Coq Require Import ZArith Bool Reals List Lra Lia.
From Flocq Require Import Core IEEE754.BinarySingleNaN.
From Verif Require Import Scalar IEEE32 RealInst Types Outcome Spec SpecR SpecMat SpecGeo SpecF32 SpecErr SpecOrd SpecAcc SpecChain SpecDrift FloatBasics FloatOps
  ModelVec ModelCommon ModelGeom ModelQuat ModelQuaternion ErrLib OvfLib F32Tac RealTac.
Import ListNotations.
Local Open Scope R_scope.
(*HEADER END*)
From Coq Require Import Psatz.
From Verif Require Import FloatAlg LenLib DomLib OpLib PfErr PfOvf PfLen PfQuatAcc PfOctAcc AbsLib VecErrLib QuatErrLib PfChain PfQuat.

(** ** The product of two quaternions of length about 1 *)
Lemma sum_ab (a b : f32) : finite a -> finite b -> Rabs (b2r a) <= 2 -> Rabs (b2r b) <= 2 ->
  ab (u * Rabs (b2r a + b2r b) + tiny) (Bplus mode_NE a b) (b2r a + b2r b).
Proof.
  intros Fa Fb A B. replace (u * Rabs (b2r a + b2r b) + tiny) with (0 + 0 + u * Rabs (b2r a + b2r b) + tiny) by ring.
  apply ab_add; try lra; now apply ab_exact.
Qed.
Lemma diff_ab (a b : f32) : finite a -> finite b -> Rabs (b2r a) <= 2 -> Rabs (b2r b) <= 2 ->
  ab (u * Rabs (b2r a - b2r b) + tiny) (Bminus mode_NE a b) (b2r a - b2r b).
Proof.
  intros Fa Fb A B. replace (u * Rabs (b2r a - b2r b) + tiny) with (0 + 0 + u * Rabs (b2r a - b2r b) + tiny) by ring.
  apply ab_sub; try lra; now apply ab_exact.
Qed.
Lemma mul_ab a b A B : ab (u * Rabs A + tiny) a A -> ab (u * Rabs B + tiny) b B -> Rabs A <= 4 -> Rabs B <= 4 ->
  ab (301 / 100 * u * Rabs (A * B) + / 50 * u) (Bmult mode_NE a b) (A * B).
Proof.
  intros HA HB MA MB. pose proof (Rabs_pos A) as PA. pose proof (Rabs_pos B) as PB. pose proof PfOctAcc.tiny_small as T. rewrite uval in *. rewrite Rabs_mult.
  set (x := Rabs A) in *. set (y := Rabs B) in *.
  assert (X : 0 <= x * y) by (apply Rmult_le_pos; lra).
  assert (T1 : tiny * y <= / 16777216 / 1000 * 4) by (apply Rmult_le_compat; lra). assert (T2 : tiny * x <= / 16777216 / 1000 * 4) by (apply Rmult_le_compat; lra).
  assert (T3 : tiny * tiny <= / 16777216 / 1000 * 1) by (apply Rmult_le_compat; lra).
  set (M := 2 * / 16777216 * (x * y) + / 100000 * (x * y) * / 16777216 + / 110 * / 16777216).
  eapply ab_weak; [|apply (ab_mul _ _ a b A B M (x * y + M) HA HB)]; rewrite ?Rabs_mult; fold x y; rewrite ?uval; unfold M; try lra.
Qed.
(** one component: half the sum of four products, minus a part of it, plus a fifth product *)
Section Product.
Variables (ww yy zz t5 t f : f32) (WW YY ZZ T5 T G : R).
Definition pab (c : f32) (x : R) : Prop := ab (301 / 100 * u * Rabs x + / 50 * u) c x.
Hypotheses (Hw : pab ww WW) (Hy : pab yy YY) (Hz : pab zz ZZ) (H5 : pab t5 T5) (Ht : pab t T).
Hypothesis (S : Rabs WW + Rabs YY + Rabs ZZ + Rabs T5 <= 204 / 100).
Hypothesis (ST : Rabs T <= 204 / 100).
Let xx := Bplus mode_NE (Bplus mode_NE ww yy) zz.
Let XX := WW + YY + ZZ.
Let qq := Bmult mode_NE (f32_lit 5 (-1)) (Bplus mode_NE xx t5).
Let QQ := (XX + T5) / 2.
Lemma xx_ab : ab (1035 / 100 * u) xx XX.
Proof.
  pose proof (Rabs_pos WW). pose proof (Rabs_pos YY). pose proof (Rabs_pos ZZ). pose proof (Rabs_pos T5). pose proof (Rabs_triang WW YY). pose proof (Rabs_triang (WW + YY) ZZ). pose proof PfOctAcc.tiny_small as Ty.
  unfold pab in *. pose proof (ab_add _ _ _ _ _ _ (205 / 100) Hw Hy) as A1. rewrite uval in *.
  assert (B1 : ab (301 / 100 * / 16777216 * (Rabs WW + Rabs YY) + 210 / 100 * / 16777216) (Bplus mode_NE ww yy) (WW + YY)) by (eapply ab_weak; [|apply A1]; lra). clear A1.
  pose proof (ab_add _ _ _ _ _ _ (205 / 100) B1 Hz) as A2. rewrite uval in *. unfold xx, XX. eapply ab_weak; [|apply A2]; lra.
Qed.
Lemma qq_ab : ab (621 / 100 * u) qq QQ.
Proof.
  pose proof (Rabs_pos WW). pose proof (Rabs_pos YY). pose proof (Rabs_pos ZZ). pose proof (Rabs_pos T5). pose proof (Rabs_triang WW YY). pose proof (Rabs_triang (WW + YY) ZZ). pose proof (Rabs_triang (WW + YY + ZZ) T5). pose proof PfOctAcc.tiny_small as Ty.
  unfold pab in *. pose proof (ab_add _ _ _ _ _ _ (205 / 100) Hw Hy) as A1. rewrite uval in *.
  assert (B1 : ab (301 / 100 * / 16777216 * (Rabs WW + Rabs YY) + 210 / 100 * / 16777216) (Bplus mode_NE ww yy) (WW + YY)) by (eapply ab_weak; [|apply A1]; lra). clear A1.
  pose proof (ab_add _ _ _ _ _ _ (205 / 100) B1 Hz) as A2. rewrite uval in *.
  assert (B2 : ab (301 / 100 * / 16777216 * (Rabs WW + Rabs YY + Rabs ZZ) + 418 / 100 * / 16777216) xx XX) by (unfold xx, XX; eapply ab_weak; [|apply A2]; lra). clear A2.
  pose proof (ab_add _ _ _ _ _ _ (205 / 100) B2 H5) as A3. rewrite uval in *. unfold XX in A3.
  assert (B3 : ab (301 / 100 * / 16777216 * (204 / 100) + 626 / 100 * / 16777216) (Bplus mode_NE xx t5) (XX + T5)) by (unfold XX; eapply ab_weak; [|apply A3]; lra). clear A3.
  unfold qq, QQ. rewrite (bmul_comm (f32_lit 5 (-1))). eapply ab_weak; [|apply (ab_half _ _ _ B3)]; unfold XX; lra.
Qed.
Lemma comp_ab (s : R) : ab s f G -> s <= 1035 / 100 * u -> Rabs G <= 205 / 100 -> Rabs (QQ - G) <= 103 / 100 -> Rabs (QQ - G + T) <= 103 / 100 -> ab (25 * u) (Bplus mode_NE (Bminus mode_NE qq f) t) (QQ - G + T).
Proof.
  intros Hf Hs BG B1 B2. pose proof qq_ab as Q. pose proof PfOctAcc.tiny_small as Ty. unfold pab in *.
  assert (BQ : Rabs QQ <= 1000).
  { replace QQ with ((QQ - G) + G) by ring. eapply Rle_trans; [apply Rabs_triang|]. lra. }
  pose proof (ab_sub _ _ _ _ _ _ (104 / 100) Q Hf) as A1. rewrite uval in *.
  assert (C1 : ab (1762 / 100 * / 16777216) (Bminus mode_NE qq f) (QQ - G)) by (eapply ab_weak; [|apply A1]; lra). clear A1.
  pose proof (ab_add _ _ _ _ _ _ (104 / 100) C1 Ht) as A2. rewrite uval in *. eapply ab_weak; [|apply A2]; lra.
Qed.
End Product.
Lemma sq_abs_prod a b : Rabs (a * b) <= (a * a + b * b) / 2.
Proof. apply Rabs_le. pose proof (Rle_0_sqr (a - b)). pose proof (Rle_0_sqr (a + b)). unfold Rsqr in *. lra. Qed.
Lemma small_of_sq a s : a * a <= s -> s <= 4 -> Rabs a <= 2.
Proof. intros H K. apply Rabs_le. split; nra. Qed.
Lemma qmul_close L p q : all_finite (lq p) -> all_finite (lq q) -> ip (vals (lq p)) (vals (lq p)) <= 102 / 100 -> ip (vals (lq q)) (vals (lq q)) <= 102 / 100 ->
  all_close (25 * u) (lq (quat_mul (F32 L) p q)) (lq (ham (rquat p) (rquat q))).
Proof.
  destruct p as [x y z w], q as [X Y Z W]. unfold all_finite, vals, lq. cbn [qx qy qz qw map]. intros Fp Fq.
  apply Forall_cons_iff in Fp as [Fx Fp]. apply Forall_cons_iff in Fp as [Fy Fp]. apply Forall_cons_iff in Fp as [Fz Fp]. apply Forall_cons_iff in Fp as [Fw _].
  apply Forall_cons_iff in Fq as [FX Fq]. apply Forall_cons_iff in Fq as [FY Fq]. apply Forall_cons_iff in Fq as [FZ Fq]. apply Forall_cons_iff in Fq as [FW _].
  assert (I : forall a b c d, ip [a; b; c; d] [a; b; c; d] = a * a + b * b + c * c + d * d) by (intros; unfold ip; cbn; ring). rewrite !I. clear I.
  unfold rquat, ham, mkq, qvec. cbn [qx qy qz qw].
  unfold quat_mul, quat_ctor. cbn [qx qy qz qw].
  change (@sadd (F32 L)) with (@Bplus 24 128 eq_refl eq_refl mode_NE). change (@ssub (F32 L)) with (@Bminus 24 128 eq_refl eq_refl mode_NE). change (@smul (F32 L)) with (@Bmult 24 128 eq_refl eq_refl mode_NE).
  change (@slit (F32 L) 5 (-1)) with (f32_lit 5 (-1)).
  set (x' := b2r x) in *. set (y' := b2r y) in *. set (z' := b2r z) in *. set (w' := b2r w) in *. set (X' := b2r X) in *. set (Y' := b2r Y) in *. set (Z' := b2r Z) in *. set (W' := b2r W) in *.
  intros Np Nq. 
  pose proof (Rle_0_sqr x') as Sx. pose proof (Rle_0_sqr y') as Sy. pose proof (Rle_0_sqr z') as Sz. pose proof (Rle_0_sqr w') as Sw.
  pose proof (Rle_0_sqr X') as SX. pose proof (Rle_0_sqr Y') as SY. pose proof (Rle_0_sqr Z') as SZ. pose proof (Rle_0_sqr W') as SW. unfold Rsqr in *.
  assert (Bx : Rabs x' <= 2) by (apply (small_of_sq _ 2); lra). assert (By : Rabs y' <= 2) by (apply (small_of_sq _ 2); lra). assert (Bz : Rabs z' <= 2) by (apply (small_of_sq _ 2); lra). assert (Bw : Rabs w' <= 2) by (apply (small_of_sq _ 2); lra).
  assert (BX : Rabs X' <= 2) by (apply (small_of_sq _ 2); lra). assert (BY : Rabs Y' <= 2) by (apply (small_of_sq _ 2); lra). assert (BZ : Rabs Z' <= 2) by (apply (small_of_sq _ 2); lra). assert (BW : Rabs W' <= 2) by (apply (small_of_sq _ 2); lra).
  assert (B4 : forall a b, Rabs a <= 2 -> Rabs b <= 2 -> Rabs (a + b) <= 4 /\ Rabs (a - b) <= 4).
  { intros a b Ha Hb. split; [pose proof (Rabs_triang a b)|pose proof (Rabs_triang a (- b)); rewrite Rabs_Ropp in *]; unfold Rminus; lra. }
  assert (P1 : pab (Bmult mode_NE (Bplus mode_NE z x) (Bplus mode_NE X Y)) ((z' + x') * (X' + Y'))) by (apply mul_ab; [apply sum_ab|apply sum_ab|apply B4|apply B4]; assumption).
  assert (P2 : pab (Bmult mode_NE (Bminus mode_NE w y) (Bplus mode_NE W Z)) ((w' - y') * (W' + Z'))) by (apply mul_ab; [apply diff_ab|apply sum_ab|apply B4|apply B4]; assumption).
  assert (P3 : pab (Bmult mode_NE (Bplus mode_NE w y) (Bminus mode_NE W Z)) ((w' + y') * (W' - Z'))) by (apply mul_ab; [apply sum_ab|apply diff_ab|apply B4|apply B4]; assumption).
  assert (P4 : pab (Bmult mode_NE (Bminus mode_NE z x) (Bminus mode_NE X Y)) ((z' - x') * (X' - Y'))) by (apply mul_ab; [apply diff_ab|apply diff_ab|apply B4|apply B4]; assumption).
  assert (T1 : pab (Bmult mode_NE (Bminus mode_NE z y) (Bminus mode_NE Y Z)) ((z' - y') * (Y' - Z'))) by (apply mul_ab; [apply diff_ab|apply diff_ab|apply B4|apply B4]; assumption).
  assert (T2 : pab (Bmult mode_NE (Bplus mode_NE x w) (Bplus mode_NE X W)) ((x' + w') * (X' + W'))) by (apply mul_ab; [apply sum_ab|apply sum_ab|apply B4|apply B4]; assumption).
  assert (T3 : pab (Bmult mode_NE (Bminus mode_NE w x) (Bplus mode_NE Y Z)) ((w' - x') * (Y' + Z'))) by (apply mul_ab; [apply diff_ab|apply sum_ab|apply B4|apply B4]; assumption).
  assert (T4 : pab (Bmult mode_NE (Bplus mode_NE z y) (Bminus mode_NE W X)) ((z' + y') * (W' - X'))) by (apply mul_ab; [apply sum_ab|apply diff_ab|apply B4|apply B4]; assumption).
  pose proof (sq_abs_prod (z' + x') (X' + Y')) as A1. pose proof (sq_abs_prod (w' - y') (W' + Z')) as A2. pose proof (sq_abs_prod (w' + y') (W' - Z')) as A3. pose proof (sq_abs_prod (z' - x') (X' - Y')) as A4.
  assert (SS : Rabs ((z' + x') * (X' + Y')) + Rabs ((w' - y') * (W' + Z')) + Rabs ((w' + y') * (W' - Z')) + Rabs ((z' - x') * (X' - Y')) <= 204 / 100) by lra.
  assert (E2 : forall a b, (a - b) * (a - b) <= 2 * (a * a + b * b) /\ (a + b) * (a + b) <= 2 * (a * a + b * b)) by (intros a b; pose proof (Rle_0_sqr (a + b)); pose proof (Rle_0_sqr (a - b)); unfold Rsqr in *; lra).
  assert (ST1 : Rabs ((z' - y') * (Y' - Z')) <= 204 / 100) by (eapply Rle_trans; [apply sq_abs_prod|]; pose proof (E2 z' y'); pose proof (E2 Y' Z'); lra).
  assert (ST2 : Rabs ((x' + w') * (X' + W')) <= 204 / 100) by (eapply Rle_trans; [apply sq_abs_prod|]; pose proof (E2 x' w'); pose proof (E2 X' W'); lra).
  assert (ST3 : Rabs ((w' - x') * (Y' + Z')) <= 204 / 100) by (eapply Rle_trans; [apply sq_abs_prod|]; pose proof (E2 w' x'); pose proof (E2 Y' Z'); lra).
  assert (ST4 : Rabs ((z' + y') * (W' - X')) <= 204 / 100) by (eapply Rle_trans; [apply sq_abs_prod|]; pose proof (E2 z' y'); pose proof (E2 W' X'); lra).
  assert (C4 : forall a b c d A B C D, a * a + b * b + c * c + d * d <= 102 / 100 -> A * A + B * B + C * C + D * D <= 102 / 100 -> Rabs (a * A + b * B + c * C + d * D) <= 103 / 100).
  { intros a b c d A B C D H1 H2. apply Rabs_le. pose proof (Rle_0_sqr (a - A)). pose proof (Rle_0_sqr (a + A)). pose proof (Rle_0_sqr (b - B)). pose proof (Rle_0_sqr (b + B)). pose proof (Rle_0_sqr (c - C)). pose proof (Rle_0_sqr (c + C)). pose proof (Rle_0_sqr (d - D)). pose proof (Rle_0_sqr (d + D)). unfold Rsqr in *. lra. }
  set (V1 := (z' + x') * (X' + Y')) in *. set (V2 := (w' - y') * (W' + Z')) in *. set (V3 := (w' + y') * (W' - Z')) in *. set (V4 := (z' - x') * (X' - Y')) in *.
  pose proof (Rabs_pos V1) as N1. pose proof (Rabs_pos V2) as N2. pose proof (Rabs_pos V3) as N3. pose proof (Rabs_pos V4) as N4.
  assert (AA : forall v, - Rabs v <= v <= Rabs v) by (intros v; apply Rabs_le_inv, Rle_refl).
  pose proof (AA V1) as O1. pose proof (AA V2) as O2. pose proof (AA V3) as O3. pose proof (AA V4) as O4.
  assert (XA : ab (1035 / 100 * u) (Bplus mode_NE (Bplus mode_NE (Bmult mode_NE (Bplus mode_NE z x) (Bplus mode_NE X Y)) (Bmult mode_NE (Bminus mode_NE w y) (Bplus mode_NE W Z)))
    (Bmult mode_NE (Bplus mode_NE w y) (Bminus mode_NE W Z))) (V1 + V2 + V3)) by (eapply xx_ab; [exact P1|exact P2|exact P3|exact P4|exact T1|exact SS]).
  assert (weak : forall c v, pab c v -> Rabs v <= 204 / 100 -> ab (1035 / 100 * u) c v) by (intros c v H B; eapply ab_weak; [|exact H]; rewrite uval; lra).
  assert (go : forall c r r', r = r' -> ab (25 * u) c r' -> finite c /\ Rabs (b2r c - r) <= 25 * u) by (intros c r r' -> H; exact H).
  unfold all_close. apply Forall2_cons; [|apply Forall2_cons; [|apply Forall2_cons; [|apply Forall2_cons; [|apply Forall2_nil]]]].
  - apply (go _ _ ((V1 + V2 + V3 + V4) / 2 - (V1 + V2 + V3) + (x' + w') * (X' + W'))); [unfold V1, V2, V3, V4; cbn; field|].
    eapply comp_ab; try eassumption; [apply Rle_refl|apply Rabs_le; lra|apply Rabs_le; lra|].
    replace (_ - _ + _) with (w' * X' + x' * W' + y' * Z' + (- z') * Y') by (unfold V1, V2, V3, V4; field). apply C4; lra.
  - apply (go _ _ ((V1 + V2 + V3 + V4) / 2 - V2 + (w' - x') * (Y' + Z'))); [unfold V1, V2, V3, V4; cbn; field|].
    eapply comp_ab; try eassumption; [rewrite uval; lra|apply Rabs_le; lra|apply Rabs_le; lra|].
    replace (_ - _ + _) with (w' * Y' + y' * W' + z' * X' + (- x') * Z') by (unfold V1, V2, V3, V4; field). apply C4; lra.
  - apply (go _ _ ((V1 + V2 + V3 + V4) / 2 - V3 + (z' + y') * (W' - X'))); [unfold V1, V2, V3, V4; cbn; field|].
    eapply comp_ab; try eassumption; [rewrite uval; lra|apply Rabs_le; lra|apply Rabs_le; lra|].
    replace (_ - _ + _) with (w' * Z' + z' * W' + x' * Y' + (- y') * X') by (unfold V1, V2, V3, V4; field). apply C4; lra.
  - apply (go _ _ ((V1 + V2 + V3 + V4) / 2 - V1 + (z' - y') * (Y' - Z'))); [unfold V1, V2, V3, V4; cbn; field|].
    eapply comp_ab; try eassumption; [rewrite uval; lra|apply Rabs_le; lra|apply Rabs_le; lra|].
    replace (_ - _ + _) with (w' * W' + (- x') * X' + (- y') * Y' + (- z') * Z') by (unfold V1, V2, V3, V4; field). apply C4; lra.
Qed.

(** ** Directions *)
Lemma ip_comm4 A B : length A = 4%nat -> length B = 4%nat -> ip A B = ip B A.
Proof. intros HA HB. list4 A. list4 B. unfold ip. cbn. ring. Qed.
Lemma chord4 A B : length A = 4%nat -> length B = 4%nat -> 99/100 <= norm A -> 99/100 <= norm B -> norm (vsub (unit_of A) (unit_of B)) <= 1011/1000 * norm (vsub A B).
Proof.
  intros LA LB HA HB. apply sq_le_norm; [pose proof (norm_nn (vsub A B)); lra|].
  replace (1011/1000 * norm (vsub A B) * (1011/1000 * norm (vsub A B))) with (1011/1000 * (1011/1000) * (norm (vsub A B) * norm (vsub A B))) by ring. rewrite norm_sq.
  pose proof (norm_sq A) as SA. pose proof (norm_sq B) as SB. unfold unit_of. set (a := norm A) in *. set (b := norm B) in *.
  assert (E1 : ip (vsub A B) (vsub A B) = a * a + b * b - 2 * ip A B) by (rewrite SA, SB; clear -LA LB; list4 A; list4 B; unfold ip, vsub; cbn; ring).
  assert (E2 : ip (vsub (vscale (/ a) A) (vscale (/ b) B)) (vsub (vscale (/ a) A) (vscale (/ b) B)) = 2 - 2 * (ip A B * / (a * b))).
  { replace 2 with (/ a * / a * (a * a) + / b * / b * (b * b)) at 1 by (field; lra). rewrite SA, SB, Rinv_mult. generalize (/ a) (/ b). intros p q. clear -LA LB. list4 A. list4 B. unfold ip, vsub, vscale. cbn. ring. }
  rewrite E2, E1. pose proof (norm_sq (vsub A B)) as M. pose proof (Rle_0_sqr (norm (vsub A B))) as MP. unfold Rsqr in MP. rewrite M, E1 in MP. clear M E1 E2.
  pose proof (Rle_0_sqr (a - b)) as D. unfold Rsqr in D. set (I := ip A B) in *.
  assert (K : 9801/10000 <= a * b) by (replace (9801/10000) with (99/100 * (99/100)) by field; apply Rmult_le_compat; lra).
  apply Rmult_le_reg_r with (a * b); [lra|]. replace ((2 - 2 * (I * / (a * b))) * (a * b)) with (2 * (a * b) - 2 * I) by (field; lra).
  apply Rle_trans with (1 * (a * a + b * b - 2 * I)); [lra|]. rewrite (Rmult_comm (1011/1000 * (1011/1000) * _)), <- Rmult_assoc. apply Rmult_le_compat_r; [exact MP|]. lra.
Qed.
Lemma unit_unit A : 0 < norm A -> unit_of (unit_of A) = unit_of A.
Proof. intros P. unfold unit_of at 1. rewrite unit_norm' by exact P. rewrite Rinv_1. unfold vscale. rewrite (map_ext (Rmult 1) (fun x => x)); [apply map_id|intros; ring]. Qed.
Lemma unit_dist A : length A = 4%nat -> 0 < norm A -> norm (vsub A (unit_of A)) = Rabs (norm A - 1).
Proof.
  intros LA P. replace (vsub A (unit_of A)) with (vscale ((norm A - 1) * / norm A) A).
  - rewrite norm_scale3, Rabs_mult, (Rabs_pos_eq (/ norm A)) by (left; now apply Rinv_0_lt_compat). field. lra.
  - unfold unit_of. assert (N : norm A <> 0) by lra. revert N. generalize (norm A). intros a N. list4 A. unfold vsub, vscale. cbn. repeat (apply f_equal2; [field; exact N|]). reflexivity.
Qed.
(** ** One update *)
Definition hamS (side : bool) (Q D : quat R) : quat R := if side then ham Q D else ham D Q.
Definition mulS L (side : bool) (q d : quat f32) : quat f32 := normalize_q (F32 L) (if side then quat_mul (F32 L) q d else quat_mul (F32 L) d q).
Lemma ham_subr a b m : norm (vsub (lq (ham m a)) (lq (ham m b))) = norm (lq m) * norm (vsub (lq a) (lq b)).
Proof.
  destruct a as [a0 a1 a2 a3], b as [b0 b1 b2 b3], m as [x y z w]. unfold lq, ham, mkq, qvec, vsub. cbn [qx qy qz qw nth zip]. rewrite !norm4, <- sqrt_mult_alt by apply sq4. f_equal. cbn. ring.
Qed.
Lemma hamS_sub1 side a b m : norm (vsub (lq (hamS side a m)) (lq (hamS side b m))) = norm (vsub (lq a) (lq b)) * norm (lq m).
Proof. destruct side; [apply ham_sub|]. unfold hamS. rewrite ham_subr. ring. Qed.
Lemma hamS_sub2 side a b m : norm (vsub (lq (hamS side m a)) (lq (hamS side m b))) = norm (lq m) * norm (vsub (lq a) (lq b)).
Proof. destruct side; [apply ham_subr|]. unfold hamS. pose proof (ham_sub a b m) as H. fold (vsub (lq (ham a m)) (lq (ham b m))) in H. rewrite H. unfold vsub. ring. Qed.
Lemma hamS_norm side a b : norm (lq (hamS side a b)) = norm (lq a) * norm (lq b).
Proof. destruct side; unfold hamS; rewrite norm_ham; ring. Qed.
Definition q4 (l : list R) : quat R := Quat (nth 0 l 0) (nth 1 l 0) (nth 2 l 0) (nth 3 l 0).
Lemma lq_q4 l : length l = 4%nat -> lq (q4 l) = l.
Proof. intros H. list4 l. reflexivity. Qed.
Lemma lq_len {T} (q : quat T) : length (lq q) = 4%nat. Proof. destruct q. reflexivity. Qed.
Lemma hamS_unit side a b : norm (lq b) = 1 -> unit_of (lq (hamS side a b)) = lq (hamS side (q4 (unit_of (lq a))) b).
Proof.
  intros H. unfold unit_of at 1. rewrite hamS_norm, H, Rmult_1_r. unfold unit_of. generalize (/ norm (lq a)). intros k.
  destruct a as [a0 a1 a2 a3], b as [b0 b1 b2 b3], side; unfold hamS, ham, mkq, qvec, lq, q4, vscale; cbn; repeat (apply f_equal2; [ring|]); reflexivity.
Qed.
Lemma tri4 A B C a b : length A = 4%nat -> length B = 4%nat -> length C = 4%nat -> norm (vsub A B) <= a -> norm (vsub B C) <= b -> norm (vsub A C) <= a + b.
Proof. intros LA LB LC HA HB. apply (norm_from_parts4 (vsub A B) (vsub B C)); trivial; try (now apply vsub_len4). list4 A. list4 B. list4 C. unfold vadd, vsub. cbn. lring. Qed.
Lemma close_norm4 b c r : length r = 4%nat -> 0 <= b -> all_close b (lq c) r -> all_finite (lq c) /\ norm (vsub (vals (lq c)) r) <= 2 * b.
Proof.
  intros Lr Pb H. destruct c as [x y z w]. list4 r. unfold all_close, lq in *. cbn [qx qy qz qw] in *.
  apply Forall2_cons_iff in H as [[F0 H0] H]. apply Forall2_cons_iff in H as [[F1 H1] H]. apply Forall2_cons_iff in H as [[F2 H2] H]. apply Forall2_cons_iff in H as [[F3 H3] _].
  split; [unfold all_finite; auto|]. unfold vsub, vals. cbn [map zip]. apply sq_le_norm; [lra|].
  assert (G : forall t, Rabs t <= b -> t * t <= b * b) by (intros t Ht; replace (t * t) with (Rabs t * Rabs t) by (rewrite <- Rabs_mult; apply Rabs_pos_eq, Rle_0_sqr); apply Rmult_le_compat; trivial; apply Rabs_pos).
  apply G in H0, H1, H2, H3. unfold ip. cbn. lra.
Qed.
Lemma step_near L side E e q Q d D : all_finite (lq q) -> Rabs (norm (vals (lq q)) - 1) <= / 250 -> unit_quat Q -> norm (vsub (unit_of (vals (lq q))) (lq Q)) <= E ->
  unit_near e d D -> e <= / 250 -> let q' := mulS L side q d in
  all_finite (lq q') /\ Rabs (norm (vals (lq q')) - 1) <= 9 * u /\ unit_quat (hamS side Q D) /\ norm (vsub (unit_of (vals (lq q'))) (lq (hamS side Q D))) <= E + 102/100 * e + 59 * u.
Proof.
  intros Fq Nq UQ HE (Fd & UD & Kd) He q'. apply Rabs_le_inv in Nq. pose proof u_val as U. pose proof PfOctAcc.tiny_small as Ty.
  assert (Pe : 0 <= e) by (eapply Rle_trans; [apply norm_nn|exact Kd]).
  assert (Nd : norm (vals (lq d)) <= 1 + e).
  { rewrite <- UD. apply (norm_from_parts4 (lq D) (vsub (vals (lq d)) (lq D))); [apply lq_len|apply vsub_len4; [reflexivity|apply lq_len]| |apply Rle_refl|exact Kd]. destruct d, D. unfold vadd, vsub. cbn. lring. }
  assert (SQ : forall A, norm A <= 1005/1000 -> ip A A <= 102/100) by (intros A H; rewrite <- norm_sq; pose proof (norm_nn A); apply Rle_trans with (1005/1000 * (1005/1000)); [apply Rmult_le_compat; lra|lra]).
  set (r := if side then quat_mul (F32 L) q d else quat_mul (F32 L) d q). assert (Eq : q' = normalize_q (F32 L) r) by reflexivity. clearbody q'. subst q'.
  assert (CR : all_close (25 * u) (lq r) (lq (hamS side (rquat q) (rquat d)))).
  { unfold r, hamS. destruct side; apply qmul_close; trivial; apply SQ; lra. }
  apply close_norm4 in CR as [Fr Kr]; [|apply lq_len|lra].
  set (C := lq (hamS side (rquat q) D)).
  assert (LC : length C = 4%nat) by apply lq_len.
  assert (NC : norm C = norm (vals (lq q))) by (unfold C; rewrite hamS_norm, UD, rquat_vals; ring).
  assert (KC : norm (vsub (vals (lq r)) C) <= 50 * u + 1005/1000 * e).
  { apply tri4 with (lq (hamS side (rquat q) (rquat d))); trivial; try apply lq_len; [eapply Rle_trans; [exact Kr|lra]|]. unfold C. rewrite hamS_sub2, !rquat_vals. apply Rmult_le_compat; trivial; try apply norm_nn. lra. }
  assert (NR : norm C <= norm (vals (lq r)) + (50 * u + 1005/1000 * e) /\ norm (vals (lq r)) <= norm C + (50 * u + 1005/1000 * e)).
  { destruct (qnear_norm (50 * u + 1005/1000 * e) r C (conj LC (conj Fr KC))) as (X1 & X2 & _). split; [exact X2|exact X1]. }
  assert (N99 : 99/100 <= norm (vals (lq r))) by lra.
  assert (R48 : / IZR (2 ^ 48) <= norm (vals (lq r)) <= IZR (2 ^ 62)).
  { split; [apply Rle_trans with (/ 2); [apply Rinv_le_contravar; [lra|now apply IZR_le]|lra]|apply Rle_trans with 2; [lra|now apply IZR_le]]. }
  assert (K1 : norm (vsub (unit_of (vals (lq r))) (unit_of C)) <= 1011/1000 * (50 * u + 1005/1000 * e)).
  { eapply Rle_trans; [apply chord4; trivial; lra|]. apply Rmult_le_compat_l; [lra|exact KC]. }
  assert (QN : qnear 0 r (vals (lq r))). { split; [reflexivity|split; [exact Fr|]]. right. unfold vsub. destruct r as [r0 r1 r2 r3]. unfold norm, ip. cbn. replace (_ + _) with 0 by ring. apply sqrt_0. }
  pose proof (normalize_q_near L 0 r _ QN ltac:(lra) R48) as (LU & Fn & Kn). replace (2 * 0 / norm (vals (lq r))) with 0 in Kn by (field; lra).
  destruct (C72_normalize_pf L) as (_ & _ & _ & H). destruct (H r Fr R48) as (_ & _ & KN). clear H. cbn [INR] in KN.
  assert (KN' : Rabs (norm (vals (lq (normalize_q (F32 L) r))) - 1) <= 9 * u) by (eapply Rle_trans; [exact KN|lra]). clear KN.
  assert (K2 : norm (vsub (unit_of (vals (lq (normalize_q (F32 L) r)))) (unit_of (vals (lq r)))) <= 1011/1000 * (8 * u + 2 * tiny)).
  { rewrite <- (unit_unit (vals (lq r))) by lra. eapply Rle_trans; [apply chord4; trivial|apply Rmult_le_compat_l; [lra|eapply Rle_trans; [exact Kn|lra]]].
    - apply Rabs_le_inv in KN'. lra.
    - rewrite unit_norm' by lra. lra. }
  assert (UH : unit_quat (hamS side Q D)) by (unfold unit_quat in *; rewrite hamS_norm, UQ, UD; ring).
  assert (K3 : norm (vsub (unit_of C) (lq (hamS side Q D))) <= E).
  { unfold C. rewrite hamS_unit by exact UD. rewrite hamS_sub1, rquat_vals, lq_q4, UD by (unfold unit_of; now rewrite vscale_len). lra. }
  split; [exact Fn|]. split; [exact KN'|]. split; [exact UH|].
  assert (LUr : length (unit_of (vals (lq r))) = 4%nat) by exact LU. assert (LUC : length (unit_of C) = 4%nat) by (unfold unit_of; now rewrite vscale_len).
  assert (LUn : length (unit_of (vals (lq (normalize_q (F32 L) r)))) = 4%nat) by (unfold unit_of; rewrite vscale_len; reflexivity).
  pose proof (tri4 _ _ _ _ _ LUn LUr LUC K2 K1) as K4. pose proof (tri4 _ _ _ _ _ LUn LUC (lq_len _) K4 K3) as K5. eapply Rle_trans; [exact K5|]. lra.
Qed.
(** ** Any number of updates *)
Lemma steps_near L side e (Pe : e <= / 250) ds : forall Ds q Q E, Forall2 (unit_near e) ds Ds -> ds <> [] ->
  all_finite (lq q) -> Rabs (norm (vals (lq q)) - 1) <= / 250 -> unit_quat Q -> norm (vsub (unit_of (vals (lq q))) (lq Q)) <= E ->
  let r := fold_left (mulS L side) ds q in let R := fold_left (hamS side) Ds Q in
  all_finite (lq r) /\ Rabs (norm (vals (lq r)) - 1) <= 9 * u /\ norm (vsub (unit_of (vals (lq r))) (lq R)) <= E + INR (length ds) * (102/100 * e + 59 * u).
Proof.
  induction ds as [|d ds IH]; intros Ds q Q E H NE Fq Nq UQ HE; [congruence|]. inversion H as [|? D ? Ds' Hd Hds]; subst. clear H.
  destruct (step_near L side E e q Q d D Fq Nq UQ HE Hd Pe) as (F & N & UH & K). cbn [fold_left length]. pose proof u_val as U. rewrite S_INR.
  destruct ds as [|d' ds].
  - inversion Hds; subst. cbn [fold_left length INR]. split; [exact F|]. split; [exact N|]. eapply Rle_trans; [exact K|]. lra.
  - destruct (IH Ds' (mulS L side q d) (hamS side Q D) _ Hds ltac:(discriminate) F ltac:(lra) UH K) as (F' & N' & K'). split; [exact F'|]. split; [exact N'|]. eapply Rle_trans; [exact K'|]. lra.
Qed.
Lemma start_near e q Q : unit_near e q Q -> e <= / 250 -> all_finite (lq q) /\ Rabs (norm (vals (lq q)) - 1) <= / 250 /\ unit_quat Q /\ norm (vsub (unit_of (vals (lq q))) (lq Q)) <= 102/100 * e.
Proof.
  intros (F & UQ & K) He. assert (LQ : length (lq Q) = 4%nat) by apply lq_len. destruct (qnear_norm e q (lq Q) (conj LQ (conj F K))) as (N1 & N2 & Pe). unfold unit_quat in UQ. rewrite UQ in N1, N2.
  split; [exact F|]. split; [apply Rabs_le; lra|]. split; [exact UQ|].
  assert (UU : unit_of (lq Q) = lq Q) by (unfold unit_of; rewrite UQ, Rinv_1; unfold vscale; rewrite (map_ext (Rmult 1) (fun x => x)); [apply map_id|intros; ring]).
  rewrite <- UU. eapply Rle_trans; [apply chord4; trivial; lra|]. apply Rle_trans with (1011/1000 * e); [apply Rmult_le_compat_l; lra|lra].
Qed.
Lemma updates_near L side e e0 q0 Q0 ds Ds : unit_near e0 q0 Q0 -> Forall2 (unit_near e) ds Ds -> e0 <= / 250 -> e <= / 250 -> ds <> [] ->
  let r := fold_left (mulS L side) ds q0 in
  all_finite (lq r) /\ Rabs (norm (vals (lq r)) - 1) <= 9 * u /\
  norm (vsub (vals (lq r)) (lq (fold_left (hamS side) Ds Q0))) <= 102/100 * (e0 + INR (length ds) * e) + (59 * INR (length ds) + 9) * u.
Proof.
  intros H0 H He0 He NE r. destruct (start_near _ _ _ H0 He0) as (F & N & UQ & K). pose proof u_val as U.
  destruct (steps_near L side e He ds Ds q0 Q0 _ H NE F N UQ K) as (F' & N' & K'). fold r in F', N', K'. split; [exact F'|]. split; [exact N'|].
  assert (P : 0 < norm (vals (lq r))) by (apply Rabs_le_inv in N'; lra).
  assert (D : norm (vsub (vals (lq r)) (unit_of (vals (lq r)))) <= 9 * u) by (rewrite unit_dist; trivial).
  assert (LU : length (unit_of (vals (lq r))) = 4%nat) by (unfold unit_of; rewrite vscale_len; reflexivity).
  eapply Rle_trans; [apply (tri4 _ _ _ _ _ (eq_refl : length (vals (lq r)) = 4%nat) LU (lq_len _) D K')|]. lra.
Qed.
(** An orientation updated by q := normalize(q * d) any number of times stays normalized within 9 half-ulps, and its distance from the exact
    composition of the turns grows at most linearly: 59 half-ulps per update on top of the errors of the turns themselves. *)
Lemma C98_body_updates_pf : forall (L : Libm) (e0 e : R) (q0 : quat f32) (Q0 : quat R) (ds : list (quat f32)) (Ds : list (quat R)),
  unit_near e0 q0 Q0 -> Forall2 (unit_near e) ds Ds -> e0 <= / 250 -> e <= / 250 -> ds <> [] ->
  let r := fold_left (fun q d => normalize_q (F32 L) (quat_mul (F32 L) q d)) ds q0 in let n := INR (length ds) in
  all_finite (lq r) /\ Rabs (norm (vals (lq r)) - 1) <= 9 * ulp_half /\
  norm (vsub (vals (lq r)) (lq (turns_body Q0 Ds))) <= 102/100 * (e0 + n * e) + (59 * n + 9) * ulp_half.
Proof. intros L e0 e q0 Q0 ds Ds. exact (updates_near L true e e0 q0 Q0 ds Ds). Qed.
(** The same for q := normalize(d * q). *)
Lemma C98_world_updates_pf : forall (L : Libm) (e0 e : R) (q0 : quat f32) (Q0 : quat R) (ds : list (quat f32)) (Ds : list (quat R)),
  unit_near e0 q0 Q0 -> Forall2 (unit_near e) ds Ds -> e0 <= / 250 -> e <= / 250 -> ds <> [] ->
  let r := fold_left (fun q d => normalize_q (F32 L) (quat_mul (F32 L) d q)) ds q0 in let n := INR (length ds) in
  all_finite (lq r) /\ Rabs (norm (vals (lq r)) - 1) <= 9 * ulp_half /\
  norm (vsub (vals (lq r)) (lq (turns_world Q0 Ds))) <= 102/100 * (e0 + n * e) + (59 * n + 9) * ulp_half.
Proof. intros L e0 e q0 Q0 ds Ds. exact (updates_near L false e e0 q0 Q0 ds Ds). Qed.
(** One product of quaternions of length at most sqrt 1.02: each component is within 25 half-ulps. *)
Lemma C98_product_pf : forall (L : Libm) (p q : quat f32), all_finite (lq p) -> all_finite (lq q) ->
  ip (vals (lq p)) (vals (lq p)) <= 102/100 -> ip (vals (lq q)) (vals (lq q)) <= 102/100 ->
  all_close (25 * ulp_half) (lq (quat_mul (F32 L) p q)) (lq (ham (rquat p) (rquat q))).
Proof. exact qmul_close. Qed.
(** ** Vectors turned by such a quaternion *)
Ltac list3' A := destruct A as [|?a [|?a [|?a [|? ?]]]]; try discriminate.
Lemma nears_norm k t c x m : length c = 3%nat -> length x = 3%nat -> length m = 3%nat -> 0 <= gam k -> 0 <= t -> Forall (Rle 0) m ->
  nears k t c x m -> norm (vsub (vals c) x) <= gam k * norm m + 2 * t.
Proof.
  intros Lc Lx Lm G Pt Pm H. list3' c. list3' x. list3' m. cbn [nears] in H. destruct H as (H0 & H1 & H2 & _). unfold near in *.
  apply Forall_cons_iff in Pm as [M0 Pm]. apply Forall_cons_iff in Pm as [M1 Pm]. apply Forall_cons_iff in Pm as [M2 _].
  apply Rle_trans with (norm (vadd (vscale (gam k) [a5; a6; a7]) (vscale t [1; 1; 1]))).
  - apply norm_mono. unfold vsub, vadd, vscale, vals. cbn. rewrite !(Rmult_1_r t). repeat (apply Forall2_cons; [assumption|]). apply Forall2_nil.
  - eapply Rle_trans; [apply norm_triangle; reflexivity|]. rewrite !norm_scale3, !Rabs_pos_eq by assumption. apply Rplus_le_compat_l. rewrite (Rmult_comm 2).
    apply Rmult_le_compat_l; [exact Pt|]. apply sq_le_norm; [lra|]. unfold ip. cbn. lra.
Qed.
Lemma turned_mag_norm x y z w v : length v = 3%nat -> Forall (Rle 0) [x; y; z; w] -> Forall (Rle 0) v -> ip [x; y; z; w] [x; y; z; w] <= 1001/1000 ->
  norm (turned_mag x y z w v) <= 65/10 * norm v.
Proof.
  intros Lv Pq Pv N. assert (AV : map Rabs v = v) by (list3' v; apply Forall_cons_iff in Pv as [P0 Pv]; apply Forall_cons_iff in Pv as [P1 Pv]; apply Forall_cons_iff in Pv as [P2 _]; cbn; rewrite !Rabs_pos_eq by assumption; reflexivity).
  apply Forall_cons_iff in Pq as [Px Pq]. apply Forall_cons_iff in Pq as [Py Pq]. apply Forall_cons_iff in Pq as [Pz Pq]. apply Forall_cons_iff in Pq as [Pw _].
  assert (AU : map Rabs [x; y; z] = [x; y; z]) by (cbn; rewrite !Rabs_pos_eq by assumption; reflexivity).
  pose proof (cross_mag_norm [x; y; z] v eq_refl Lv) as C1. rewrite AU, AV in C1.
  set (t := cross_mag [x; y; z] v) in *.
  assert (AT : map Rabs t = t).
  { unfold t, cross_mag. cbn [map nth]. list3' v. apply Forall_cons_iff in Pv as [P0 Pv]. apply Forall_cons_iff in Pv as [P1 Pv]. apply Forall_cons_iff in Pv as [P2 _]. cbn.
    assert (G : forall a b c d, 0 <= a -> 0 <= b -> 0 <= c -> 0 <= d -> Rabs (a * b + c * d) = a * b + c * d) by (intros; apply Rabs_pos_eq, Rplus_le_le_0_compat; now apply Rmult_le_pos). rewrite !G by assumption. reflexivity. }
  pose proof (cross_mag_norm [x; y; z] t eq_refl eq_refl) as C2. rewrite AU, AT in C2. set (s := cross_mag [x; y; z] t) in *.
  assert (E : turned_mag x y z w v = vadd v (vadd (vscale (2 * w) t) (vscale 2 s))) by (unfold turned_mag; fold t; fold s; unfold t, s, cross_mag; list3' v; unfold vadd, vscale; cbn; lring).
  rewrite E. set (n := norm [x; y; z]) in *. assert (Nn : n * n + w * w <= 1001/1000) by (unfold n; rewrite norm_sq; unfold ip in *; cbn in *; lra).
  assert (Pn : 0 <= n) by apply norm_nn. pose proof (norm_nn v) as PV. set (V := norm v) in *.
  eapply Rle_trans; [apply triangle3; [exact Lv|reflexivity]|]. eapply Rle_trans; [apply Rplus_le_compat_l, triangle3; reflexivity|]. rewrite !norm_scale3, !Rabs_pos_eq by lra. fold V.
  assert (W1 : w * n <= 1001/2000) by (pose proof (Rle_0_sqr (w - n)); unfold Rsqr in *; lra).
  assert (N1 : n * n <= 1001/1000) by (pose proof (Rle_0_sqr w); unfold Rsqr in *; lra).
  assert (K1 : 2 * w * norm t <= 143/100 * V).
  { apply Rle_trans with (2 * w * (142/100 * (n * V))); [apply Rmult_le_compat_l; lra|]. replace (2 * w * (142/100 * (n * V))) with (284/100 * (w * n) * V) by field. apply Rmult_le_compat_r; lra. }
  assert (K2 : 2 * norm s <= 405/100 * V).
  { apply Rle_trans with (2 * (142/100 * (n * (142/100 * (n * V))))).
    - apply Rmult_le_compat_l; [lra|]. eapply Rle_trans; [exact C2|]. apply Rmult_le_compat_l; [lra|]. apply Rmult_le_compat_l; [exact Pn|exact C1].
    - replace (2 * (142/100 * (n * (142/100 * (n * V))))) with (2 * (142/100) * (142/100) * (n * n) * V) by ring. apply Rmult_le_compat_r; lra. }
  lra.
Qed.
Lemma ham_eq a b c d p q r s : ham (Quat a b c d) (Quat p q r s) =
  Quat (d * p + s * a + (b * r - c * q)) (d * q + s * b + (c * p - a * r)) (d * r + s * c + (a * q - b * p)) (d * s - (a * p + b * q + c * r)).
Proof. unfold ham, mkq, qvec, vadd, vscale, cross_l, ip. cbn. f_equal; ring. Qed.
Lemma qrot_eq a b c d x y z : qrot (Quat a b c d) [x; y; z] = qvec (ham (ham (Quat a b c d) (Quat x y z 0)) (Quat (- a) (- b) (- c) d)).
Proof. reflexivity. Qed.
Lemma qrot_norm Q v : length v = 3%nat -> norm (qrot Q v) = norm (lq Q) * norm (lq Q) * norm v.
Proof.
  intros Lv. list3' v. pose proof (rot_ip Q (V3 a a0 a1) (V3 a a0 a1)) as H. change (l3 (V3 a a0 a1)) with [a; a0; a1] in H. unfold norm at 1. rewrite H, norm_sq.
  replace (ip (lq Q) (lq Q)) with (qn Q) by (destruct Q; unfold qn, ip; cbn; ring).
  assert (0 <= qn Q) by (destruct Q as [b c d f]; unfold qn; cbn; pose proof (Rle_0_sqr b); pose proof (Rle_0_sqr c); pose proof (Rle_0_sqr d); pose proof (Rle_0_sqr f); unfold Rsqr in *; lra).
  rewrite sqrt_mult_alt by (now apply Rmult_le_pos). rewrite sqrt_square by assumption. reflexivity.
Qed.
(** the formula of the library for a quaternion of length l, in terms of the rotation by its direction *)
Lemma turned_scaled q v : length v = 3%nat -> 0 < norm (vals (lq q)) -> let l := norm (vals (lq q)) in
  vsub (turned (b2r (qx q)) (b2r (qy q)) (b2r (qz q)) (b2r (qw q)) v) (qrot (q4 (unit_of (vals (lq q)))) v) = vscale (l * l - 1) (vsub (qrot (q4 (unit_of (vals (lq q)))) v) v).
Proof.
  intros Lv P l. unfold unit_of. fold l. fold l in P. assert (S : l * l = ip (vals (lq q)) (vals (lq q))) by apply norm_sq. clearbody l. destruct q as [x y z w]. unfold vals, lq in *. cbn [qx qy qz qw map] in *.
  set (x' := b2r x) in *. set (y' := b2r y) in *. set (z' := b2r z) in *. set (w' := b2r w) in *. clearbody x' y' z' w'. list3' v. unfold ip in S. cbn in S.
  assert (X : exists X Y Z W, x' = l * X /\ y' = l * Y /\ z' = l * Z /\ w' = l * W) by (exists (/ l * x'), (/ l * y'), (/ l * z'), (/ l * w'); repeat split; field; lra).
  destruct X as (X & Y & Z & W & -> & -> & -> & ->).
  assert (U : X * X + Y * Y + Z * Z + W * W = 1).
  { apply Rmult_eq_reg_l with (l * l); [|apply Rmult_integral_contrapositive; split; lra]. transitivity (l * X * (l * X) + (l * Y * (l * Y) + (l * Z * (l * Z) + (l * W * (l * W) + 0)))); [ring|lra]. }
  unfold vscale, q4. cbn [map nth]. replace (/ l * (l * X)) with X by (field; lra). replace (/ l * (l * Y)) with Y by (field; lra). replace (/ l * (l * Z)) with Z by (field; lra). replace (/ l * (l * W)) with W by (field; lra).
  clear S P. rewrite !qrot_eq, !ham_eq. unfold qvec, turned, cross_l, vsub, vscale. cbn [map nth zip qx qy qz qw].
  assert (WW : W * W = 1 - (X * X + Y * Y + Z * Z)) by lra.
  assert (T : forall p q r, q = p + r * (1 - (X * X + Y * Y + Z * Z + W * W)) -> p = q) by (intros p q r E; rewrite E, U; ring).
  repeat (apply f_equal2; [|]); [eapply (T _ _ (- (l * l * a))); ring|eapply (T _ _ (- (l * l * a0))); ring|eapply (T _ _ (- (l * l * a1))); ring|reflexivity].
Qed.
Lemma qrot_len Q v : length (qrot Q v) = 3%nat. Proof. reflexivity. Qed.
Lemma qvec_norm Q : norm (qvec Q) <= norm (lq Q).
Proof. destruct Q as [x y z w]. unfold norm. apply sqrt_le_1_alt. unfold ip, qvec, lq. cbn. pose proof (Rle_0_sqr w) as H. unfold Rsqr in H. lra. Qed.
Lemma qconj_norm Q : norm (lq (qconj Q)) = norm (lq Q).
Proof. destruct Q as [x y z w]. unfold norm. f_equal. unfold ip, qconj, mkq, qvec, lq. cbn. ring. Qed.
Lemma qpure_norm v : length v = 3%nat -> norm (lq (qpure v)) = norm v.
Proof. intros H. list3' v. unfold norm. f_equal. unfold ip, qpure, mkq, lq. cbn. ring. Qed.
Lemma qrot_lip A B v : length v = 3%nat -> unit_quat A -> unit_quat B -> norm (vsub (qrot A v) (qrot B v)) <= 2 * norm (vsub (lq A) (lq B)) * norm v.
Proof.
  intros Lv UA UB. set (D := q4 (vsub (lq A) (lq B))). assert (ED : lq D = vsub (lq A) (lq B)) by (apply lq_q4, vsub_len4; apply lq_len).
  replace (2 * norm (vsub (lq A) (lq B)) * norm v) with (norm (vsub (lq A) (lq B)) * norm v + norm (vsub (lq A) (lq B)) * norm v) by ring.
  apply (norm_from_parts (qvec (ham (ham D (qpure v)) (qconj A))) (qvec (ham (ham B (qpure v)) (qconj D)))); try reflexivity.
  - unfold D. destruct A as [a b c d], B as [p q r s]. list3' v. unfold vsub at 2 3, lq, q4. cbn [zip qx qy qz qw nth]. rewrite !qrot_eq. unfold qpure, qconj, mkq. cbn [qvec map nth qx qy qz qw]. rewrite !ham_eq. unfold vsub, vadd. cbn [qvec zip qx qy qz qw]. repeat (apply f_equal2; [ring|]). reflexivity.
  - eapply Rle_trans; [apply qvec_norm|]. rewrite !norm_ham, qconj_norm, qpure_norm, UA, ED by exact Lv. lra.
  - eapply Rle_trans; [apply qvec_norm|]. rewrite !norm_ham, qconj_norm, qpure_norm, UB, ED by exact Lv. lra.
Qed.
Lemma norm_rev A B : length A = 3%nat -> length B = 3%nat -> Rabs (norm A - norm B) <= norm (vsub A B).
Proof.
  intros LA LB. assert (H1 : norm A <= norm B + norm (vsub A B)) by (apply (norm_from_parts B (vsub A B)); try apply Rle_refl; [exact LB|now apply vsub_len|list3' A; list3' B; unfold vadd, vsub; cbn; lring]).
  assert (H2 : norm B <= norm A + norm (vsub A B)).
  { apply (norm_from_parts A (vscale (-1) (vsub A B))); [exact LA|rewrite vscale_len; now apply vsub_len|list3' A; list3' B; unfold vadd, vsub; cbn; lring|apply Rle_refl|]. rewrite norm_scale3, Rabs_left by lra. lra. }
  apply Rabs_le. lra.
Qed.
Lemma sub_norm A B : length A = 3%nat -> length B = 3%nat -> norm (vsub A B) <= norm A + norm B.
Proof.
  intros LA LB. apply (norm_from_parts A (vscale (-1) B)); [exact LA|now rewrite vscale_len|list3' A; list3' B; unfold vadd, vsub; cbn; lring|apply Rle_refl|]. rewrite norm_scale3, Rabs_left by lra. lra.
Qed.
Lemma rot_near_t L k q v : 0 <= k <= 30 * u -> all_finite (lq q) -> Rabs (norm (vals (lq q)) - 1) <= k -> all_finite (l3 v) -> norm (vals (l3 v)) <= IZR (2 ^ 40) ->
  all_finite (l3 (quat_mul_vec (F32 L) q v)) /\
  norm (vsub (vals (l3 (quat_mul_vec (F32 L) q v))) (qrot (q4 (unit_of (vals (lq q)))) (vals (l3 v)))) <= (40 * u + 4 * k) * norm (vals (l3 v)) + / IZR (2 ^ 102).
Proof.
  intros Hk Fq Nq Fv Nv. apply Rabs_le_inv in Nq. pose proof u_val as U. set (l := norm (vals (lq q))) in *. set (V := norm (vals (l3 v))) in *. assert (PV : 0 <= V) by apply norm_nn.
  assert (B40 : 2 <= IZR (2 ^ 40)) by (apply IZR_le; lia).
  assert (Bq : bounded_by (IZR (2 ^ 40)) (lq q)) by (apply bounded_norm; fold l; lra). assert (Bv : bounded_by (IZR (2 ^ 40)) (l3 v)) by (apply bounded_norm; exact Nv).
  assert (F : all_finite (l3 (quat_mul_vec (F32 L) q v))).
  { apply (proj1 (proj2 (C71_quaternions_pf L)) q v (IZR (2 ^ 40))).
    - lra.
    - apply Forall_app. now split.
    - apply Forall_app. now split.
    - rewrite pow_IZR, <- mult_IZR. apply IZR_lt. vm_compute. reflexivity. }
  split; [exact F|]. pose proof (C65_quat_rotation_pf L q v (IZR (2 ^ 40)) F ltac:(lra) Bq Bv) as N.
  assert (G6 : 0 <= gam 6 <= 601/100 * u).
  { unfold gam. replace (INR 6) with 6 by (cbn; lra). rewrite uval. replace (6 * / 16777216 / (1 - 6 * / 16777216)) with (6 / 16777210) by (field; lra). lra. }
  assert (MP : forall s, Forall (Rle 0) (mags s)) by (intros s; apply Forall_forall; intros r Hr; apply in_map_iff in Hr as [y [<- _]]; apply Rabs_pos).
  assert (IQ : ip (mags (lq q)) (mags (lq q)) <= 1001/1000).
  { assert (E : mags (lq q) = map Rabs (vals (lq q))) by (unfold mags, vals; now rewrite map_map). rewrite E, <- norm_sq, norm_abs. fold l. apply Rle_trans with (10001/10000 * (10001/10000)); [apply Rmult_le_compat; lra|lra]. }
  assert (NM : norm (mags (l3 v)) = V) by (unfold V; rewrite <- (norm_abs (vals (l3 v))); destruct v; reflexivity).
  pose proof (turned_mag_norm (Rabs (b2r (qx q))) (Rabs (b2r (qy q))) (Rabs (b2r (qz q))) (Rabs (b2r (qw q))) (mags (l3 v)) eq_refl (MP (lq q)) (MP (l3 v)) IQ) as TM. rewrite NM in TM.
  assert (T0 : 0 <= 18 * IZR (2 ^ 40) * tiny) by (pose proof tiny_pos; apply Rmult_le_pos; lra).
  assert (K1 : norm (vsub (vals (l3 (quat_mul_vec (F32 L) q v))) (turned (b2r (qx q)) (b2r (qy q)) (b2r (qz q)) (b2r (qw q)) (vals (l3 v)))) <= 3907/100 * u * V + / IZR (2 ^ 102)).
  { assert (PM : Forall (Rle 0) (turned_mag (Rabs (b2r (qx q))) (Rabs (b2r (qy q))) (Rabs (b2r (qz q))) (Rabs (b2r (qw q))) (mags (l3 v)))).
    { assert (PP : forall a b, 0 <= a -> 0 <= b -> 0 <= a * b) by apply Rmult_le_pos.
      destruct v as [v0 v1 v2]. unfold turned_mag, cross_mag, mags, l3. cbn [map nth x3 y3 z3].
      pose proof (Rabs_pos (b2r v0)). pose proof (Rabs_pos (b2r v1)). pose proof (Rabs_pos (b2r v2)). pose proof (Rabs_pos (b2r (qx q))). pose proof (Rabs_pos (b2r (qy q))). pose proof (Rabs_pos (b2r (qz q))). pose proof (Rabs_pos (b2r (qw q))).
      repeat (apply Forall_cons; [repeat (apply Rplus_le_le_0_compat || apply PP); lra|]). apply Forall_nil. }
    eapply Rle_trans; [eapply (nears_norm 6); [| | | | | |exact N]; [reflexivity|reflexivity|reflexivity|apply G6|exact T0|exact PM]|]. apply Rplus_le_compat.
    - apply Rle_trans with (601/100 * u * (65/10 * V)); [apply Rmult_le_compat; trivial; try lra; apply norm_nn|]. assert (0 <= u * V) by (apply Rmult_le_pos; lra). lra.
    - unfold tiny. replace (2 * (18 * IZR (2 ^ 40) * / IZR (2 ^ 149))) with (36 * (IZR (2 ^ 40) * / IZR (2 ^ 149))) by ring.
      replace (IZR (2 ^ 40) * / IZR (2 ^ 149)) with (/ IZR (2 ^ 109)). 2: { replace (2 ^ 149)%Z with (2 ^ 40 * 2 ^ 109)%Z by reflexivity. rewrite mult_IZR. field. split; apply IZR_neq; discriminate. }
      replace (2 ^ 109)%Z with (128 * 2 ^ 102)%Z by reflexivity. rewrite mult_IZR, Rinv_mult. assert (0 < / IZR (2 ^ 102)) by (apply Rinv_0_lt_compat; now apply IZR_lt). lra. }
  assert (Pl : 0 < l) by lra.
  pose proof (turned_scaled q (vals (l3 v)) eq_refl Pl) as TS. cbv zeta in TS. fold l in TS.
  set (R := qrot (q4 (unit_of (vals (lq q)))) (vals (l3 v))) in *.
  assert (NR : norm R = V).
  { unfold R. rewrite qrot_norm by reflexivity. rewrite lq_q4 by (unfold unit_of; rewrite vscale_len; reflexivity). rewrite unit_norm' by exact Pl. fold V. ring. }
  assert (K2 : norm (vsub (turned (b2r (qx q)) (b2r (qy q)) (b2r (qz q)) (b2r (qw q)) (vals (l3 v))) R) <= (4 * k + / 100 * u) * V).
  { rewrite TS, norm_scale3. assert (LL : Rabs (l * l - 1) <= 2 * k + / 1000 * u).
    { assert (D : - k <= l - 1 <= k) by lra. replace (l * l - 1) with (2 * (l - 1) + (l - 1) * (l - 1)) by ring. assert (0 <= (l - 1) * (l - 1) <= / 1000 * u).
      { split; [apply Rle_0_sqr|]. apply Rle_trans with (k * k); [|assert (k * k <= 30 * u * (30 * / 16777216)) by (apply Rmult_le_compat; lra); lra].
        replace ((l - 1) * (l - 1)) with (Rabs (l - 1) * Rabs (l - 1)) by (rewrite <- Rabs_mult; apply Rabs_pos_eq, Rle_0_sqr). assert (Rabs (l - 1) <= k) by (apply Rabs_le; lra). pose proof (Rabs_pos (l - 1)). apply Rmult_le_compat; lra. }
      apply Rabs_le. lra. }
    assert (DV : norm (vsub R (vals (l3 v))) <= V + V).
    { eapply Rle_trans; [apply sub_norm; reflexivity|]. rewrite NR. fold V. apply Rle_refl. }
    apply Rle_trans with ((2 * k + / 1000 * u) * (V + V)); [apply Rmult_le_compat; trivial; [apply Rabs_pos|apply norm_nn]|]. assert (0 <= u * V) by (apply Rmult_le_pos; lra). lra. }
  set (T := turned _ _ _ _ _) in *. assert (LT : length T = 3%nat) by reflexivity. assert (LR : length R = 3%nat) by reflexivity. set (c := vals (l3 (quat_mul_vec (F32 L) q v))) in *. assert (Lc : length c = 3%nat) by reflexivity.
  clearbody T R c. assert (K3 : norm (vsub c R) <= (3907/100 * u * V + / IZR (2 ^ 102)) + (4 * k + / 100 * u) * V).
  { apply (norm_from_parts (vsub c T) (vsub T R)); try (now apply vsub_len); trivial. list3' c. list3' T. list3' R. unfold vadd, vsub. cbn. lring. }
  assert (0 <= u * V) by (apply Rmult_le_pos; lra). lra.
Qed.
Lemma rot_near L q v : all_finite (lq q) -> Rabs (norm (vals (lq q)) - 1) <= 9 * u -> all_finite (l3 v) -> norm (vals (l3 v)) <= IZR (2 ^ 40) ->
  all_finite (l3 (quat_mul_vec (F32 L) q v)) /\
  norm (vsub (vals (l3 (quat_mul_vec (F32 L) q v))) (qrot (q4 (unit_of (vals (lq q)))) (vals (l3 v)))) <= 76 * u * norm (vals (l3 v)) + / IZR (2 ^ 102).
Proof.
  intros Fq Nq Fv Nv. pose proof u_val as U. replace (76 * u) with (40 * u + 4 * (9 * u)) by ring. apply rot_near_t; trivial. split; lra.
Qed.
Lemma vectors_near L side e e0 q0 Q0 ds Ds : unit_near e0 q0 Q0 -> Forall2 (unit_near e) ds Ds -> e0 <= / 250 -> e <= / 250 -> ds <> [] ->
  forall v, all_finite (l3 v) -> norm (vals (l3 v)) <= IZR (2 ^ 40) ->
  let r := quat_mul_vec (F32 L) (fold_left (mulS L side) ds q0) v in let n := INR (length ds) in let N := norm (vals (l3 v)) in
  all_finite (l3 r) /\ Rabs (norm (vals (l3 r)) - N) <= 76 * u * N + / IZR (2 ^ 102) /\
  norm (vsub (vals (l3 r)) (qrot (fold_left (hamS side) Ds Q0) (vals (l3 v)))) <= (204/100 * (e0 + n * e) + (118 * n + 76) * u) * N + / IZR (2 ^ 102).
Proof.
  intros H0 H He0 He NE v Fv Nv r n N. destruct (start_near _ _ _ H0 He0) as (F & Nq & UQ & K). pose proof u_val as U.
  destruct (steps_near L side e He ds Ds q0 Q0 _ H NE F Nq UQ K) as (F' & N' & K'). destruct (rot_near L _ v F' N' Fv Nv) as (Fr & Kr). fold r in Fr, Kr.
  set (q := fold_left (mulS L side) ds q0) in *. assert (P : 0 < norm (vals (lq q))) by (apply Rabs_le_inv in N'; lra).
  assert (LU : length (unit_of (vals (lq q))) = 4%nat) by (unfold unit_of; rewrite vscale_len; reflexivity).
  assert (UU : unit_quat (q4 (unit_of (vals (lq q))))) by (unfold unit_quat; rewrite lq_q4 by exact LU; now apply unit_norm').
  assert (UT : unit_quat (fold_left (hamS side) Ds Q0)).
  { clear -UQ H. revert Q0 UQ. induction H as [|d D ds Ds Hd Hds IH]; intros Q0 UQ; [exact UQ|]. cbn [fold_left]. apply IH. unfold unit_quat in *. destruct Hd as (_ & UD & _). unfold unit_quat in UD. rewrite hamS_norm, UQ, UD. ring. }
  set (R := qrot (q4 (unit_of (vals (lq q)))) (vals (l3 v))) in *.
  assert (NR : norm R = N) by (unfold R; rewrite qrot_norm by reflexivity; unfold unit_quat in UU; rewrite UU; unfold N; ring).
  split; [exact Fr|]. split.
  - rewrite <- NR at 1. eapply Rle_trans; [apply norm_rev; reflexivity|exact Kr].
  - assert (K2 : norm (vsub R (qrot (fold_left (hamS side) Ds Q0) (vals (l3 v)))) <= 2 * (102/100 * e0 + n * (102/100 * e + 59 * u)) * N).
    { eapply Rle_trans; [apply qrot_lip; trivial|]. apply Rmult_le_compat_r; [apply norm_nn|]. rewrite lq_q4 by exact LU. unfold n. apply Rmult_le_compat_l; [lra|exact K']. }
    set (T := qrot (fold_left (hamS side) Ds Q0) (vals (l3 v))) in *. assert (LT : length T = 3%nat) by reflexivity. assert (LR : length R = 3%nat) by reflexivity. set (c := vals (l3 r)) in *. assert (Lc : length c = 3%nat) by reflexivity.
    clearbody T R c. assert (K3 : norm (vsub c T) <= (76 * u * N + / IZR (2 ^ 102)) + 2 * (102/100 * e0 + n * (102/100 * e + 59 * u)) * N).
    { apply (norm_from_parts (vsub c R) (vsub R T)); try (now apply vsub_len); trivial. list3' c. list3' T. list3' R. unfold vadd, vsub. cbn. lring. }
    eapply Rle_trans; [exact K3|]. right. field. apply IZR_neq. discriminate.
Qed.
(** Vectors turned by the orientation keep their length within 76 half-ulps after any number of updates, and their distance from the
    exactly turned vector grows linearly. *)
Lemma C98_body_vectors_pf : forall (L : Libm) (e0 e : R) (q0 : quat f32) (Q0 : quat R) (ds : list (quat f32)) (Ds : list (quat R)) (v : vec3 f32),
  unit_near e0 q0 Q0 -> Forall2 (unit_near e) ds Ds -> e0 <= / 250 -> e <= / 250 -> ds <> [] -> all_finite (l3 v) -> norm (vals (l3 v)) <= IZR (2 ^ 40) ->
  let r := quat_mul_vec (F32 L) (fold_left (fun q d => normalize_q (F32 L) (quat_mul (F32 L) q d)) ds q0) v in let n := INR (length ds) in let N := norm (vals (l3 v)) in
  all_finite (l3 r) /\ Rabs (norm (vals (l3 r)) - N) <= 76 * ulp_half * N + / IZR (2 ^ 102) /\
  norm (vsub (vals (l3 r)) (qrot (turns_body Q0 Ds) (vals (l3 v)))) <= (204/100 * (e0 + n * e) + (118 * n + 76) * ulp_half) * N + / IZR (2 ^ 102).
Proof. intros L e0 e q0 Q0 ds Ds v H1 H2 H3 H4 H5 H6 H7. exact (vectors_near L true e e0 q0 Q0 ds Ds H1 H2 H3 H4 H5 v H6 H7). Qed.
(** The same for updates in the fixed frame. *)
Lemma C98_world_vectors_pf : forall (L : Libm) (e0 e : R) (q0 : quat f32) (Q0 : quat R) (ds : list (quat f32)) (Ds : list (quat R)) (v : vec3 f32),
  unit_near e0 q0 Q0 -> Forall2 (unit_near e) ds Ds -> e0 <= / 250 -> e <= / 250 -> ds <> [] -> all_finite (l3 v) -> norm (vals (l3 v)) <= IZR (2 ^ 40) ->
  let r := quat_mul_vec (F32 L) (fold_left (fun q d => normalize_q (F32 L) (quat_mul (F32 L) d q)) ds q0) v in let n := INR (length ds) in let N := norm (vals (l3 v)) in
  all_finite (l3 r) /\ Rabs (norm (vals (l3 r)) - N) <= 76 * ulp_half * N + / IZR (2 ^ 102) /\
  norm (vsub (vals (l3 r)) (qrot (turns_world Q0 Ds) (vals (l3 v)))) <= (204/100 * (e0 + n * e) + (118 * n + 76) * ulp_half) * N + / IZR (2 ^ 102).
Proof. intros L e0 e q0 Q0 ds Ds v H1 H2 H3 H4 H5 H6 H7. exact (vectors_near L false e e0 q0 Q0 ds Ds H1 H2 H3 H4 H5 v H6 H7). Qed.
(*PROPS
(** Turning by 120 degrees about (1,1,1) any number of times: the quaternion (1/2,1/2,1/2,1/2) is exact. *)
Example C98_case : forall (L : Libm) (n : nat), let h := f32_lit 5 (-1) in let d := Quat h h h h in let D := Quat (/ 2) (/ 2) (/ 2) (/ 2) in
  let r := fold_left (fun q d => normalize_q (F32 L) (quat_mul (F32 L) q d)) (repeat d (S n)) d in
  Rabs (norm (vals (lq r)) - 1) <= 9 * ulp_half /\ norm (vsub (vals (lq r)) (lq (turns_body D (repeat D (S n))))) <= (59 * INR (S n) + 9) * ulp_half.
Proof.
  intros L n h d D r. assert (H : b2r h = / 2) by (vm_compute; lra).
  assert (U : unit_near 0 d D).
  { split; [repeat constructor|]. split; [unfold unit_quat, norm, ip; cbn; replace (_ + _) with (1 * 1) by lra; apply sqrt_square; lra|].
    unfold vsub, vals, lq. cbn [map zip qx qy qz qw d D]. rewrite H, Rminus_diag_eq by reflexivity. unfold norm, ip. cbn. rewrite !Rmult_0_l, !Rplus_0_l, sqrt_0. lra. }
  destruct (C98_body_updates L 0 0 d D (repeat d (S n)) (repeat D (S n)) U) as (_ & N & K); try lra.
  - generalize (S n). intros m. induction m as [|m IH]; cbn [repeat]; [apply Forall2_nil|apply Forall2_cons; assumption].
  - discriminate.
  - split; [exact N|]. rewrite repeat_length in K. fold r in K. eapply Rle_trans; [exact K|]. lra.
Qed.
PROPS*)
