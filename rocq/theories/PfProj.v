(** * Proofs: projection matrices in binary32 *)
From Coq Require Import ZArith Bool Reals List Lra Lia.
From Flocq Require Import Core IEEE754.BinarySingleNaN.
From Verif Require Import Scalar IEEE32 RealInst Types Outcome Spec SpecR SpecF32 SpecErr SpecProj FloatBasics FloatOps
  ModelVec ModelMat ModelTrig ModelTransform.
Import ListNotations.
Local Open Scope R_scope.
From Flocq Require Import Mult_error.
From Verif Require Import ErrLib LenLib OvfLib RelLib PfFloat NumLib.
(*HEADER END*)

Lemma lit_rel k m : 0 <= k -> (Z.abs m <=? 2 ^ 24)%Z = true -> rel_close k (f32_lit m 0) (IZR m).
Proof.
  intros Hk H. apply (rel_weaken 0); [exact Hk|]. rewrite <- (lit_exact m H). apply rel_exact. now apply lit_finite.
Qed.
Lemma ofZ_rel k m : 0 <= k -> (Z.abs m <=? 2 ^ 24)%Z = true -> rel_close k (f32_ofZ m) (IZR m).
Proof. intros. rewrite ofZ_lit. now apply lit_rel. Qed.
Lemma Bopp_lit1 k : 0 <= k -> rel_close k (Bopp (f32_lit 1 0)) (-1).
Proof. intros H. apply rel_opp. now apply lit_rel. Qed.

(** the quotients that occur *)
Section QUOT.
  Variables x y : f32.
  Hypothesis F : all_finite [x; y].
  Hypothesis B : bounded_by (IZR (2 ^ 120)) [x; y].
  Hypothesis N : b2r x <> b2r y.
  Lemma q_sub : rel_close 1 (Bminus mode_NE y x) (b2r y - b2r x).
  Proof.
    apply Forall_cons_iff in F as [Fx F']. apply Forall_cons_iff in F' as [Fy _]. apply Forall_cons_iff in B as [Bx B']. apply Forall_cons_iff in B' as [By _].
    now apply rel_minus.
  Qed.
  Lemma q_add : rel_close 1 (Bplus mode_NE y x) (b2r y + b2r x).
  Proof.
    apply Forall_cons_iff in F as [Fx F']. apply Forall_cons_iff in F' as [Fy _]. apply Forall_cons_iff in B as [Bx B']. apply Forall_cons_iff in B' as [By _].
    now apply rel_plus.
  Qed.
  Lemma q_div i (c : f32) X : 0 <= i <= 60 -> rel_close i c X -> in_range (X / (b2r y - b2r x)) -> rel_close (i + 2 + / 50) (Bdiv mode_NE c (Bminus mode_NE y x)) (X / (b2r y - b2r x)).
  Proof.
    intros Hi Hc R. replace (i + 2 + / 50) with (i + 1 + 1 + / 50) by ring. apply rel_div; trivial; [lra|apply q_sub|lra].
  Qed.
  Lemma q_lit i m : 0 <= i -> (Z.abs m <=? 2 ^ 24)%Z = true -> in_range (IZR m / (b2r y - b2r x)) ->
    rel_close (i + 202 / 100) (Bdiv mode_NE (f32_lit m 0) (Bminus mode_NE y x)) (IZR m / (b2r y - b2r x)).
  Proof. intros Hi Hm R. eapply rel_weaken; [|apply (q_div 0); trivial; [lra|apply lit_rel; [lra|exact Hm]]]. lra. Qed.
  Lemma q_sum : in_range (- (b2r y + b2r x) / (b2r y - b2r x)) ->
    rel_close (31 / 10) (Bdiv mode_NE (Bopp (Bplus mode_NE y x)) (Bminus mode_NE y x)) (- (b2r y + b2r x) / (b2r y - b2r x)).
  Proof. intros R. eapply rel_weaken; [|apply (q_div 1); trivial; [lra|apply rel_opp, q_add]]. lra. Qed.
End QUOT.
Ltac zero0 := first [apply rel_zero; reflexivity].
Ltac fcons := repeat match goal with |- Forall2 _ _ _ => apply Forall2_cons || apply Forall2_nil end.
Ltac frange H := repeat match type of H with Forall _ (_ :: _) => let A := fresh "R" in apply Forall_cons_iff in H as [A H] end.
Lemma pick2 {P : f32 -> Prop} a b c d : Forall P [a; b; c; d] -> Forall P [a; b] /\ Forall P [c; d].
Proof. intros H. frange H. split; repeat apply Forall_cons; trivial; apply Forall_nil. Qed.

Lemma ortho_shape (c0 c5 c10 c12 c13 c14 c15 z : f32) l r b t za zb : b2r z = 0 -> finite z ->
  all_finite [l; r; b; t] -> bounded_by (IZR (2 ^ 120)) [l; r; b; t] -> b2r l <> b2r r -> b2r b <> b2r t ->
  let exact := ortho_entries (b2r l) (b2r r) (b2r b) (b2r t) za zb in
  Forall in_range exact ->
  (c0 = Bdiv mode_NE (f32_lit 2 0) (Bminus mode_NE r l)) -> (c5 = Bdiv mode_NE (f32_lit 2 0) (Bminus mode_NE t b)) ->
  (c12 = Bdiv mode_NE (Bopp (Bplus mode_NE r l)) (Bminus mode_NE r l)) -> (c13 = Bdiv mode_NE (Bopp (Bplus mode_NE t b)) (Bminus mode_NE t b)) ->
  rel_close (31 / 10) c10 za -> rel_close (31 / 10) c14 zb -> rel_close (31 / 10) c15 1 ->
  Forall2 (rel_close (31 / 10)) [c0; z; z; z; z; c5; z; z; z; z; c10; z; c12; c13; c14; c15] exact.
Proof.
  intros Zz Fz F B N1 N2 exact R -> -> -> -> Ha Hb H1. apply pick2 in F as [F1 F2]. apply pick2 in B as [B1 B2]. unfold exact, ortho_entries in *.
  assert (Z : rel_close (31 / 10) z 0) by now apply rel_zero.
  frange R. fcons; trivial.
  - eapply rel_weaken; [|apply (q_lit l r F1 B1 N1 0 2)]; trivial; lra.
  - eapply rel_weaken; [|apply (q_lit b t F2 B2 N2 0 2)]; trivial; lra.
  - now apply q_sum.
  - now apply q_sum.
Qed.
Lemma one_rel : rel_close (31 / 10) (f32_lit 1 0) 1. Proof. apply (lit_rel _ 1); [lra|reflexivity]. Qed.
Lemma zero_rel : rel_close (31 / 10) (f32_lit 0 0) 0. Proof. apply (lit_rel _ 0); [lra|reflexivity]. Qed.
(** The five orthographic matrices: every entry is within 3.1 half-ulps of the exact one, relatively. *)
Lemma C74_ortho_pf : forall (L : Libm) (l r b t n f : f32),
  ortho_accurate (31 / 10) (lm4 (ortho (F32 L) l r b t)) (-1) 0 l r b t /\
  (all_finite [n; f] -> bounded_by (IZR (2 ^ 120)) [n; f] -> b2r n <> b2r f ->
   let d := b2r f - b2r n in
   ortho_accurate (31 / 10) (lm4 (orthoLH_ZO (F32 L) l r b t n f)) (1 / d) (- b2r n / d) l r b t /\
   ortho_accurate (31 / 10) (lm4 (orthoRH_ZO (F32 L) l r b t n f)) (-1 / d) (- b2r n / d) l r b t /\
   ortho_accurate (31 / 10) (lm4 (orthoLH_NO (F32 L) l r b t n f)) (2 / d) (- (b2r f + b2r n) / d) l r b t /\
   ortho_accurate (31 / 10) (lm4 (orthoRH_NO (F32 L) l r b t n f)) (-2 / d) (- (b2r f + b2r n) / d) l r b t).
Proof.
  intros L l r b t n f. split.
  - unfold ortho_accurate. cbv zeta. intros B F N1 N2 R. apply (ortho_shape _ _ _ _ _ _ _ (f32_lit 0 0)); try reflexivity; trivial; [apply Bopp_lit1; lra|apply zero_rel|apply one_rel].
  - intros Fz Bz Nz d.
    assert (Zn : in_range (- b2r n / d) -> rel_close (31 / 10) (Bdiv mode_NE (Bopp n) (Bminus mode_NE f n)) (- b2r n / d)).
    { intros R. eapply rel_weaken; [|apply (q_div n f Fz Bz Nz 0)]; [lra|lra| |exact R]. apply rel_opp, rel_exact. now apply Forall_cons_iff in Fz as [Q _]. }
    split; [|split; [|split]]; unfold ortho_accurate; cbv zeta; intros B F N1 N2 R; pose proof R as R'; unfold ortho_entries in R'; frange R'.
    + apply (ortho_shape _ _ _ _ _ _ _ (f32_lit 0 0)); try reflexivity; trivial; [|now apply Zn|apply one_rel].
      eapply rel_weaken; [|apply (q_lit n f Fz Bz Nz 0 1)]; trivial; lra.
    + apply (ortho_shape _ _ _ _ _ _ _ (f32_lit 0 0)); try reflexivity; trivial; [|now apply Zn|apply one_rel].
      eapply rel_weaken; [|apply (q_div n f Fz Bz Nz 0)]; trivial; [lra|lra|apply Bopp_lit1; lra].
    + apply (ortho_shape _ _ _ _ _ _ _ (f32_lit 0 0)); try reflexivity; trivial; [|now apply q_sum|apply one_rel].
      eapply rel_weaken; [|apply (q_lit n f Fz Bz Nz 0 2)]; trivial; lra.
    + apply (ortho_shape _ _ _ _ _ _ _ (f32_lit 0 0)); try reflexivity; trivial; [|now apply q_sum|apply one_rel].
      eapply rel_weaken; [|apply (q_div n f Fz Bz Nz 0)]; trivial; [lra|lra|]. apply (ofZ_rel 0 (-2)); [lra|reflexivity].
Qed.

(** halving is exact *)
Lemma half_exact (x : f32) : finite x -> in_range (b2r x) -> finite (Bmult mode_NE x (f32_lit 5 (-1))) /\ b2r (Bmult mode_NE x (f32_lit 5 (-1))) = b2r x / 2.
Proof.
  intros F R. assert (B : Rabs (rnd (b2r x * b2r (f32_lit 5 (-1)))) < big).
  { rewrite b2r_lit_half. apply (rnd_in_range _ (b2r x) (- / 2) R); [field|]. rewrite Rabs_Ropp, Rabs_pos_eq; lra. }
  destruct (mult_ok x (f32_lit 5 (-1)) F fin_lit_half B) as [G E]. split; [exact G|]. rewrite E, b2r_lit_half. change (b2r x / 2) with (b2r x * / 2).
  apply rnd_id. destruct R as [->|R]; [rewrite Rmult_0_l; apply fmt_0|].
  change (/ 2) with (bpow radix2 (-1)). apply mult_bpow_exact_FLT with (emin := (-149)%Z) (prec := 24%Z); [apply fmt_b2r|].
  assert (M : (-120 + 1 <= mag radix2 (b2r x))%Z).
  { apply mag_ge_bpow. replace (-120 + 1 - 1)%Z with (-120)%Z by lia. exact (proj1 R). }
  lia.
Qed.
Lemma moderate_mul x y : moderate x -> moderate y -> in_range (x * y).
Proof.
  intros [X1 X2] [Y1 Y2]. right. rewrite Rabs_mult. split.
  - apply Rle_trans with (/ IZR (2 ^ 50) * / IZR (2 ^ 50)).
    + rewrite <- Rinv_mult, <- mult_IZR. apply Rinv_le_contravar; [now apply IZR_lt|now apply IZR_le].
    + apply Rmult_le_compat; trivial; left; apply Rinv_0_lt_compat; now apply IZR_lt.
  - apply Rle_trans with (IZR (2 ^ 50) * IZR (2 ^ 50)); [apply Rmult_le_compat; trivial; apply Rabs_pos|]. rewrite <- mult_IZR. now apply IZR_le.
Qed.
Lemma moderate_2 x : moderate x -> in_range (2 * x).
Proof.
  intros M. apply moderate_mul; [|exact M]. split; rewrite Rabs_pos_eq by lra; [|now apply (IZR_le 2)].
  apply Rle_trans with (/ 1); [|lra]. apply Rinv_le_contravar; [lra|now apply (IZR_le 1)].
Qed.
Lemma moderate_nz x : moderate x -> x <> 0.
Proof. intros [H _] ->. rewrite Rabs_R0 in H. assert (0 < / IZR (2 ^ 50)) by (apply Rinv_0_lt_compat; now apply IZR_lt). lra. Qed.
Lemma moderate_le (x : f32) : moderate (b2r x) -> Rabs (b2r x) <= IZR (2 ^ 120).
Proof. intros [_ H]. eapply Rle_trans; [exact H|]. now apply IZR_le. Qed.
Lemma moderate_2_bound x : moderate x -> Rabs (2 * x) <= IZR (2 ^ 120).
Proof. intros M. destruct (moderate_2 x M) as [->|[_ H]]; [rewrite Rabs_R0; now apply (IZR_le 0)|exact H]. Qed.

Lemma persp_shape (tan32 : f32 -> f32) (fovy aspect n f c10 c11 c14 z : f32) k za zb s : b2r z = 0 -> finite z ->
  let T := tan (b2r fovy / 2) in let exact := persp_entries (b2r aspect) T za zb s in let h := tan32 (Bmult mode_NE fovy (f32_lit 5 (-1))) in
  all_finite [fovy; aspect; n; f] -> in_range (b2r fovy) -> Forall moderate [b2r aspect; T; b2r n; b2r f] ->
  0 <= k <= 50 -> (forall h, finite h -> b2r h = b2r fovy / 2 -> rel_close k (tan32 h) T) ->
  Forall in_range exact -> rel_close (k + 41 / 10) c10 za -> rel_close (k + 41 / 10) c11 s -> rel_close (k + 41 / 10) c14 zb ->
  Forall2 (rel_close (k + 41 / 10)) [Bdiv mode_NE (f32_lit 1 0) (Bmult mode_NE aspect h); z; z; z; z; Bdiv mode_NE (f32_lit 1 0) h; z; z; z; z; c10; c11; z; z; c14; z] exact.
Proof.
  intros Zz Fz T exact h F RF M Hk HT R Ha Hs Hb. unfold exact, persp_entries, all_finite in *. frange R. frange F. frange M.
  assert (Z : rel_close (k + 41 / 10) z 0) by now apply rel_zero.
  assert (H : rel_close k h T). { destruct (half_exact fovy) as [G E]; trivial. now apply HT. }
  assert (NT : T <> 0) by now apply moderate_nz. assert (NA : b2r aspect <> 0) by now apply moderate_nz.
  fcons; trivial.
  - eapply rel_weaken; [|apply (rel_div 0 (k + (1 + / 100)) _ _ 1 (b2r aspect * T))]; trivial; try lra; [apply (lit_rel 0 1); [lra|reflexivity]| |].
    + replace (k + (1 + / 100)) with (0 + k + 1 + / 100) by ring. apply rel_mul; trivial; [lra|lra|now apply rel_exact|now apply moderate_mul].
    + now apply Rmult_integral_contrapositive.
  - eapply rel_weaken; [|apply (rel_div 0 k _ _ 1 T)]; trivial; try lra. apply (lit_rel 0 1); [lra|reflexivity].
Qed.
Section DEPTH.
  Variables n f : f32.
  Hypothesis Fn : finite n. Hypothesis Ff : finite f.
  Hypothesis Mn : moderate (b2r n). Hypothesis Mf : moderate (b2r f).
  Hypothesis N : b2r n <> b2r f.
  Variable k : R. Hypothesis Hk : 0 <= k.
  Lemma d_fin : all_finite [n; f]. Proof. apply Forall_cons; [exact Fn|]. apply Forall_cons; [exact Ff|apply Forall_nil]. Qed.
  Lemma d_bnd : bounded_by (IZR (2 ^ 120)) [n; f]. Proof. apply Forall_cons; [now apply moderate_le|]. apply Forall_cons; [now apply moderate_le|apply Forall_nil]. Qed.
  Lemma d_prod : in_range (- (b2r f * b2r n) / (b2r f - b2r n)) ->
    rel_close (k + 41 / 10) (Bdiv mode_NE (Bopp (Bmult mode_NE f n)) (Bminus mode_NE f n)) (- (b2r f * b2r n) / (b2r f - b2r n)).
  Proof.
    intros R. eapply rel_weaken; [|apply (q_div n f d_fin d_bnd N (1 + / 100)); [lra| |exact R]]; [lra|]. apply rel_opp.
    replace (1 + / 100) with (0 + 0 + 1 + / 100) by ring. apply rel_mul; [lra|lra|now apply rel_exact|now apply rel_exact|now apply moderate_mul].
  Qed.
  Lemma d_prod2 : in_range (- (2 * b2r f * b2r n) / (b2r f - b2r n)) ->
    rel_close (k + 41 / 10) (Bdiv mode_NE (Bopp (Bmult mode_NE (Bmult mode_NE (f32_lit 2 0) f) n)) (Bminus mode_NE f n)) (- (2 * b2r f * b2r n) / (b2r f - b2r n)).
  Proof.
    intros R. eapply rel_weaken; [|apply (q_div n f d_fin d_bnd N (2 + / 50)); [lra| |exact R]]; [lra|]. apply rel_opp.
    replace (2 + / 50) with ((0 + 0 + 1 + / 100) + 0 + 1 + / 100) by lra. apply rel_mul; [lra|lra| |now apply rel_exact|].
    - apply rel_mul; [lra|lra|apply (lit_rel 0 2); [lra|reflexivity]|now apply rel_exact|now apply moderate_2].
    - destruct (moderate_mul _ _ Mf Mn) as [Z|[Z1 Z2]]; [apply Rmult_integral in Z as [Z|Z]; now apply moderate_nz in Z|].
      right. rewrite Rmult_assoc, Rabs_mult, (Rabs_pos_eq 2) by lra. split; [lra|].
      destruct Mf as [_ A]. destruct Mn as [_ B]. rewrite Rabs_mult. apply Rle_trans with (2 * (IZR (2 ^ 50) * IZR (2 ^ 50))).
      + apply Rmult_le_compat_l; [lra|]. apply Rmult_le_compat; trivial; apply Rabs_pos.
      + rewrite <- !mult_IZR. now apply IZR_le.
  Qed.
  Lemma d_sum : in_range (- (b2r f + b2r n) / (b2r f - b2r n)) ->
    rel_close (k + 41 / 10) (Bdiv mode_NE (Bopp (Bplus mode_NE f n)) (Bminus mode_NE f n)) (- (b2r f + b2r n) / (b2r f - b2r n)).
  Proof. intros R. eapply rel_weaken; [|apply (q_sum n f d_fin d_bnd N R)]. lra. Qed.
  Lemma d_sum' : in_range ((b2r f + b2r n) / (b2r f - b2r n)) ->
    rel_close (k + 41 / 10) (Bdiv mode_NE (Bplus mode_NE f n) (Bminus mode_NE f n)) ((b2r f + b2r n) / (b2r f - b2r n)).
  Proof. intros R. eapply rel_weaken; [|apply (q_div n f d_fin d_bnd N 1); [lra|apply (q_add n f d_fin d_bnd)|exact R]]. lra. Qed.
  Lemma d_far : in_range (b2r f / (b2r f - b2r n)) -> rel_close (k + 41 / 10) (Bdiv mode_NE f (Bminus mode_NE f n)) (b2r f / (b2r f - b2r n)).
  Proof. intros R. eapply rel_weaken; [|apply (q_div n f d_fin d_bnd N 0); [lra|now apply rel_exact|exact R]]. lra. Qed.
  Lemma d_far' : in_range (b2r f / (b2r n - b2r f)) -> rel_close (k + 41 / 10) (Bdiv mode_NE f (Bminus mode_NE n f)) (b2r f / (b2r n - b2r f)).
  Proof.
    intros R. eapply rel_weaken; [|apply (q_div f n); [| |intro Z; now apply N|instantiate (1 := 0); lra|now apply rel_exact|exact R]]; [lra| |].
    - apply Forall_cons; [exact Ff|]. apply Forall_cons; [exact Fn|apply Forall_nil].
    - apply Forall_cons; [now apply moderate_le|]. apply Forall_cons; [now apply moderate_le|apply Forall_nil].
  Qed.
End DEPTH.
(** The four perspective matrices, against a tangent that is accurate to k half-ulps: every entry is within k + 4.1
    half-ulps of the exact one, relatively. *)
Lemma C74_perspective_pf : forall (L : Libm) (b : build),
  perspective_accurate (l_tan L) (fun fovy a n f c => exists m, perspectiveRH_ZO (F32 L) b fovy a n f = Ret m /\ c = lm4 m)
    (fun n f => f / (n - f)) (fun n f => - (f * n) / (f - n)) (-1) /\
  perspective_accurate (l_tan L) (fun fovy a n f c => exists m, perspectiveRH_NO (F32 L) b fovy a n f = Ret m /\ c = lm4 m)
    (fun n f => - (f + n) / (f - n)) (fun n f => - (2 * f * n) / (f - n)) (-1) /\
  perspective_accurate (l_tan L) (fun fovy a n f c => exists m, perspectiveLH_ZO (F32 L) b fovy a n f = Ret m /\ c = lm4 m)
    (fun n f => f / (f - n)) (fun n f => - (f * n) / (f - n)) 1 /\
  perspective_accurate (l_tan L) (fun fovy a n f c => exists m, perspectiveLH_NO (F32 L) b fovy a n f = Ret m /\ c = lm4 m)
    (fun n f => (f + n) / (f - n)) (fun n f => - (2 * f * n) / (f - n)) 1.
Proof.
  intros L b.
  split; [|split; [|split]]; unfold perspective_accurate; cbv zeta; intros fovy aspect n f k comps F RF M N Hk HT [m [E ->]] R;
    pose proof R as R'; unfold persp_entries in R'; frange R'; pose proof M as M'; frange M'; pose proof F as F'; unfold all_finite in F'; frange F';
    unfold perspectiveRH_ZO, perspectiveRH_NO, perspectiveLH_ZO, perspectiveLH_NO, bind in E;
    match type of E with (match ?c with _ => _ end = _) => destruct c; try discriminate end; injection E as <-;
    eapply (persp_shape (l_tan L) fovy aspect n f _ _ _ (f32_lit 0 0)); try reflexivity; trivial.
  - now apply d_far'.
  - apply Bopp_lit1; lra.
  - apply d_prod; trivial; lra.
  - apply d_sum; trivial; lra.
  - apply Bopp_lit1; lra.
  - apply d_prod2; trivial; lra.
  - apply d_far; trivial; lra.
  - apply (lit_rel _ 1); [lra|reflexivity].
  - apply d_prod; trivial; lra.
  - apply d_sum'; trivial; lra.
  - apply (lit_rel _ 1); [lra|reflexivity].
  - apply d_prod2; trivial; lra.
Qed.

(** *** concrete cases *)
(** a correctly rounded value is within one half-ulp *)
Lemma round_exists x : in_range x -> exists c : f32, rel_close 1 c x.
Proof.
  intros R. destruct (rnd_in_range x x 0 R) as [B [e [He E]]]; [ring|rewrite Rabs_R0; lra|].
  assert (G : generic_format radix2 (SpecFloat.fexp 24 128) (rnd x)) by (apply generic_format_round; typeclasses eauto).
  set (m := Ztrunc (scaled_mantissa radix2 (SpecFloat.fexp 24 128) (rnd x))). set (q := cexp radix2 (SpecFloat.fexp 24 128) (rnd x)).
  assert (V : F2R (Float radix2 m q) = rnd x) by (symmetry; exact G).
  exists (binary_normalize 24 128 eq_refl eq_refl mode_NE m q false).
  pose proof (binary_normalize_correct 24 128 eq_refl eq_refl mode_NE m q false) as H. cbv zeta in H. rewrite V in H.
  rewrite round_generic in H; [|typeclasses eauto|exact G]. rewrite Rlt_bool_true in H by exact B. destruct H as [H1 [H2 _]].
  split; [exact H2|]. change (Rabs (B2R (binary_normalize 24 128 eq_refl eq_refl mode_NE m q false) - x) <= 1 * ulp_half * Rabs x).
  rewrite H1, E. replace (x * (1 + e) - x) with (e * x) by ring. rewrite Rabs_mult, Rmult_1_l. apply Rmult_le_compat_r; [apply Rabs_pos|exact He].
Qed.
Lemma tan1_bounds : 1 <= tan 1 <= 2.
Proof.
  pose proof PI_bounds as P. split.
  - apply Rle_trans with (tan (PI / 4)); [rewrite tan_PI4; lra|]. left. apply tan_increasing; lra.
  - apply Rle_trans with (sqrt 3).
    + rewrite <- tan_PI3. left. apply tan_increasing; lra.
    + apply Rsqr_incr_0_var; [|lra]. rewrite Rsqr_sqrt by lra. unfold Rsqr. lra.
Qed.
Lemma mid_range x : 1 / 16 <= Rabs x <= 16 -> in_range x.
Proof.
  intros [A B]. right. split.
  - apply Rle_trans with (/ 16); [|lra]. apply Rinv_le_contravar; [lra|now apply (IZR_le 16)].
  - apply Rle_trans with 16; [lra|now apply (IZR_le 16)].
Qed.
Lemma mid_moderate x : 1 / 16 <= Rabs x <= 16 -> moderate x.
Proof.
  intros [A B]. split.
  - apply Rle_trans with (/ 16); [|lra]. apply Rinv_le_contravar; [lra|now apply (IZR_le 16)].
  - apply Rle_trans with 16; [lra|now apply (IZR_le 16)].
Qed.
Ltac absl := unfold Rabs; destruct Rcase_abs; lra.
(*PROPS
(** the box [-2,2] x [-1,1] meets the hypotheses of the orthographic theorem *)
Example C74_ortho_case : let l := f32_ofZ (-2) in let r := f32_ofZ 2 in let b := f32_ofZ (-1) in let t := f32_ofZ 1 in
  bounded_by (IZR (2 ^ 120)) [l; r; b; t] /\ all_finite [l; r; b; t] /\ b2r l <> b2r r /\ b2r b <> b2r t /\
  Forall in_range (ortho_entries (b2r l) (b2r r) (b2r b) (b2r t) (-1) 0).
Proof.
  cbv zeta. rewrite (ofZ_exact (-2) eq_refl), (ofZ_exact 2 eq_refl), (ofZ_exact (-1) eq_refl), (ofZ_exact 1 eq_refl).
  assert (B : 16 <= IZR (2 ^ 120)) by now apply (IZR_le 16).
  split; [|split; [|split; [lra|split; [lra|]]]].
  - repeat apply Forall_cons; [..|apply Forall_nil]; rewrite ofZ_exact by reflexivity; apply Rle_trans with 16; trivial; absl.
  - repeat apply Forall_cons; [..|apply Forall_nil]; vm_compute; reflexivity.
  - unfold ortho_entries. repeat apply Forall_cons; try apply Forall_nil; try (left; lra); apply mid_range; absl.
Qed.
(** field of view 2, aspect 2, depth range 1 to 3, with a correctly rounded tangent, meets those of the perspective one *)
Example C74_perspective_case : exists L : Libm, let fovy := f32_ofZ 2 in let aspect := f32_ofZ 2 in let n := f32_ofZ 1 in let f := f32_ofZ 3 in
  let T := tan (b2r fovy / 2) in all_finite [fovy; aspect; n; f] /\ in_range (b2r fovy) /\
  Forall moderate [b2r aspect; T; b2r n; b2r f] /\ b2r n <> b2r f /\
  (forall h, finite h -> b2r h = b2r fovy / 2 -> rel_close 1 (l_tan L h) T) /\
  (exists m, perspectiveRH_ZO (F32 L) Debug fovy aspect n f = Ret m) /\
  Forall in_range (persp_entries (b2r aspect) T (b2r f / (b2r n - b2r f)) (- (b2r f * b2r n) / (b2r f - b2r n)) (-1)).
Proof.
  pose proof tan1_bounds as T1. destruct (round_exists (tan 1)) as [c Hc]; [apply mid_range; absl|].
  exists (mkLibm (l_cos L0) (l_sin L0) (fun _ => c) (l_acos L0) (l_asin L0) (l_atan L0) (l_atan2 L0) (l_cosh L0) (l_sinh L0) (l_tanh L0)
    (l_acosh L0) (l_asinh L0) (l_atanh L0) (l_pow L0) (l_exp L0) (l_log L0) (l_log2 L0) (l_cbrt L0)).
  cbv zeta. rewrite (ofZ_exact 1 eq_refl), (ofZ_exact 2 eq_refl), (ofZ_exact 3 eq_refl). replace (2 / 2) with 1 by field.
  split; [|split; [|split; [|split; [lra|split; [|split]]]]].
  - repeat apply Forall_cons; [..|apply Forall_nil]; vm_compute; reflexivity.
  - apply mid_range; absl.
  - repeat apply Forall_cons; [..|apply Forall_nil]; apply mid_moderate; absl.
  - intros h _ _. exact Hc.
  - match goal with |- exists m, perspectiveRH_ZO ?S _ ?x ?y ?u ?v = _ => let p := eval unfold perspectiveRH_ZO in (perspectiveRH_ZO S Debug x y u v) in change (exists m, p = Ret m) end.
    match goal with |- context [cassert ?b ?t] => assert (G : cassert b t = Ret tt) by (vm_compute; reflexivity); rewrite G end. eexists. reflexivity.
  - assert (D : 1 / 2 <= 1 / tan 1 <= 1).
    { assert (E : 1 / tan 1 * tan 1 = 1) by (field; lra). split; apply Rmult_le_reg_r with (tan 1); lra. }
    unfold persp_entries. repeat apply Forall_cons; try apply Forall_nil; try (left; lra); apply mid_range; try absl.
    replace (1 / (2 * tan 1)) with (1 / tan 1 / 2) by (field; lra). absl.
Qed.
PROPS*)
