(** * Ranges of rounded operations *)
From Coq Require Import ZArith Bool Reals List Lra Lia Psatz.
From Flocq Require Import Core IEEE754.BinarySingleNaN.
From Verif Require Import Scalar IEEE32 RealInst FloatBasics FloatOps FloatAlg SpecF32 SpecErr NumLib LenLib ScaleLib MonoLib SpecDom.
Import ListNotations.
Local Open Scope R_scope.

Notation p2 := (bpow radix2).
(** finite and at most 2^a in absolute value; at least 2^a *)
Definition within (a : Z) (x : f32) : Prop := finite x /\ Rabs (b2r x) <= p2 a.
Definition above (a : Z) (x : f32) : Prop := finite x /\ p2 a <= b2r x.
Lemma big_p2 a : (a < 128)%Z -> p2 a < big. Proof. intros. apply bpow_lt. lia. Qed.
Lemma w_weak a b x : (a <= b)%Z -> within a x -> within b x.
Proof. intros H [F G]. split; [exact F|]. eapply Rle_trans; [exact G|now apply bpow_le]. Qed.
Lemma w_fin a x : within a x -> finite x. Proof. intros [F _]. exact F. Qed.
Lemma p2_double a : p2 a + p2 a = p2 (a + 1). Proof. rewrite bpow_plus. change (p2 1) with 2. ring. Qed.
Lemma w_add a b c x y : within a x -> within b y -> (a < c)%Z -> (b < c)%Z -> (-149 <= c < 128)%Z ->
  within c (Bplus mode_NE x y) /\ b2r (Bplus mode_NE x y) = rnd (b2r x + b2r y).
Proof.
  intros [F1 G1] [F2 G2] Ha Hb Hc. assert (K : Rabs (b2r x + b2r y) <= p2 c).
  { eapply Rle_trans; [apply Rabs_triang|]. replace c with (c - 1 + 1)%Z by lia. rewrite <- p2_double.
    apply Rplus_le_compat; (eapply Rle_trans; [eassumption|apply bpow_le; lia]). }
  assert (R : Rabs (rnd (b2r x + b2r y)) <= p2 c) by (apply rnd_abs_le; [apply fmt_bpow; lia|exact K]).
  destruct (plus_ok x y F1 F2) as [F E]; [pose proof (big_p2 c); lra || (eapply Rle_lt_trans; [exact R|apply big_p2; lia])|].
  split; [split; [exact F|now rewrite E]|exact E].
Qed.
Lemma w_opp a x : within a x -> within a (Bopp x).
Proof. intros [F G]. split; [now apply finite_opp|]. now rewrite Bopp_b2r, Rabs_Ropp. Qed.
Lemma w_abs a x : within a x -> within a (Babs x) /\ b2r (Babs x) = Rabs (b2r x).
Proof. intros [F G]. assert (E : b2r (Babs x) = Rabs (b2r x)) by apply B2R_Babs. split; [|exact E]. split; [unfold finite in *; now rewrite is_finite_Babs|]. now rewrite E, Rabs_Rabsolu. Qed.
Lemma w_sub a b c x y : within a x -> within b y -> (a < c)%Z -> (b < c)%Z -> (-149 <= c < 128)%Z ->
  within c (Bminus mode_NE x y) /\ b2r (Bminus mode_NE x y) = rnd (b2r x - b2r y).
Proof. intros H1 H2 Ha Hb Hc. rewrite minus_plus. destruct (w_add a b c x (Bopp y) H1 (w_opp b y H2) Ha Hb Hc) as [W E]. split; [exact W|]. rewrite E, Bopp_b2r. reflexivity. Qed.
Lemma w_mul a b c x y : within a x -> within b y -> (a + b <= c)%Z -> (-149 <= c < 128)%Z ->
  within c (Bmult mode_NE x y) /\ b2r (Bmult mode_NE x y) = rnd (b2r x * b2r y).
Proof.
  intros [F1 G1] [F2 G2] Ha Hc. assert (K : Rabs (b2r x * b2r y) <= p2 c).
  { rewrite Rabs_mult. eapply Rle_trans; [apply Rmult_le_compat; [apply Rabs_pos|apply Rabs_pos|exact G1|exact G2]|]. rewrite <- bpow_plus. apply bpow_le. lia. }
  assert (R : Rabs (rnd (b2r x * b2r y)) <= p2 c) by (apply rnd_abs_le; [apply fmt_bpow; lia|exact K]).
  destruct (mult_ok x y F1 F2) as [F E]; [eapply Rle_lt_trans; [exact R|apply big_p2; lia]|].
  split; [split; [exact F|now rewrite E]|exact E].
Qed.
(** |y| at least 2^-b *)
Lemma w_div a b c x y : within a x -> finite y -> p2 (- b) <= Rabs (b2r y) -> (a + b <= c)%Z -> (-149 <= c < 128)%Z ->
  within c (Bdiv mode_NE x y) /\ b2r (Bdiv mode_NE x y) = rnd (b2r x / b2r y).
Proof.
  intros [F1 G1] F2 G2 Ha Hc. pose proof (bpow_gt_0 radix2 (- b)) as P. assert (N : b2r y <> 0) by (intros Z; rewrite Z, Rabs_R0 in G2; lra).
  assert (K : Rabs (b2r x / b2r y) <= p2 c).
  { unfold Rdiv. rewrite Rabs_mult, Rabs_inv. apply Rle_trans with (p2 a * p2 b).
    - apply Rmult_le_compat; [apply Rabs_pos|left; apply Rinv_0_lt_compat; lra|exact G1|]. replace (p2 b) with (/ p2 (- b)) by (rewrite bpow_opp; apply Rinv_inv).
      apply Rinv_le_contravar; lra.
    - rewrite <- bpow_plus. apply bpow_le. lia. }
  assert (R : Rabs (rnd (b2r x / b2r y)) <= p2 c) by (apply rnd_abs_le; [apply fmt_bpow; lia|exact K]).
  destruct (div_ok x y F1 F2 N) as [F E]; [eapply Rle_lt_trans; [exact R|apply big_p2; lia]|].
  split; [split; [exact F|now rewrite E]|exact E].
Qed.
Lemma sqrt_p2 a : sqrt (p2 (a + a)) = p2 a.
Proof. rewrite bpow_plus. apply sqrt_square, bpow_ge_0. Qed.
Lemma w_sqrt a c x : within a x -> 0 <= b2r x -> (a <= c + c)%Z -> (-149 <= c)%Z -> within c (Bsqrt mode_NE x) /\ 0 <= b2r (Bsqrt mode_NE x) /\ b2r (Bsqrt mode_NE x) = rnd (sqrt (b2r x)).
Proof.
  intros [F G] P Ha Hc. destruct (finite_sqrt x F P) as [F' _]. assert (E : b2r (Bsqrt mode_NE x) = rnd (sqrt (b2r x))).
  { apply b2r_sqrt. }
  assert (K : 0 <= rnd (sqrt (b2r x)) <= p2 c).
  { split; [rewrite <- rnd_0; apply rnd_mono, sqrt_pos|]. apply rnd_le_fmt; [now apply fmt_bpow|]. rewrite <- sqrt_p2. apply sqrt_le_1_alt. rewrite Rabs_pos_eq in G by exact P.
    eapply Rle_trans; [exact G|now apply bpow_le]. }
  split; [|split; [rewrite E; apply K|exact E]]. split; [exact F'|]. rewrite E, Rabs_pos_eq; apply K.
Qed.
Lemma above_sqrt a c x : above a x -> (c + c <= a)%Z -> (-149 <= c)%Z -> above c (Bsqrt mode_NE x).
Proof.
  intros [F G] Ha Hc. pose proof (bpow_gt_0 radix2 a) as P. destruct (finite_sqrt x F) as [F' _]; [lra|]. split; [exact F'|].
  assert (E : b2r (Bsqrt mode_NE x) = rnd (sqrt (b2r x))) by apply b2r_sqrt. rewrite E.
  apply rnd_ge_fmt; [now apply fmt_bpow|]. rewrite <- sqrt_p2. apply sqrt_le_1_alt. eapply Rle_trans; [|exact G]. now apply bpow_le.
Qed.

Lemma within_all k l : (0 <= k)%Z -> all_finite l -> bounded_by (IZR (2 ^ k)) l -> Forall (within k) l.
Proof. intros H F B. replace (IZR (2 ^ k)) with (p2 k) in B by (symmetry; apply (IZR_Zpower radix2 k H)). revert B. induction F as [|x l Hx F IH]; intros B; [apply Forall_nil|]. inversion B; subst. apply Forall_cons; [now split|]. now apply IH. Qed.
Lemma bltb_b2r (x y : f32) : finite x -> finite y -> Bltb x y = Rlt_bool (b2r x) (b2r y).
Proof. intros F G. rewrite Bltb_xr by (now apply finite_nn). now rewrite !xr_finite. Qed.
Lemma bleb_b2r (x y : f32) : finite x -> finite y -> Bleb x y = Rle_bool (b2r x) (b2r y).
Proof. intros F G. rewrite Bleb_xr by (now apply finite_nn). now rewrite !xr_finite. Qed.
(** rounding preserves the sign *)
Lemma rnd_neg_inv r : rnd r < 0 -> r < 0.
Proof. intros H. destruct (Rlt_or_le r 0) as [K|K]; [exact K|]. apply rnd_pos in K. lra. Qed.
Lemma rnd_pos_inv r : 0 < rnd r -> 0 < r.
Proof. intros H. destruct (Rlt_or_le 0 r) as [K|K]; [exact K|]. assert (rnd r <= rnd 0) by now apply rnd_mono. rewrite rnd_0 in *. lra. Qed.

(** ** A calculus of bounds *)
Definition okexp (c : Z) : bool := ((-149 <=? c) && (c <? 128))%Z.
Lemma okexp_ok c : okexp c = true -> (-149 <= c < 128)%Z.
Proof. unfold okexp. intros H. apply andb_prop in H as [A B]. apply Z.leb_le in A. apply Z.ltb_lt in B. lia. Qed.
Lemma k_add a b x y : within a x -> within b y -> okexp (Z.max a b + 1) = true -> within (Z.max a b + 1) (Bplus mode_NE x y).
Proof. intros A B H. apply (w_add a b); trivial; try lia. now apply okexp_ok. Qed.
Lemma k_sub a b x y : within a x -> within b y -> okexp (Z.max a b + 1) = true -> within (Z.max a b + 1) (Bminus mode_NE x y).
Proof. intros A B H. apply (w_sub a b); trivial; try lia. now apply okexp_ok. Qed.
Lemma k_mul a b x y : within a x -> within b y -> okexp (a + b) = true -> within (a + b) (Bmult mode_NE x y).
Proof. intros A B H. apply (w_mul a b); trivial; try lia. now apply okexp_ok. Qed.
Lemma w_1 : within 0 (f32_lit 1 0). Proof. split; [reflexivity|]. rewrite b2r_lit1, Rabs_R1. cbn. lra. Qed.
Lemma w_2 : within 1 (f32_lit 2 0). Proof. split; [reflexivity|]. rewrite b2r_lit2, Rabs_pos_eq; cbn; lra. Qed.
Lemma w_0 : within 0 (f32_lit 0 0). Proof. split; [reflexivity|]. cbn. rewrite Rabs_R0. lra. Qed.
Lemma w_half : within (-1) (f32_lit 5 (-1)). Proof. split; [reflexivity|]. rewrite b2r_lit_half, Rabs_pos_eq; cbn; lra. Qed.
Lemma k_abs a x : within a x -> within a (Babs x). Proof. intros H. now apply w_abs. Qed.
Ltac wk := lazymatch goal with
  | H : within _ ?x |- within _ ?x => exact H
  | |- within _ (Bplus mode_NE _ _) => eapply k_add; [wk|wk|reflexivity]
  | |- within _ (Bminus mode_NE _ _) => eapply k_sub; [wk|wk|reflexivity]
  | |- within _ (Bmult mode_NE _ _) => eapply k_mul; [wk|wk|reflexivity]
  | |- within _ (Bopp _) => eapply w_opp; wk
  | |- within _ (Babs _) => eapply k_abs; wk
  | |- within _ (f32_lit 1 0) => exact w_1
  | |- within _ (f32_lit 2 0) => exact w_2
  | |- within _ (f32_lit 0 0) => exact w_0
  | |- within _ (f32_lit 5 (-1)) => exact w_half
  end.
(** the last number below 1 *)
Lemma below_one (x : f32) : b2r x < 1 -> b2r x <= 1 - p2 (-24).
Proof.
  intros H. assert (P : pred radix2 (SpecFloat.fexp 24 128) 1 = 1 - p2 (-24)).
  { change 1 with (p2 0). rewrite pred_bpow. reflexivity. }
  rewrite <- P. apply pred_ge_gt; [typeclasses eauto|apply fmt_b2r|apply fmt_1|exact H].
Qed.
Lemma between_within a b (x : f32) k : between a b x -> - p2 k <= a -> b <= p2 k -> within k x.
Proof. intros [F [A B]] H K. split; [exact F|]. apply Rabs_le. lra. Qed.
