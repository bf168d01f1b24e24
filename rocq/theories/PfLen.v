(** * Proofs: accuracy of length, distance and normalize in binary32 *)
From Coq Require Import ZArith Bool Reals List Lra Lia.
From Flocq Require Import Core IEEE754.BinarySingleNaN.
From Verif Require Import Scalar IEEE32 RealInst Types Outcome Spec SpecR SpecMat SpecGeo SpecF32 SpecErr FloatBasics FloatOps
  ModelVec ModelCommon ModelExp ModelGeom ModelQuat ErrLib.
Import ListNotations.
Local Open Scope R_scope.
(*HEADER END*)
From Verif Require Import ErrExpr ErrLib OvfLib PfErr PfOvf RealTac LenLib PfExp.

Lemma sq_pos (x : f32) : finite (Bmult mode_NE x x) -> 0 <= b2r (Bmult mode_NE x x).
Proof. intros F. apply mult_inv in F as [_ [_ E]]. rewrite E, <- rnd_0. apply rnd_mono. nra. Qed.
Lemma add_pos (x y : f32) : finite (Bplus mode_NE x y) -> (finite x -> 0 <= b2r x) -> (finite y -> 0 <= b2r y) -> 0 <= b2r (Bplus mode_NE x y).
Proof. intros F X Y. apply plus_inv in F as [Fx [Fy E]]. rewrite E, <- rnd_0. apply rnd_mono. specialize (X Fx). specialize (Y Fy). lra. Qed.

(** what is needed of a sum of squares: finite, nonnegative, accurate *)
Definition sq_ok {V} (n : nat) (comps : V -> list f32) (sq : V -> f32) : Prop :=
  forall v, all_finite (comps v) -> let N := norm (vals (comps v)) in N <= IZR (2 ^ 62) ->
    finite (sq v) /\ 0 <= b2r (sq v) /\ Rabs (b2r (sq v) - N * N) <= gam n * (N * N) + INR n * tiny.
Lemma comp_le_norm (x : R) l : In x l -> Rabs x <= norm l.
Proof.
  intros H. unfold norm. rewrite <- (sqrt_square (Rabs x)) by apply Rabs_pos. apply sqrt_le_1_alt.
  rewrite <- Rabs_mult, Rabs_pos_eq by nra. unfold ip. induction l as [|a l IH]; [contradiction|]. cbn.
  assert (0 <= fold_right Rplus 0 (zip Rmult l l)) by apply (ip_pos l).
  destruct H as [->|H]; [nra|]. specialize (IH H). nra.
Qed.
Lemma norm_bounded B l : norm (vals l) <= B -> bounded_by B l.
Proof.
  intros H. apply Forall_forall. intros x Hx. eapply Rle_trans; [|exact H]. apply comp_le_norm. unfold vals. now apply (in_map (fun x => b2r x)).
Qed.
Lemma sq_from {V} n comps (sq : V -> f32) : (n <= 4)%nat -> square_error_ok n comps sq ->
  (forall v, no_overflow (INR n) 2 (comps v) [sq v]) -> (forall v, finite (sq v) -> 0 <= b2r (sq v)) -> sq_ok n comps sq.
Proof.
  intros Hn E O P v F N HN.
  assert (FS : finite (sq v)).
  { assert (A : all_finite [sq v]).
    { apply (O v (IZR (2 ^ 62))); [now apply IZR_le|exact F|now apply norm_bounded|].
      apply le_INR in Hn. replace (INR 4) with 4 in Hn by (cbn; lra). rewrite pow_IZR.
      apply Rle_lt_trans with (4 * IZR ((2 ^ 62) ^ Z.of_nat 2)); [apply Rmult_le_compat_r; [now apply IZR_le|exact Hn]|].
      rewrite <- mult_IZR. now apply IZR_lt. }
    now apply Forall_cons_iff in A as [A _]. }
  split; [exact FS|]. split; [now apply P|]. specialize (E v FS). cbv zeta in E. rewrite total_squares in E. exact E.
Qed.
Ltac sqpos := repeat (apply add_pos; [assumption| |]); intros; try now apply sq_pos.
Lemma sum2_pos (a b : f32) : finite (Bplus mode_NE (Bmult mode_NE a a) (Bmult mode_NE b b)) -> 0 <= b2r (Bplus mode_NE (Bmult mode_NE a a) (Bmult mode_NE b b)).
Proof. intros F. apply add_pos; [exact F| |]; apply sq_pos. Qed.
Lemma self_overflow c d l l' : no_overflow c d (l ++ l) l' -> no_overflow c d l l'.
Proof.
  intros H M M1 F B C. apply (H M M1); trivial.
  - now apply Forall_app.
  - now apply Forall_app.
Qed.
Lemma sq2_ok L : sq_ok 2 l2 (fun v => dot2 (F32 L) v v).
Proof.
  apply sq_from; [lia|exact (proj1 (C64_length2_pf L))| |].
  - intros v. apply self_overflow. replace (INR 2) with 2 by (cbn; lra). apply (proj1 (C71_products_pf L)).
  - intros [a b] F. now apply sum2_pos.
Qed.
Lemma sq3_ok L : sq_ok 3 l3 (fun v => dot3 (F32 L) v v).
Proof.
  apply sq_from; [lia|exact (proj1 (proj2 (C64_length2_pf L)))| |].
  - intros v. apply self_overflow. replace (INR 3) with 3 by (cbn; lra). apply (proj1 (proj2 (C71_products_pf L))).
  - intros [a b c] F. apply add_pos; [exact F|apply sum2_pos|apply sq_pos].
Qed.
Lemma sq4_ok L : sq_ok 4 l4 (fun v => dot4 (F32 L) v v).
Proof.
  apply sq_from; [lia|exact (proj1 (proj2 (proj2 (C64_length2_pf L))))| |].
  - intros v. apply self_overflow. replace (INR 4) with 4 by (cbn; lra). apply (proj1 (proj2 (proj2 (C71_products_pf L)))).
  - intros [a b c d] F. apply add_pos; [exact F| |apply sq_pos]. intros F3. apply add_pos; [exact F3|apply sum2_pos|apply sq_pos].
Qed.
Lemma sqq_ok L : sq_ok 4 lq (fun v => dot_q (F32 L) v v).
Proof.
  apply sq_from; [lia|exact (proj2 (proj2 (proj2 (C64_length2_pf L))))| |].
  - intros v. apply self_overflow. replace (INR 4) with 4 by (cbn; lra). apply (proj1 (proj2 (proj2 (proj2 (C71_products_pf L))))).
  - intros [a b c d] F. apply add_pos; [exact F| |apply sq_pos]. intros F3. apply add_pos; [exact F3|apply sum2_pos|apply sq_pos].
Qed.

Lemma len_of_sq {V} n comps (sq len : V -> f32) : (n <= 4)%nat -> sq_ok n comps sq -> (forall v, len v = Bsqrt mode_NE (sq v)) ->
  forall v, all_finite (comps v) -> let N := norm (vals (comps v)) in N <= IZR (2 ^ 62) ->
  finite (len v) /\ Rabs (b2r (len v) - N) <= (INR n / 2 + 11 / 10) * ulp_half * N + / IZR (2 ^ 73).
Proof.
  intros Hn S E v F N HN. rewrite E. destruct (S v F HN) as (F1 & P & H). apply len_core; trivial. apply norm_pos.
Qed.
Lemma len_ok {V} n comps (sq len : V -> f32) : (n <= 4)%nat -> sq_ok n comps sq -> (forall v, len v = Bsqrt mode_NE (sq v)) -> length_error_ok n comps len.
Proof.
  intros Hn S E v F N HN. destruct (len_of_sq n comps sq len Hn S E v F HN) as [A B]. split; [exact A|].
  eapply Rle_trans; [exact B|]. apply Rplus_le_compat_r. apply Rmult_le_compat_r; [apply norm_pos|]. rewrite uval. lra.
Qed.
(** Length in binary32: for every finite vector of length at most 2^62 the result is finite and within
    (n+3)/2 half-ulps of the exact length, plus 2^-73 for underflow in the squares. *)
Lemma C72_length_pf : forall L : Libm,
  length_error_ok 2 l2 (length2 (F32 L)) /\ length_error_ok 3 l3 (length3 (F32 L)) /\
  length_error_ok 4 l4 (length4 (F32 L)) /\ length_error_ok 4 lq (length_q (F32 L)).
Proof.
  intros L. split; [|split; [|split]].
  - exact (len_ok 2 l2 _ (length2 (F32 L)) ltac:(lia) (sq2_ok L) (fun _ => eq_refl)).
  - exact (len_ok 3 l3 _ (length3 (F32 L)) ltac:(lia) (sq3_ok L) (fun _ => eq_refl)).
  - exact (len_ok 4 l4 _ (length4 (F32 L)) ltac:(lia) (sq4_ok L) (fun _ => eq_refl)).
  - exact (len_ok 4 lq _ (length_q (F32 L)) ltac:(lia) (sqq_ok L) (fun _ => eq_refl)).
Qed.

(** distance *)
Lemma diff_ok (x y : f32) : finite x -> finite y -> Rabs (b2r x - b2r y) <= IZR (2 ^ 61) ->
  finite (Bminus mode_NE x y) /\ Rabs (b2r (Bminus mode_NE x y) - (b2r x - b2r y)) <= ulp_half * Rabs (b2r x - b2r y) + 0.
Proof.
  intros Fx Fy H.
  assert (B : Rabs (rnd (b2r x - b2r y)) < big).
  { apply Rle_lt_trans with (bpow radix2 61); [|apply bpow_lt; lia]. apply rnd_abs_le; [apply fmt_bpow; lia|exact H]. }
  destruct (minus_ok x y Fx Fy B) as [F E]. split; [exact F|]. rewrite E.
  destruct (rnd_plus_error x (Bopp y)) as [eps [He Hr]]. rewrite Bopp_b2r in Hr. unfold Rminus in *. rewrite Hr.
  replace ((b2r x + - b2r y) * (1 + eps) + - (b2r x + - b2r y)) with (eps * (b2r x + - b2r y)) by ring.
  rewrite Rabs_mult, Rplus_0_r. apply Rmult_le_compat_r; [apply Rabs_pos|exact He].
Qed.
Lemma diffs_ok u v : all_finite u -> all_finite v -> norm (zip Rminus (vals u) (vals v)) <= IZR (2 ^ 61) ->
  all_finite (zip (Bminus mode_NE) u v) /\
  Forall2 (fun a b => Rabs (a - b) <= ulp_half * Rabs b + 0) (vals (zip (Bminus mode_NE) u v)) (zip Rminus (vals u) (vals v)).
Proof.
  intros Fu Fv HN.
  assert (H : Forall (fun z => Rabs z <= IZR (2 ^ 61)) (zip Rminus (vals u) (vals v))).
  { apply Forall_forall. intros z Hz. eapply Rle_trans; [|exact HN]. now apply comp_le_norm. }
  clear HN. revert v Fv H. induction u as [|a u IH]; intros v Fv H; [split; [apply Forall_nil|apply Forall2_nil]|].
  destruct v as [|b v]; [split; [apply Forall_nil|apply Forall2_nil]|].
  apply Forall_cons_iff in Fu as [Fa Fu]. apply Forall_cons_iff in Fv as [Fb Fv]. cbn [vals map zip] in H. apply Forall_cons_iff in H as [Ha H].
  destruct (diff_ok a b Fa Fb Ha) as [X Y]. destruct (IH Fu v Fv H) as [X' Y']. split; [now apply Forall_cons|now apply Forall2_cons].
Qed.
Lemma dist_ok {V} n comps (sq len : V -> f32) (sub : V -> V -> V) (dist : V -> V -> f32) : (n <= 4)%nat -> sq_ok n comps sq ->
  (forall v, len v = Bsqrt mode_NE (sq v)) -> (forall v, length (comps v) = n) ->
  (forall u v, comps (sub u v) = zip (Bminus mode_NE) (comps u) (comps v)) -> (forall u v, dist u v = len (sub u v)) ->
  distance_error_ok n comps dist.
Proof.
  intros Hn S E Lc Hs Hd u v Fu Fv N HN. rewrite Hd.
  destruct (diffs_ok _ _ Fu Fv HN) as [F1 F2]. rewrite <- Hs in F1, F2.
  assert (I : 0 <= INR n <= 4) by (split; [apply pos_INR|replace 4 with (INR 4) by (cbn; lra); now apply le_INR]).
  assert (L1 : length (vals (comps (sub u v))) = n) by (unfold vals; rewrite map_length; apply Lc).
  assert (L2 : length (zip Rminus (vals (comps u)) (vals (comps v))) = n).
  { rewrite zip_len; unfold vals; rewrite !map_length, ?Lc; trivial. }
  pose proof (norm_near n _ _ ulp_half 0 L1 L2 Hn ltac:(rewrite uval; lra) (Rle_refl 0) F2) as Q.
  change (norm (zip Rminus (vals (comps u)) (vals (comps v)))) with N in Q. set (D := norm (vals (comps (sub u v)))) in *.
  assert (PN : 0 <= N) by apply norm_pos. rewrite uval in Q. assert (HD : D <= N * (1 + / 16777216)) by (unfold Rabs in Q; destruct Rcase_abs; lra).
  assert (HD' : D <= IZR (2 ^ 62)). { change (2 ^ 62)%Z with (2 * 2 ^ 61)%Z. rewrite mult_IZR. lra. }
  destruct (len_of_sq n comps sq len Hn S E (sub u v) F1 HD') as [A B]. split; [exact A|]. rewrite uval in *. fold D in B.
  replace (b2r (len (sub u v)) - N) with ((b2r (len (sub u v)) - D) + (D - N)) by ring. eapply Rle_trans; [apply Rabs_triang|].
  assert (D * ((INR n / 2 + 11 / 10) * / 16777216) <= N * (1 + / 16777216) * ((INR n / 2 + 11 / 10) * / 16777216)) by (apply Rmult_le_compat_r; lra).
  assert (N * ((1 + / 16777216) * ((INR n / 2 + 11 / 10) * / 16777216) + / 16777216) <= N * ((INR n + 5) / 2 * / 16777216)) by (apply Rmult_le_compat_l; nra).
  lra.
Qed.
(** Distance: the subtraction adds one more half-ulp. *)
Lemma C72_distance_pf : forall L : Libm,
  distance_error_ok 2 l2 (distance2 (F32 L)) /\ distance_error_ok 3 l3 (distance3 (F32 L)) /\ distance_error_ok 4 l4 (distance4 (F32 L)).
Proof.
  intros L. split; [|split].
  - eapply (dist_ok 2 l2 _ (length2 (F32 L)) (vec2_sub (F32 L))); [lia|apply (sq2_ok L)|reflexivity|intros [? ?]; reflexivity|intros [? ?] [? ?]; reflexivity|reflexivity].
  - eapply (dist_ok 3 l3 _ (length3 (F32 L)) (vec3_sub (F32 L))); [lia|apply (sq3_ok L)|reflexivity|intros [? ? ?]; reflexivity|intros [? ? ?] [? ? ?]; reflexivity|reflexivity].
  - eapply (dist_ok 4 l4 _ (length4 (F32 L)) (vec4_sub (F32 L))); [lia|apply (sq4_ok L)|reflexivity|intros [? ? ? ?]; reflexivity|intros [? ? ? ?] [? ? ? ?]; reflexivity|reflexivity].
Qed.

(** normalize *)
Lemma unit_norm l : norm l <> 0 -> norm (map (fun x => x / norm l) l) = 1.
Proof.
  intros H. assert (P : 0 < norm l) by (pose proof (norm_pos l); lra).
  replace (map (fun x => x / norm l) l) with (map (Rmult (/ norm l)) l) by (apply map_ext; intros; unfold Rdiv; ring).
  rewrite norm_scale, Rabs_pos_eq; [field; lra|left; now apply Rinv_0_lt_compat].
Qed.
Lemma nrm_core n (l : list f32) (out : list f32) k N : (2 <= n <= 4)%nat -> length l = n -> N = norm (vals l) -> 0 < N -> 0 <= k <= 8 ->
  (k + 3 / 2 <= INR n / 2 + 6) ->
  (exists r : R, Rabs (r - / N) <= k * ulp_half * / N /\
    Forall2 (fun c x => Rabs (rnd (b2r x * r)) < big -> finite c /\ b2r c = rnd (b2r x * r)) out l) ->
  all_finite out /\ Forall2 (fun c x => Rabs (b2r c - x / N) <= (INR n / 2 + 6) * ulp_half * Rabs (x / N) + tiny) out (vals l) /\
  Rabs (norm (vals out) - 1) <= (INR n / 2 + 7) * ulp_half.
Proof.
  intros Hn Hl EN PN Hk Kn [r [Hr H]].
  assert (B : Forall (fun x : f32 => Rabs (b2r x) <= N) l).
  { apply Forall_forall. intros x Hx. rewrite EN. apply comp_le_norm. unfold vals. now apply (in_map (fun x => b2r x)). }
  assert (G : all_finite out /\ Forall2 (fun c x => Rabs (b2r c - x / N) <= (INR n / 2 + 6) * ulp_half * Rabs (x / N) + tiny) out (vals l)).
  { clear Hl EN. induction H as [|c x out l H F IH]; [split; [apply Forall_nil|apply Forall2_nil]|].
    apply Forall_cons_iff in B as [Bx B]. destruct (IH B) as [G1 G2].
    destruct (round_core (b2r x) N r k PN Bx Hk Hr) as [X Y]. destruct (H X) as [Fc Ec].
    split; [now apply Forall_cons|]. cbn [vals map]. apply Forall2_cons; [|exact G2]. rewrite Ec. eapply Rle_trans; [exact Y|].
    apply Rplus_le_compat_r. apply Rmult_le_compat_r; [apply Rabs_pos|]. rewrite uval. lra. }
  destruct G as [G1 G2]. split; [exact G1|]. split; [exact G2|].
  assert (I : 0 <= INR n <= 4) by (split; [apply pos_INR|replace 4 with (INR 4) by (cbn; lra); apply le_INR; lia]).
  assert (LO : length out = n) by (rewrite <- Hl; clear -H; induction H; cbn; congruence).
  pose proof (norm_near n (vals out) (map (fun x => x / N) (vals l)) ((INR n / 2 + 6) * ulp_half) tiny) as Q.
  assert (U : norm (map (fun x => x / N) (vals l)) = 1) by (rewrite EN; apply unit_norm; rewrite <- EN; lra). rewrite U in Q.
  assert (Q' : Rabs (norm (vals out) - 1) <= (INR n / 2 + 6) * ulp_half * 1 + 2 * tiny).
  { apply Q.
    - unfold vals. now rewrite map_length.
    - unfold vals. now rewrite !map_length.
    - lia.
    - rewrite uval. lra.
    - left. apply tiny_pos.
    - clear -G2. unfold vals in *. remember (map (fun x => b2r x) l) as vl. clear Heqvl. 
      induction G2 as [|c x out vl H F IH]; cbn; [apply Forall2_nil|now apply Forall2_cons]. }
  eapply Rle_trans; [exact Q'|].
  assert (2 * tiny <= ulp_half).
  { unfold tiny, ulp_half. change (2 ^ 149)%Z with (2 * 2 ^ 148)%Z. rewrite mult_IZR, Rinv_mult. rewrite <- Rmult_assoc, Rinv_r, Rmult_1_l by lra.
    apply Rinv_le_contravar; [now apply IZR_lt|now apply IZR_le]. }
  lra.
Qed.
Lemma N_pos N : / IZR (2 ^ 48) <= N -> 0 < N.
Proof. intros H. eapply Rlt_le_trans; [|exact H]. apply Rinv_0_lt_compat. now apply IZR_lt. Qed.
Lemma nrm_mul {V} n comps (sq : V -> f32) (L : Libm) (nrm : V -> V) : (2 <= n <= 4)%nat -> sq_ok n comps sq -> (forall v, length (comps v) = n) ->
  (forall v, comps (nrm v) = map (fun x => Bmult mode_NE x (inversesqrt_f (F32 L) (sq v))) (comps v)) -> normalize_error_ok n comps nrm.
Proof.
  intros Hn S Lc E v F N [H1 H2]. destruct (S v F H2) as (F1 & P & H). fold N in H.
  pose proof (proj1 (C28_inversesqrt_pf L (sq v)) F1) as R. cbv zeta in R.
  destruct (isqrt_core' n N (sq v) (inversesqrt_f (F32 L) (sq v)) ltac:(lia) H1 P H (fun Q => proj2 (R Q))) as [PS Q].
  destruct (R PS) as [FR _]. rewrite E.
  assert (I : 0 <= INR n <= 4) by (split; [apply pos_INR|replace 4 with (INR 4) by (cbn; lra); apply le_INR; lia]).
  apply (nrm_core n (comps v) _ (INR n / 2 + 42 / 10) N Hn (Lc v) eq_refl (N_pos N H1)); [lra|lra|].
  exists (b2r (inversesqrt_f (F32 L) (sq v))). split; [exact Q|].
  revert F. clear -FR. induction (comps v) as [|x l IH]; intros F; cbn; [apply Forall2_nil|]. apply Forall_cons_iff in F as [Fx F].
  apply Forall2_cons; [|now apply IH]. intros B. now apply mult_ok.
Qed.
Lemma nrm_div {V} n comps (sq len : V -> f32) (nrm : V -> V) : (2 <= n <= 4)%nat -> sq_ok n comps sq -> (forall v, length (comps v) = n) ->
  (forall v, len v = Bsqrt mode_NE (sq v)) ->
  (forall v, comps (nrm v) = map (fun x => Bdiv mode_NE x (len v)) (comps v)) -> normalize_error_ok n comps nrm.
Proof.
  intros Hn S Lc El E v F N [H1 H2]. pose proof (N_pos N H1) as PN.
  assert (I : 2 <= INR n <= 4) by (split; [replace 2 with (INR 2) by (cbn; lra)|replace 4 with (INR 4) by (cbn; lra)]; apply le_INR; lia).
  destruct (len_of_sq n comps sq len ltac:(lia) S El v F H2) as [FL B]. cbv zeta in B. fold N in B.
  assert (T : / IZR (2 ^ 73) <= / 2 * ulp_half * N).
  { apply Rle_trans with (/ 2 * ulp_half * / IZR (2 ^ 48)).
    - unfold ulp_half. rewrite <- !Rinv_mult, <- !mult_IZR. apply Rinv_le_contravar; [now apply IZR_lt|now apply IZR_le].
    - apply Rmult_le_compat_l; [rewrite uval; lra|exact H1]. }
  assert (B' : Rabs (b2r (len v) - N) <= (INR n / 2 + 16 / 10) * ulp_half * N) by lra.
  destruct (inv_rel _ N ((INR n / 2 + 16 / 10) * ulp_half) PN ltac:(rewrite uval; lra) B') as [QP Q].
  rewrite E. apply (nrm_core n (comps v) _ (INR n / 2 + 17 / 10) N Hn (Lc v) eq_refl PN); [lra|lra|].
  exists (/ b2r (len v)). split.
  { eapply Rle_trans; [exact Q|]. apply Rmult_le_compat_r; [left; now apply Rinv_0_lt_compat|]. rewrite uval. lra. }
  revert F. clear -FL QP. induction (comps v) as [|x l IH]; intros F; cbn; [apply Forall2_nil|]. apply Forall_cons_iff in F as [Fx F].
  apply Forall2_cons; [|now apply IH]. intros B. apply div_ok; trivial; lra.
Qed.
(** normalize in binary32: for every finite vector with length between 2^-48 and 2^62, each component is within
    n/2+6 half-ulps of the exact one (plus the smallest positive number), and the length of the result is within
    n/2+7 half-ulps of 1. *)
Lemma C72_normalize_pf : forall L : Libm,
  normalize_error_ok 2 l2 (normalize2 (F32 L)) /\ normalize_error_ok 3 l3 (normalize3 (F32 L)) /\
  normalize_error_ok 4 l4 (normalize4 (F32 L)) /\ normalize_error_ok 4 lq (normalize_q (F32 L)).
Proof.
  intros L. split; [|split; [|split]].
  - eapply nrm_mul; [lia|apply (sq2_ok L)|intros [? ?]; reflexivity|intros [? ?]; reflexivity].
  - eapply nrm_mul; [lia|apply (sq3_ok L)|intros [? ? ?]; reflexivity|intros [? ? ?]; reflexivity].
  - eapply nrm_mul; [lia|apply (sq4_ok L)|intros [? ? ? ?]; reflexivity|intros [? ? ? ?]; reflexivity].
  - eapply (nrm_div 4 lq _ (length_q (F32 L))); [lia|apply (sqq_ok L)|intros [? ? ? ?]; reflexivity|reflexivity|intros [? ? ? ?]; reflexivity].
Qed.
Lemma small80 : b2r (@B754_finite 24 128 false 8388608 (-103) eq_refl) = / IZR (2 ^ 80).
Proof.
  change (b2r (@B754_finite 24 128 false 8388608 (-103) eq_refl)) with (IZR 8388608 * / IZR (Z.pow_pos 2 103)).
  replace (IZR (Z.pow_pos 2 103)) with (IZR 8388608 * IZR (2 ^ 80)) by (rewrite <- mult_IZR; reflexivity).
  rewrite Rinv_mult, <- Rmult_assoc, Rinv_r, Rmult_1_l by lra. reflexivity.
Qed.
Lemma big64 : b2r (f32_ofZ (2 ^ 64)) = IZR (2 ^ 64).
Proof.
  assert (E : f32_ofZ (2 ^ 64) = @B754_finite 24 128 false 8388608 41 eq_refl) by (apply B2SF_inj; vm_compute; reflexivity).
  rewrite E. change (b2r (@B754_finite 24 128 false 8388608 41 eq_refl)) with (IZR 8388608 * IZR (Z.pow_pos 2 41)). rewrite <- mult_IZR. reflexivity.
Qed.
(** The range restriction is needed: in binary32 [normalize] of the nonzero vector (2^-80, 0) contains a NaN, and for
    (2^64, 0), whose length is representable, [length] is infinite and [normalize] returns the zero vector. *)
Lemma C72_range_refuted_pf : forall L : Libm, exists v w : vec2 (F32 L),
  all_finite (l2 v) /\ vals (l2 v) = [/ IZR (2 ^ 80); 0] /\ some_nan (l2 (normalize2 (F32 L) v)) /\
  all_finite (l2 w) /\ vals (l2 w) = [IZR (2 ^ 64); 0] /\ ~ finite (length2 (F32 L) w) /\ vals (l2 (normalize2 (F32 L) w)) = [0; 0].
Proof.
  intros L. exists (V2 (@B754_finite 24 128 false 8388608 (-103) eq_refl) (B754_zero false) : vec2 (F32 L)), (V2 (f32_ofZ (2 ^ 64)) (B754_zero false) : vec2 (F32 L)).
  split; [repeat apply Forall_cons; [reflexivity|reflexivity|apply Forall_nil]|].
  split; [exact (f_equal (fun x => [x; 0]) small80)|].
  split; [apply Exists_cons_tl, Exists_cons_hd; vm_compute; reflexivity|].
  split; [repeat apply Forall_cons; [reflexivity|reflexivity|apply Forall_nil]|].
  split; [exact (f_equal (fun x => [x; 0]) big64)|].
  split; [vm_compute; discriminate|].
  assert (E : l2 (normalize2 (F32 L) (V2 (f32_ofZ (2 ^ 64)) (B754_zero false) : vec2 (F32 L))) =
    [Bmult mode_NE (f32_ofZ (2 ^ 64)) (B754_zero false); Bmult mode_NE (B754_zero false) (B754_zero false)]).
  { transitivity (let r := inversesqrt_f (F32 L) (dot2 (F32 L) (V2 (f32_ofZ (2 ^ 64)) (B754_zero false)) (V2 (f32_ofZ (2 ^ 64)) (B754_zero false))) in
      [Bmult mode_NE (f32_ofZ (2 ^ 64)) r; Bmult mode_NE (B754_zero false) r]); [reflexivity|].
    assert (R : inversesqrt_f (F32 L) (dot2 (F32 L) (V2 (f32_ofZ (2 ^ 64)) (B754_zero false)) (V2 (f32_ofZ (2 ^ 64)) (B754_zero false))) = B754_zero false)
      by (apply B2SF_inj; vm_compute; reflexivity). cbv zeta. rewrite R. reflexivity. }
  rewrite E. assert (M : Bmult mode_NE (f32_ofZ (2 ^ 64)) (B754_zero false) = B754_zero false) by (apply B2SF_inj; vm_compute; reflexivity).
  rewrite M. reflexivity.
Qed.
(*PROPS
Example C72_case : let v := V2 (f32_ofZ 3) (f32_ofZ 4) : vec2 (F32 L0) in
  all_finite (l2 v) /\ norm (vals (l2 v)) = 5 /\ / IZR (2 ^ 48) <= 5 <= IZR (2 ^ 61).
Proof.
  split; [apply Forall_cons; [|apply Forall_cons; [|apply Forall_nil]]; vm_compute; reflexivity|]. split.
  - change (norm [b2r (f32_ofZ 3); b2r (f32_ofZ 4)] = 5). change (norm [b2r (f32_ofZ 3); b2r (f32_ofZ 4)]) with (sqrt (b2r (f32_ofZ 3) * b2r (f32_ofZ 3) + (b2r (f32_ofZ 4) * b2r (f32_ofZ 4) + 0))).
    rewrite (ofZ_exact 3 eq_refl), (ofZ_exact 4 eq_refl). replace (3 * 3 + (4 * 4 + 0)) with (5 * 5) by ring. apply sqrt_square. lra.
  - split; [|now apply IZR_le]. apply Rle_trans with (/ 1); [|lra]. apply Rinv_le_contravar; [lra|now apply IZR_le].
Qed.
PROPS*)
