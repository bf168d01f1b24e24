(** * Values on a grid: exactness and scaling *)
From Coq Require Import ZArith Bool Reals List Lra Lia.
From Flocq Require Import Core IEEE754.BinarySingleNaN.
From Flocq Require Import Mult_error.
From Verif Require Import Scalar IEEE32 RealInst FloatBasics FloatOps SpecF32 SpecErr NumLib ErrExpr ErrLib OvfLib SpecGrid.
Import ListNotations.
Local Open Scope R_scope.

Lemma grid_weaken s s' r : (s <= s')%Z -> on_grid s r -> on_grid s' r.
Proof.
  intros H [z ->]. exists (z * 2 ^ (s' - s))%Z. rewrite mult_IZR. replace (IZR (2 ^ (s' - s))) with (bpow radix2 (s' - s)) by (symmetry; apply (IZR_Zpower radix2); lia).
  rewrite Rmult_assoc, <- bpow_plus. f_equal. f_equal. lia.
Qed.
Lemma grid_add s a b : on_grid s a -> on_grid s b -> on_grid s (a + b).
Proof. intros [x ->] [y ->]. exists (x + y)%Z. rewrite plus_IZR. ring. Qed.
Lemma grid_opp s a : on_grid s a -> on_grid s (- a).
Proof. intros [x ->]. exists (- x)%Z. rewrite opp_IZR. ring. Qed.
Lemma grid_sub s a b : on_grid s a -> on_grid s b -> on_grid s (a - b).
Proof. intros A B. apply grid_add; [exact A|now apply grid_opp]. Qed.
Lemma grid_mul s t a b : on_grid s a -> on_grid t b -> on_grid (s + t) (a * b).
Proof. intros [x ->] [y ->]. exists (x * y)%Z. rewrite mult_IZR, Z.opp_add_distr, bpow_plus. ring. Qed.
Lemma grid_int z : on_grid 0 (IZR z). Proof. exists z. change (bpow radix2 (- 0)) with 1. ring. Qed.
Lemma grid_half : on_grid 1 (/ 2). Proof. exists 1%Z. change (bpow radix2 (- (1))) with (/ 2). ring. Qed.

Lemma grid_fmt s r : (s <= 149)%Z -> on_grid s r -> Rabs r * bpow radix2 s <= IZR (2 ^ 24) -> fmt r.
Proof.
  intros Hs [z ->] H. assert (Hz : (Z.abs z <= 2 ^ 24)%Z).
  { apply le_IZR. eapply Rle_trans; [|exact H]. rewrite Rabs_mult, (Rabs_pos_eq (bpow _ _)) by apply bpow_ge_0. rewrite Rmult_assoc, <- bpow_plus.
    replace (- s + s)%Z with 0%Z by lia. change (bpow radix2 0) with 1. rewrite Rmult_1_r, <- abs_IZR. lra. }
  change fmt with (generic_format radix2 (FLT_exp (-149) 24)).
  destruct (Z.eq_dec (Z.abs z) (2 ^ 24)) as [E|E].
  - assert (C : IZR z = bpow radix2 24 \/ IZR z = - bpow radix2 24).
    { change (bpow radix2 24) with (IZR (2 ^ 24)). rewrite <- opp_IZR. destruct (Z.abs_spec z); [left|right]; f_equal; lia. }
    destruct C as [-> | ->]; [|rewrite Ropp_mult_distr_l_reverse; apply generic_format_opp]; rewrite <- bpow_plus; apply fmt_bpow; lia.
  - apply generic_format_FLT. exists (Float radix2 z (- s)); cbn; [reflexivity|lia|lia].
Qed.

(** ** Exactness of every expression on small fixed-point inputs *)
Section EXACT.
  Variable L : Libm.
  Variable rho : nat -> f32.
  Variable s : nat.
  Variable M : R.
  Hypothesis M1 : 1 <= M.
  Hypothesis HF : forall n, finite (rho n).
  Hypothesis HM : forall n, Rabs (b2r (rho n)) <= M.
  Hypothesis HG : forall n, on_grid (Z.of_nat s) (b2r (rho n)).
  Definition gexp (e : expr) : Z := Z.of_nat (s * degree e + halves e).
  Definition gbound (e : expr) : R := ebound M e * bpow radix2 (gexp e).
  Let x (e : expr) : R := eval RS (fun n => b2r (rho n)) e.
  Lemma exact_grid e : on_grid (gexp e) (x e).
  Proof.
    unfold x. induction e as [n|m|m| |a IHa b IHb|a IHa b IHb|a IHa b IHb|a IHa]; cbn [eval]; unfold gexp in *; cbn [degree halves].
    - apply (grid_weaken (Z.of_nat s)); [lia|]. apply HG.
    - apply (grid_weaken 0); [lia|]. apply grid_int.
    - apply (grid_weaken 0); [lia|]. apply grid_int.
    - apply (grid_weaken 1); [lia|]. change (@slit RS 5 (-1)) with (5 / 10). replace (5 / 10) with (/ 2) by lra. apply grid_half.
    - apply grid_add; eapply grid_weaken; try eassumption; nia.
    - apply grid_sub; eapply grid_weaken; try eassumption; nia.
    - eapply grid_weaken; [|apply grid_mul; eassumption]. nia.
    - now apply grid_opp.
  Qed.
  Lemma exact_bound e : Rabs (x e) <= ebound M e.
  Proof.
    unfold x. induction e as [n|m|m| |a IHa b IHb|a IHa b IHb|a IHa b IHb|a IHa]; cbn [eval].
    - unfold ebound. cbn [esize degree pow]. rewrite Rmult_1_r, Rmult_1_l. apply HM.
    - unfold ebound. cbn [esize degree pow]. change (@slit RS m 0) with (IZR m). rewrite <- abs_IZR, Rmult_1_r. apply IZR_le. lia.
    - unfold ebound. cbn [esize degree pow]. change (@sofZ RS m) with (IZR m). rewrite <- abs_IZR, Rmult_1_r. apply IZR_le. lia.
    - unfold ebound. cbn [esize degree pow]. change (@slit RS 5 (-1)) with (5 / 10). rewrite Rabs_pos_eq; lra.
    - eapply Rle_trans; [apply Rabs_triang|]. pose proof (ebound_add M M1 a b) as Q. change (ebound M (EAdd a b)) with (IZR (esize a + esize b) * M ^ Nat.max (degree a) (degree b)). lra.
    - eapply Rle_trans; [apply Rabs_triang|]. rewrite Rabs_Ropp. pose proof (ebound_add M M1 a b) as Q. change (ebound M (ESub a b)) with (IZR (esize a + esize b) * M ^ Nat.max (degree a) (degree b)). lra.
    - rewrite ebound_mul. eapply Rle_trans; [apply Req_le, Rabs_mult|]. apply Rmult_le_compat; auto using Rabs_pos.
    - eapply Rle_trans; [apply Req_le, Rabs_Ropp|]. exact IHa.
  Qed.
  Lemma gexp_pos e : (0 <= gexp e)%Z. Proof. unfold gexp. lia. Qed.
  Lemma gbound_mono a e : ebound M a <= ebound M e -> (gexp a <= gexp e)%Z -> gbound a <= gbound e.
  Proof.
    intros A B. unfold gbound. pose proof (ebound_ge1 M M1 a). apply Rmult_le_compat; [lra|apply bpow_ge_0|exact A|]. now apply bpow_le.
  Qed.
  Lemma exact_rnd e : (gexp e <= 149)%Z -> gbound e <= IZR (2 ^ 24) -> rnd (x e) = x e /\ Rabs (x e) < big.
  Proof.
    intros G B. assert (P : bpow radix2 0 <= bpow radix2 (gexp e)) by (apply bpow_le, gexp_pos). change (bpow radix2 0) with 1 in P.
    assert (Q : Rabs (x e) * bpow radix2 (gexp e) <= IZR (2 ^ 24)).
    { eapply Rle_trans; [|exact B]. apply Rmult_le_compat_r; [lra|apply exact_bound]. }
    split; [apply rnd_id, (grid_fmt (gexp e)); [exact G|apply exact_grid|exact Q]|].
    apply Rle_lt_trans with (IZR (2 ^ 24)); [|change (bpow radix2 24 < bpow radix2 128); apply bpow_lt; lia].
    eapply Rle_trans; [|exact Q]. pose proof (Rabs_pos (x e)). nra.
  Qed.
  Lemma exact_main e : lits_ok e = true -> (gexp e <= 149)%Z -> gbound e <= IZR (2 ^ 24) -> finite (eval (F32 L) rho e) /\ b2r (eval (F32 L) rho e) = x e.
  Proof.
    induction e as [n|m|m| |a IHa b IHb|a IHa b IHb|a IHa b IHb|a IHa]; intros Hl G B; cbn [lits_ok] in Hl.
    - split; [apply HF|reflexivity].
    - split; [exact (lit_finite m Hl)|exact (lit_exact m Hl)].
    - split; [change (finite (f32_ofZ m)); rewrite ofZ_lit; exact (lit_finite m Hl)|exact (ofZ_exact m Hl)].
    - split; [reflexivity|]. cbn [eval]. change (@slit (F32 L) 5 (-1)) with (f32_lit 5 (-1)). rewrite b2r_lit_half. unfold x. cbn [eval]. change (@slit RS 5 (-1)) with (5 / 10). lra.
    - apply andb_prop in Hl as [La Lb]. pose proof (ebound_add M M1 a b) as Q. pose proof (ebound_ge1 M M1 a). pose proof (ebound_ge1 M M1 b).
      assert (Ga : (gexp a <= gexp (EAdd a b))%Z) by (unfold gexp; cbn [degree halves]; nia). assert (Gb : (gexp b <= gexp (EAdd a b))%Z) by (unfold gexp; cbn [degree halves]; nia).
      destruct IHa as [Fa Ea]; [exact La|lia|eapply Rle_trans; [apply gbound_mono; [|exact Ga]|exact B]; unfold ebound at 2; cbn [esize degree]; lra|].
      destruct IHb as [Fb Eb]; [exact Lb|lia|eapply Rle_trans; [apply gbound_mono; [|exact Gb]|exact B]; unfold ebound at 2; cbn [esize degree]; lra|].
      destruct (exact_rnd (EAdd a b) G B) as [R1 R2]. change (x (EAdd a b)) with (x a + x b) in *. rewrite <- Ea, <- Eb in R1, R2 |- *.
      destruct (plus_ok _ _ Fa Fb ltac:(rewrite R1; exact R2)) as [F E]. split; [exact F|]. etransitivity; [exact E|exact R1].
    - apply andb_prop in Hl as [La Lb]. pose proof (ebound_add M M1 a b) as Q. pose proof (ebound_ge1 M M1 a). pose proof (ebound_ge1 M M1 b).
      assert (Ga : (gexp a <= gexp (ESub a b))%Z) by (unfold gexp; cbn [degree halves]; nia). assert (Gb : (gexp b <= gexp (ESub a b))%Z) by (unfold gexp; cbn [degree halves]; nia).
      destruct IHa as [Fa Ea]; [exact La|lia|eapply Rle_trans; [apply gbound_mono; [|exact Ga]|exact B]; unfold ebound at 2; cbn [esize degree]; lra|].
      destruct IHb as [Fb Eb]; [exact Lb|lia|eapply Rle_trans; [apply gbound_mono; [|exact Gb]|exact B]; unfold ebound at 2; cbn [esize degree]; lra|].
      destruct (exact_rnd (ESub a b) G B) as [R1 R2]. change (x (ESub a b)) with (x a - x b) in *. rewrite <- Ea, <- Eb in R1, R2 |- *.
      destruct (minus_ok _ _ Fa Fb ltac:(rewrite R1; exact R2)) as [F E]. split; [exact F|]. etransitivity; [exact E|exact R1].
    - apply andb_prop in Hl as [La Lb]. pose proof (ebound_mul M a b) as Q. pose proof (ebound_ge1 M M1 a). pose proof (ebound_ge1 M M1 b).
      assert (Ga : (gexp a <= gexp (EMul a b))%Z) by (unfold gexp; cbn [degree halves]; nia). assert (Gb : (gexp b <= gexp (EMul a b))%Z) by (unfold gexp; cbn [degree halves]; nia).
      destruct IHa as [Fa Ea]; [exact La|lia|eapply Rle_trans; [apply gbound_mono; [|exact Ga]|exact B]; rewrite Q; nra|].
      destruct IHb as [Fb Eb]; [exact Lb|lia|eapply Rle_trans; [apply gbound_mono; [|exact Gb]|exact B]; rewrite Q; nra|].
      destruct (exact_rnd (EMul a b) G B) as [R1 R2]. change (x (EMul a b)) with (x a * x b) in *. rewrite <- Ea, <- Eb in R1, R2 |- *.
      destruct (mult_ok _ _ Fa Fb ltac:(rewrite R1; exact R2)) as [F E]. split; [exact F|]. etransitivity; [exact E|exact R1].
    - destruct (IHa Hl G B) as [F E]. split; [exact (finite_opp _ F)|]. cbn [eval]. etransitivity; [apply Bopp_b2r|]. rewrite E. reflexivity.
  Qed.
End EXACT.

Theorem expression_exact (L : Libm) (rho : nat -> f32) (e : expr) (s : nat) (M : R) :
  lits_ok e = true -> 1 <= M -> (forall n, finite (rho n)) -> (forall n, Rabs (b2r (rho n)) <= M) -> (forall n, on_grid (Z.of_nat s) (b2r (rho n))) ->
  (s * degree e + halves e <= 149)%nat -> IZR (esize e) * M ^ degree e * IZR (2 ^ Z.of_nat (s * degree e + halves e)) <= IZR (2 ^ 24) ->
  finite (eval (F32 L) rho e) /\ b2r (eval (F32 L) rho e) = eval RS (fun n => b2r (rho n)) e.
Proof.
  intros Hl M1 HF HM HG Hs B. apply (exact_main L rho s M M1 HF HM HG e Hl); [unfold gexp; lia|]. unfold gbound, ebound, gexp. rewrite <- (IZR_Zpower radix2) by lia. exact B.
Qed.
(** s * degree + halves <= 149 follows from the other bound *)
Lemma exact_size (s : nat) (e : expr) M : 1 <= M -> IZR (esize e) * M ^ degree e * IZR (2 ^ Z.of_nat (s * degree e + halves e)) <= IZR (2 ^ 24) -> (s * degree e + halves e <= 149)%nat.
Proof.
  intros M1 B. pose proof (ebound_ge1 M M1 e) as E. unfold ebound in E. assert (P : 0 <= IZR (2 ^ Z.of_nat (s * degree e + halves e))) by (apply IZR_le; lia).
  assert (Q : IZR (2 ^ Z.of_nat (s * degree e + halves e)) <= IZR (2 ^ 24)) by nra. apply le_IZR in Q. apply Z.pow_le_mono_r_iff in Q; lia.
Qed.
Lemma exact_arith c d (e : expr) s M : 1 <= M -> (esize e * 2 ^ Z.of_nat (halves e) <= c)%Z -> (degree e <= d)%nat ->
  IZR c * (IZR (2 ^ Z.of_nat s) * M) ^ d <= IZR (2 ^ 24) -> IZR (esize e) * M ^ degree e * IZR (2 ^ Z.of_nat (s * degree e + halves e)) <= IZR (2 ^ 24).
Proof.
  intros M1 H1 H0 H. eapply Rle_trans; [|exact H]. set (p := IZR (2 ^ Z.of_nat s)). assert (P1 : 1 <= p) by (apply IZR_le; lia).
  replace (IZR (2 ^ Z.of_nat (s * degree e + halves e))) with (p ^ degree e * IZR (2 ^ Z.of_nat (halves e))).
  2:{ unfold p. rewrite pow_IZR, <- mult_IZR. f_equal. rewrite Nat2Z.inj_add, Nat2Z.inj_mul, Z.pow_add_r, Z.pow_mul_r by lia. reflexivity. }
  apply Rle_trans with (IZR (esize e * 2 ^ Z.of_nat (halves e)) * (p * M) ^ degree e); [rewrite mult_IZR, Rpow_mult_distr; right; ring|].
  assert (1 <= p * M) by nra. pose proof (esize_pos e). apply Rmult_le_compat; [apply IZR_le; nia|apply pow_le; lra|now apply IZR_le|now apply Rle_pow].
Qed.
Definition exact_in (c : Z) (d : nat) (e : expr) : bool := lits_ok e && (esize e * 2 ^ Z.of_nat (halves e) <=? c)%Z && Nat.leb (degree e) d.
Lemma fixed_env s l : fixed_point s l -> forall n, finite (env (B754_zero false : f32) l n) /\ on_grid (Z.of_nat s) (b2r (env (B754_zero false : f32) l n)).
Proof.
  intros H n. unfold env. destruct (nth_in_or_default n l (B754_zero false)) as [I|E].
  - unfold fixed_point in H. rewrite Forall_forall in H. now apply H.
  - rewrite E. split; [reflexivity|]. exists 0%Z. cbn. ring.
Qed.
Lemma exprs_exact L l es c d : forallb (exact_in c d) es = true ->
  exact_on_grid (IZR c) d l (map (eval (F32 L) (env (B754_zero false) l)) es) (map (eval RS (env 0 (vals l))) es).
Proof.
  intros S s M M1 F B H.
  assert (G : forall e, In e es -> finite (eval (F32 L) (env (B754_zero false) l) e) /\ b2r (eval (F32 L) (env (B754_zero false) l) e) = eval RS (fun n => b2r (env (B754_zero false : f32) l n)) e).
  { intros e He. rewrite forallb_forall in S. specialize (S e He). unfold exact_in in S. repeat (apply andb_prop in S as [S ?]). apply Z.leb_le in H1. apply Nat.leb_le in H0.
    assert (Q := exact_arith c d e s M M1 H1 H0 H).
    apply (expression_exact L _ e s M); trivial.
    - intros n. apply (fixed_env s l F n).
    - apply bounded_env'; [lra|exact B].
    - intros n. apply (fixed_env s l F n).
    - exact (exact_size s e M M1 Q). }
  split.
  - apply Forall_forall. intros y Hy. apply in_map_iff in Hy as [e [<- He]]. now apply G.
  - unfold vals at 1. rewrite map_map. apply map_ext_in. intros e He. destruct (G e He) as [_ ->]. apply eval_ext. intros n. apply env_vals.
Qed.
(** ** Quotients by powers of two *)
Definition small (x : f32) : Prop := finite x /\ on_grid 24 (b2r x) /\ Rabs (b2r x) <= IZR (2 ^ 24).
Lemma exprs_small L l es c d s M : forallb (exact_in c d) es = true ->
  1 <= M -> fixed_point s l -> bounded_by M l -> IZR c * (IZR (2 ^ Z.of_nat s) * M) ^ d <= IZR (2 ^ 24) ->
  Forall small (map (eval (F32 L) (env (B754_zero false) l)) es).
Proof.
  intros S M1 F B H. destruct (exprs_exact L l es c d S s M M1 F B H) as [Fin V]. apply Forall_forall. intros y Hy. split; [unfold all_finite in Fin; rewrite Forall_forall in Fin; now apply Fin|].
  apply in_map_iff in Hy as [e [<- He]].
  assert (E : b2r (eval (F32 L) (env (B754_zero false) l) e) = eval RS (fun n => b2r (env (B754_zero false : f32) l n)) e).
  { unfold vals at 1 in V. rewrite map_map in V. pose proof (ext_in_map V e He) as Q. cbv beta in Q. etransitivity; [exact Q|]. symmetry. exact (eval_ext RS _ _ e (env_vals l)). }
  rewrite E. rewrite forallb_forall in S. specialize (S e He). unfold exact_in in S. repeat (apply andb_prop in S as [S ?]). apply Z.leb_le in H1. apply Nat.leb_le in H0.
  assert (Q := exact_arith c d e s M M1 H1 H0 H).
  pose proof (ebound_ge1 M M1 e) as E1. unfold ebound in E1. assert (P : 1 <= IZR (2 ^ Z.of_nat (s * degree e + halves e))) by (apply IZR_le; lia).
  split.
  - apply (grid_weaken (gexp s e)); [|apply exact_grid; intros n; apply (fixed_env s l F n)].
    assert (Q' : IZR (2 ^ Z.of_nat (s * degree e + halves e)) <= IZR (2 ^ 24)) by nra. apply le_IZR in Q'. apply Z.pow_le_mono_r_iff in Q'; unfold gexp; lia.
  - eapply Rle_trans; [apply (exact_bound (env (B754_zero false : f32) l) M M1)|unfold ebound; nra]. apply bounded_env'; [lra|exact B].
Qed.
Lemma grid_lower s r : on_grid s r -> r <> 0 -> bpow radix2 (- s) <= Rabs r.
Proof.
  intros [z ->] N. rewrite Rabs_mult, (Rabs_pos_eq (bpow _ _)) by apply bpow_ge_0. rewrite <- abs_IZR. pose proof (bpow_gt_0 radix2 (- s)).
  assert (1 <= IZR (Z.abs z)). { apply IZR_le. assert (z <> 0%Z) by (intros ->; apply N; ring). lia. } nra.
Qed.
Lemma small_quot (x d : f32) k : small x -> small d -> Rabs (b2r d) = bpow radix2 k ->
  (-24 <= k <= 24)%Z /\ fmt (b2r x / b2r d) /\ Rabs (b2r x / b2r d) < big.
Proof.
  intros (Fx & Gx & Bx) (Fd & Gd & Bd) K. assert (Nd : b2r d <> 0) by (intros E; rewrite E, Rabs_R0 in K; pose proof (bpow_gt_0 radix2 k); lra).
  assert (Kb : (-24 <= k <= 24)%Z).
  { pose proof (grid_lower _ _ Gd Nd) as A. rewrite K in A, Bd. change (IZR (2 ^ 24)) with (bpow radix2 24) in Bd. apply le_bpow in A, Bd. lia. }
  split; [exact Kb|]. assert (D : b2r x / b2r d = b2r x * bpow radix2 (- k) \/ b2r x / b2r d = - (b2r x * bpow radix2 (- k))).
  { rewrite bpow_opp, <- K. unfold Rabs in *. destruct (Rcase_abs (b2r d)); [right|left]; field; lra. }
  split.
  - assert (G : fmt (b2r x * bpow radix2 (- k))).
    { destruct (Req_dec (b2r x) 0) as [E|E]; [rewrite E, Rmult_0_l; apply generic_format_0|]. apply mult_bpow_exact_FLT; [apply generic_format_B2R|].
      pose proof (grid_lower _ _ Gx E) as A. pose proof (mag_gt_bpow radix2 (b2r x) (- (24))%Z A) as Mg. change (SpecFloat.emin 24 128) with (-149)%Z. lia. }
    destruct D as [-> | ->]; [exact G|now apply generic_format_opp].
  - assert (A : Rabs (b2r x / b2r d) = Rabs (b2r x) * bpow radix2 (- k)).
    { destruct D as [-> | ->]; rewrite ?Rabs_Ropp, Rabs_mult, (Rabs_pos_eq (bpow _ _)) by apply bpow_ge_0; reflexivity. }
    rewrite A. assert (bpow radix2 (- k) <= bpow radix2 24) by (apply bpow_le; lia). pose proof (bpow_gt_0 radix2 (-k)).
    apply Rle_lt_trans with (bpow radix2 24 * bpow radix2 24); [apply Rmult_le_compat; [apply Rabs_pos|lra|exact Bx|lra]|]. rewrite <- bpow_plus. now apply bpow_lt.
Qed.
Lemma small_div (x d : f32) k : small x -> small d -> Rabs (b2r d) = bpow radix2 k -> finite (Bdiv mode_NE x d) /\ b2r (Bdiv mode_NE x d) = b2r x / b2r d.
Proof.
  intros X D K. destruct (small_quot x d k X D K) as (Kb & G & B). assert (Nd : b2r d <> 0) by (intros E; rewrite E, Rabs_R0 in K; pose proof (bpow_gt_0 radix2 k); lra).
  destruct (div_ok x d (proj1 X) (proj1 D) Nd) as [F E]; [now rewrite (rnd_id _ G)|]. split; [exact F|]. rewrite E. now apply rnd_id.
Qed.
Lemma small_rcp (x d : f32) k : small x -> small d -> Rabs (b2r d) = bpow radix2 k ->
  finite (Bmult mode_NE x (Bdiv mode_NE (f32_lit 1 0) d)) /\ b2r (Bmult mode_NE x (Bdiv mode_NE (f32_lit 1 0) d)) = b2r x / b2r d.
Proof.
  intros X D K. assert (O : small (f32_lit 1 0)).
  { split; [reflexivity|]. rewrite b2r_lit1. split; [apply (grid_weaken 0); [lia|apply (grid_int 1)]|rewrite Rabs_R1; now apply (IZR_le 1)]. }
  destruct (small_div _ d k O D K) as [Fr Er]. rewrite b2r_lit1 in Er. destruct (small_quot x d k X D K) as (Kb & G & B).
  assert (Q : b2r x * b2r (Bdiv mode_NE (f32_lit 1 0) d) = b2r x / b2r d) by (rewrite Er; unfold Rdiv; ring).
  destruct (mult_ok x (Bdiv mode_NE (f32_lit 1 0) d) (proj1 X) Fr) as [F E]; [rewrite Q; now rewrite (rnd_id _ G)|]. split; [exact F|]. rewrite E, Q. now apply rnd_id.
Qed.
