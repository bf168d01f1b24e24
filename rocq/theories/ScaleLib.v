(** * Scaling by powers of two commutes with every expression *)
From Coq Require Import ZArith Bool Reals List Lra Lia.
From Flocq Require Import Core IEEE754.BinarySingleNaN.
From Verif Require Import Scalar IEEE32 RealInst FloatBasics FloatOps SpecF32 SpecErr NumLib ErrExpr ErrLib OvfLib SpecGrid GridLib PfInv.
Import ListNotations.
Local Open Scope R_scope.

Notation flx := (round radix2 (FLX_exp 24) ZnearestE).
Lemma rnd_flt r : rnd r = round radix2 (FLT_exp (-149) 24) ZnearestE r. Proof. reflexivity. Qed.
Lemma rnd_flx_normal r : bpow radix2 (-126) <= Rabs r -> rnd r = flx r.
Proof. intros H. rewrite rnd_flt. apply round_FLT_FLX. exact H. Qed.
Lemma rnd_flx_grid r : on_grid 149 r -> rnd r = flx r.
Proof.
  intros G. destruct (Rle_or_lt (bpow radix2 (-126)) (Rabs r)) as [H|H]; [now apply rnd_flx_normal|].
  assert (F : fmt r).
  { apply (grid_fmt 149); [lia|exact G|]. apply Rlt_le in H. apply Rle_trans with (bpow radix2 (-126) * bpow radix2 149).
    - apply Rmult_le_compat_r; [apply bpow_ge_0|exact H].
    - rewrite <- bpow_plus. change (IZR (2 ^ 24)) with (bpow radix2 24). apply bpow_le. lia. }
  rewrite (rnd_id _ F). symmetry. apply round_generic; [apply valid_rnd_N|]. apply (generic_format_FLX_FLT radix2 (-149) 24). exact F.
Qed.
Lemma flx_scale r q : flx (r * bpow radix2 q) = flx r * bpow radix2 q.
Proof.
  destruct (Req_dec r 0) as [->|N]; [rewrite Rmult_0_l, round_0 by apply valid_rnd_N; ring|].
  unfold round, scaled_mantissa, cexp, FLX_exp. rewrite mag_mult_bpow by exact N. unfold F2R. cbn [Fnum Fexp].
  replace (r * bpow radix2 q * bpow radix2 (- (mag radix2 r + q - 24))) with (r * bpow radix2 (- (mag radix2 r - 24))).
  - rewrite Rmult_assoc, <- bpow_plus. f_equal. f_equal. lia.
  - rewrite Rmult_assoc, <- bpow_plus. f_equal. f_equal. lia.
Qed.
Lemma rnd_scale_grid r q : on_grid 149 r -> on_grid 149 (r * bpow radix2 q) -> rnd (r * bpow radix2 q) = rnd r * bpow radix2 q.
Proof. intros A B. rewrite (rnd_flx_grid _ A), (rnd_flx_grid _ B). apply flx_scale. Qed.
Lemma rnd_scale_normal r q : bpow radix2 (-126) <= Rabs r -> bpow radix2 (-126) <= Rabs (r * bpow radix2 q) -> rnd (r * bpow radix2 q) = rnd r * bpow radix2 q.
Proof. intros A B. rewrite (rnd_flx_normal _ A), (rnd_flx_normal _ B). apply flx_scale. Qed.
Lemma grid_rnd s r : on_grid s r -> on_grid s (rnd r).
Proof.
  intros [z E]. destruct (Z_le_gt_dec (cexp radix2 fx r) (- s)) as [C|C].
  - rewrite rnd_id; [now exists z|]. rewrite E. apply (generic_format_F2R radix2 fx z (- s)). intros _. change (F2R (Float radix2 z (- s))) with (IZR z * bpow radix2 (- s)). rewrite <- E. exact C.
  - unfold rnd, round, F2R. cbn [Fnum Fexp]. set (m := _ (scaled_mantissa radix2 fx r)). apply (grid_weaken (- cexp radix2 fx r)); [lia|]. exists m. now rewrite Z.opp_involutive.
Qed.

Section SCALE.
  Variable L : Libm.
  Variables rho rho' : nat -> f32.
  Variable s : nat.
  Variable p : nat -> Z.
  Hypothesis HS : forall n, b2r (rho' n) = b2r (rho n) * bpow radix2 (p n).
  Hypothesis HG : forall n, on_grid (Z.of_nat s) (b2r (rho n)).
  Hypothesis HG' : forall n, on_grid (Z.of_nat s) (b2r (rho' n)).
  Let v (e : expr) : R := b2r (eval (F32 L) rho e).
  Let v' (e : expr) : R := b2r (eval (F32 L) rho' e).
  Definition goal_for (e : expr) (q : Z) : Prop := on_grid (gexp s e) (v e) /\ on_grid (gexp s e) (v' e) /\ v' e = v e * bpow radix2 q.
  Lemma scale_op e a b x y q : (gexp s e <= 149)%Z ->
    on_grid (gexp s e) x -> on_grid (gexp s e) y -> y = x * bpow radix2 q -> a = rnd x -> b = rnd y ->
    on_grid (gexp s e) a /\ on_grid (gexp s e) b /\ b = a * bpow radix2 q.
  Proof.
    intros G Gx Gy E -> ->. split; [now apply grid_rnd|]. split; [now apply grid_rnd|]. rewrite E. apply rnd_scale_grid.
    - now apply (grid_weaken (gexp s e)).
    - rewrite <- E. now apply (grid_weaken (gexp s e)).
  Qed.
  Lemma scale_main e q : lits_ok e = true -> (gexp s e <= 149)%Z -> hdeg p e = Some q ->
    finite (eval (F32 L) rho e) -> finite (eval (F32 L) rho' e) -> goal_for e q.
  Proof.
    revert q. induction e as [n|m|m| |a IHa b IHb|a IHa b IHb|a IHa b IHb|a IHa]; intros q Hl G H F F'; cbn [lits_ok] in Hl; cbn [hdeg] in H.
    - injection H as <-. unfold goal_for, v, v'. cbn [eval]. unfold gexp. cbn [degree halves]. replace (Z.of_nat (s * 1 + 0)) with (Z.of_nat s) by lia. auto.
    - injection H as <-. unfold goal_for, v, v'. cbn [eval]. assert (E : b2r (@slit (F32 L) m 0) = IZR m) by exact (lit_exact m Hl). rewrite E. change (bpow radix2 0) with 1.
      split; [|split; [|ring]]; (apply (grid_weaken 0); [unfold gexp; lia|apply grid_int]).
    - injection H as <-. unfold goal_for, v, v'. cbn [eval]. assert (E : b2r (@sofZ (F32 L) m) = IZR m) by exact (ofZ_exact m Hl). rewrite E. change (bpow radix2 0) with 1.
      split; [|split; [|ring]]; (apply (grid_weaken 0); [unfold gexp; lia|apply grid_int]).
    - injection H as <-. unfold goal_for, v, v'. cbn [eval]. assert (E : b2r (@slit (F32 L) 5 (-1)) = / 2) by exact b2r_lit_half. rewrite E. change (bpow radix2 0) with 1.
      split; [|split; [|ring]]; (apply (grid_weaken 1); [unfold gexp; cbn [degree halves]; lia|apply grid_half]).
    - apply andb_prop in Hl as [La Lb]. destruct (hdeg p a) as [qa|]; [|discriminate]. destruct (hdeg p b) as [qb|]; [|discriminate].
      destruct (Z.eqb_spec qa qb) as [<-|]; [|discriminate]. injection H as <-.
      assert (Ga : (gexp s a <= gexp s (EAdd a b))%Z) by (unfold gexp; cbn [degree halves]; nia). assert (Gb : (gexp s b <= gexp s (EAdd a b))%Z) by (unfold gexp; cbn [degree halves]; nia).
      cbn [eval] in F, F'. apply plus_inv in F as (Fa & Fb & E). apply plus_inv in F' as (Fa' & Fb' & E').
      destruct (IHa qa La ltac:(lia) eq_refl Fa Fa') as (A1 & A2 & A3). destruct (IHb qa Lb ltac:(lia) eq_refl Fb Fb') as (B1 & B2 & B3).
      apply (scale_op (EAdd a b) _ _ (v a + v b) (v' a + v' b) qa G); [| | |exact E|exact E'].
      + apply grid_add; [exact (grid_weaken _ _ _ Ga A1)|exact (grid_weaken _ _ _ Gb B1)].
      + apply grid_add; [exact (grid_weaken _ _ _ Ga A2)|exact (grid_weaken _ _ _ Gb B2)].
      + rewrite A3, B3. ring.
    - apply andb_prop in Hl as [La Lb]. destruct (hdeg p a) as [qa|]; [|discriminate]. destruct (hdeg p b) as [qb|]; [|discriminate].
      destruct (Z.eqb_spec qa qb) as [<-|]; [|discriminate]. injection H as <-.
      assert (Ga : (gexp s a <= gexp s (ESub a b))%Z) by (unfold gexp; cbn [degree halves]; nia). assert (Gb : (gexp s b <= gexp s (ESub a b))%Z) by (unfold gexp; cbn [degree halves]; nia).
      cbn [eval] in F, F'. apply minus_inv in F as (Fa & Fb & E). apply minus_inv in F' as (Fa' & Fb' & E').
      destruct (IHa qa La ltac:(lia) eq_refl Fa Fa') as (A1 & A2 & A3). destruct (IHb qa Lb ltac:(lia) eq_refl Fb Fb') as (B1 & B2 & B3).
      apply (scale_op (ESub a b) _ _ (v a - v b) (v' a - v' b) qa G); [| | |exact E|exact E'].
      + apply grid_sub; [exact (grid_weaken _ _ _ Ga A1)|exact (grid_weaken _ _ _ Gb B1)].
      + apply grid_sub; [exact (grid_weaken _ _ _ Ga A2)|exact (grid_weaken _ _ _ Gb B2)].
      + rewrite A3, B3. ring.
    - apply andb_prop in Hl as [La Lb]. destruct (hdeg p a) as [qa|]; [|discriminate]. destruct (hdeg p b) as [qb|]; [|discriminate]. injection H as <-.
      assert (Ga : (gexp s a + gexp s b = gexp s (EMul a b))%Z) by (unfold gexp; cbn [degree halves]; nia). pose proof (gexp_pos s a). pose proof (gexp_pos s b).
      cbn [eval] in F, F'. apply mult_inv in F as (Fa & Fb & E). apply mult_inv in F' as (Fa' & Fb' & E').
      destruct (IHa qa La ltac:(lia) eq_refl Fa Fa') as (A1 & A2 & A3). destruct (IHb qb Lb ltac:(lia) eq_refl Fb Fb') as (B1 & B2 & B3).
      apply (scale_op (EMul a b) _ _ (v a * v b) (v' a * v' b) (qa + qb)%Z G); [| | |exact E|exact E'].
      + rewrite <- Ga. now apply grid_mul.
      + rewrite <- Ga. now apply grid_mul.
      + rewrite A3, B3, bpow_plus. ring.
    - cbn [eval] in F, F'. assert (Fa : finite (eval (F32 L) rho a)) by (unfold finite in *; rewrite <- F; symmetry; apply is_finite_Bopp).
      assert (Fa' : finite (eval (F32 L) rho' a)) by (unfold finite in *; rewrite <- F'; symmetry; apply is_finite_Bopp).
      destruct (IHa q Hl G H Fa Fa') as (A1 & A2 & A3).
      assert (E : v (ENeg a) = - v a) by (unfold v; cbn [eval]; apply Bopp_b2r). assert (E' : v' (ENeg a) = - v' a) by (unfold v'; cbn [eval]; apply Bopp_b2r).
      unfold goal_for. rewrite E, E'. split; [now apply grid_opp|]. split; [now apply grid_opp|]. rewrite A3. ring.
  Qed.
End SCALE.

Theorem expression_scales (L : Libm) (rho rho' : nat -> f32) (e : expr) (s : nat) (p : nat -> Z) (q : Z) :
  lits_ok e = true -> hdeg p e = Some q -> (forall n, b2r (rho' n) = b2r (rho n) * bpow radix2 (p n)) ->
  (forall n, on_grid (Z.of_nat s) (b2r (rho n))) -> (forall n, on_grid (Z.of_nat s) (b2r (rho' n))) ->
  (s * degree e + halves e <= 149)%nat -> finite (eval (F32 L) rho e) -> finite (eval (F32 L) rho' e) ->
  b2r (eval (F32 L) rho' e) = b2r (eval (F32 L) rho e) * bpow radix2 q.
Proof.
  intros Hl Hq HS HG HG' Hs F F'. refine (proj2 (proj2 (scale_main L rho rho' s p HS HG HG' e q Hl _ Hq F F'))). unfold gexp. lia.
Qed.
(** numbers of at least 2^-t lie on the grid 2^-(t+23) *)
Lemma above_grid (x : f32) t : b2r x = 0 \/ bpow radix2 (- Z.of_nat t) <= Rabs (b2r x) -> on_grid (Z.of_nat (t + 23)) (b2r x).
Proof.
  intros [E|H]; [exists 0%Z; rewrite E; ring|]. pose proof (generic_format_B2R 24 128 x) as G. unfold generic_format in G.
  set (m := Ztrunc (scaled_mantissa radix2 fx (b2r x))) in G. apply (grid_weaken (- cexp radix2 fx (b2r x))).
  - pose proof (mag_gt_bpow radix2 _ _ H). unfold cexp, SpecFloat.fexp, SpecFloat.emin. lia.
  - exists m. rewrite Z.opp_involutive. exact G.
Qed.
Lemma above_env t l : above t l -> forall n, on_grid (Z.of_nat (t + 23)) (b2r (env (B754_zero false : f32) l n)).
Proof.
  intros H n. unfold env. destruct (nth_in_or_default n l (B754_zero false)) as [I|E].
  - unfold above in H. rewrite Forall_forall in H. now apply above_grid, H.
  - rewrite E. exists 0%Z. cbn. ring.
Qed.
Lemma scaled_env ps l l' : scaled_by ps l l' -> forall n, b2r (env (B754_zero false : f32) l' n) = b2r (env (B754_zero false : f32) l n) * bpow radix2 (nth n ps 0%Z).
Proof.
  revert l l'. induction ps as [|p ps IH]; intros [|x l] [|y l'] H; try contradiction; intros [|n]; cbn [env nth]; try (cbn; ring).
  - destruct H as [(_ & _ & E) _]. exact E.
  - destruct H as [_ H]. exact (IH _ _ H n).
Qed.
Lemma exprs_scale L l l' es d h ps q : forallb (fun e => lits_ok e && Nat.leb (degree e) d && Nat.leb (halves e) h) es = true ->
  map (hdeg (fun n => nth n ps 0%Z)) es = map (fun _ => Some q) es ->
  scales d h ps q l l' (map (eval (F32 L) (env (B754_zero false) l)) es) (map (eval (F32 L) (env (B754_zero false) l')) es).
Proof.
  intros S D t Ht HS A A' F F'. induction es as [|e es IH]; [apply Forall2_nil|]. cbn [map forallb] in *.
  apply andb_prop in S as [S1 S2]. injection D as D1 D2. apply Forall_cons_iff in F as [F1 F2]. apply Forall_cons_iff in F' as [F1' F2'].
  apply Forall2_cons; [|now apply IH]. apply andb_prop in S1 as [S1 Sh]. apply andb_prop in S1 as [Sl Sd]. apply Nat.leb_le in Sh, Sd.
  split; [exact F1|]. split; [exact F1'|]. apply (expression_scales L _ _ e (t + 23) _ q Sl D1); trivial.
  - now apply scaled_env.
  - now apply above_env.
  - now apply above_env.
  - nia.
Qed.
(** ** Square roots and reciprocals *)
Lemma b2r_lower (x : f32) : b2r x <> 0 -> bpow radix2 (-149) <= Rabs (b2r x).
Proof.
  intros N. pose proof (fmt_b2r x) as G. unfold generic_format in G.
  set (m := Ztrunc (scaled_mantissa radix2 fx (b2r x))) in G. apply (grid_lower 149); [|exact N]. apply (grid_weaken (- cexp radix2 fx (b2r x))).
  - unfold cexp, SpecFloat.fexp, SpecFloat.emin. lia.
  - exists m. rewrite Z.opp_involutive. exact G.
Qed.
Lemma sqrt_normal (x : f32) : 0 < b2r x -> bpow radix2 (-75) <= sqrt (b2r x) <= bpow radix2 64.
Proof.
  intros H. pose proof (b2r_lower x ltac:(lra)) as A. rewrite Rabs_pos_eq in A by lra. pose proof (proj2 (b2r_lt_big x)) as B.
  split.
  - rewrite <- (sqrt_Rsqr (bpow radix2 (-75))) by apply bpow_ge_0. apply sqrt_le_1_alt. unfold Rsqr. rewrite <- bpow_plus. eapply Rle_trans; [|exact A]. apply bpow_le. lia.
  - rewrite <- (sqrt_Rsqr (bpow radix2 64)) by apply bpow_ge_0. apply sqrt_le_1_alt. unfold Rsqr. rewrite <- bpow_plus. apply Rlt_le. exact B.
Qed.
Lemma sqrt_bpow2 x p : sqrt (x * bpow radix2 (2 * p)) = sqrt x * bpow radix2 p.
Proof.
  replace (2 * p)%Z with (p + p)%Z by lia. rewrite bpow_plus. pose proof (bpow_gt_0 radix2 p). destruct (Rle_or_lt 0 x) as [P|P].
  - rewrite sqrt_mult by (trivial; nra). f_equal. apply sqrt_square. lra.
  - rewrite !sqrt_neg_0; [ring|lra|]. assert (0 < bpow radix2 p * bpow radix2 p) by nra. nra.
Qed.
Lemma b2r_sqrt (s : f32) : b2r (Bsqrt mode_NE s) = rnd (sqrt (b2r s)).
Proof. exact (proj1 (Bsqrt_correct 24 128 _ _ mode_NE s)). Qed.
Lemma sqrt_arg_finite (x : f32) : finite (Bsqrt mode_NE x) -> finite x.
Proof. destruct x as [| [] | |]; intros H; try discriminate H; reflexivity. Qed.
Lemma sqrt_scaled (s s' : f32) p : scaled (2 * p) s s' -> finite (Bsqrt mode_NE s) -> finite (Bsqrt mode_NE s') -> scaled p (Bsqrt mode_NE s) (Bsqrt mode_NE s').
Proof.
  intros (F & F' & E) G G'. split; [exact G|]. split; [exact G'|]. rewrite !b2r_sqrt, E, sqrt_bpow2.
  destruct (Rle_or_lt (b2r s) 0) as [Z|Q]; [rewrite sqrt_neg_0, Rmult_0_l, rnd_0 by exact Z; ring|].
  assert (Q' : 0 < b2r s') by (rewrite E; apply Rmult_lt_0_compat; [exact Q|apply bpow_gt_0]).
  pose proof (sqrt_normal s Q) as [N _]. pose proof (sqrt_normal s' Q') as [N' _]. rewrite E, sqrt_bpow2 in N'.
  apply rnd_scale_normal; [rewrite Rabs_pos_eq by apply sqrt_pos|rewrite Rabs_pos_eq by (apply Rmult_le_pos; [apply sqrt_pos|apply bpow_ge_0])]; (eapply Rle_trans; [|eassumption]); apply bpow_le; lia.
Qed.
Lemma sqrt_range (s : f32) : 0 < b2r s -> bpow radix2 (-75) <= b2r (Bsqrt mode_NE s) <= bpow radix2 64.
Proof.
  intros H. rewrite b2r_sqrt. destruct (sqrt_normal s H) as [A B]. split; [apply rnd_ge_fmt|apply rnd_le_fmt]; trivial; apply fmt_bpow; lia.
Qed.
Lemma rcp_scaled (l l' : f32) p : scaled p l l' -> bpow radix2 (-75) <= b2r l <= bpow radix2 64 -> bpow radix2 (-75) <= b2r l' <= bpow radix2 64 ->
  scaled (- p) (Bdiv mode_NE (f32_lit 1 0) l) (Bdiv mode_NE (f32_lit 1 0) l').
Proof.
  intros (F & F' & E) R R'.
  assert (I : forall y : f32, finite y -> bpow radix2 (-75) <= b2r y <= bpow radix2 64 ->
    finite (Bdiv mode_NE (f32_lit 1 0) y) /\ b2r (Bdiv mode_NE (f32_lit 1 0) y) = rnd (/ b2r y) /\ bpow radix2 (-126) <= Rabs (/ b2r y)).
  { intros y Fy [A B]. pose proof (bpow_gt_0 radix2 (-75)). assert (U : / b2r y <= bpow radix2 75) by (replace (bpow radix2 75) with (/ bpow radix2 (-75)) by (rewrite <- bpow_opp; reflexivity); apply Rinv_le_contravar; lra).
    assert (V : bpow radix2 (-64) <= / b2r y) by (replace (bpow radix2 (-64)) with (/ bpow radix2 64) by (rewrite <- bpow_opp; reflexivity); apply Rinv_le_contravar; lra).
    assert (P : 0 < / b2r y) by (apply Rinv_0_lt_compat; lra).
    destruct (div_ok (f32_lit 1 0) y fin_lit1 Fy ltac:(lra)) as [G1 G2].
    - rewrite b2r_lit1. replace (1 / b2r y) with (/ b2r y) by (field; lra). apply Rle_lt_trans with (bpow radix2 75); [|now apply bpow_lt].
      apply rnd_abs_le; [apply fmt_bpow; lia|]. rewrite Rabs_pos_eq; lra.
    - split; [exact G1|]. rewrite b2r_lit1 in G2. replace (1 / b2r y) with (/ b2r y) in G2 by (field; lra). split; [exact G2|].
      rewrite Rabs_pos_eq by lra. eapply Rle_trans; [|exact V]. apply bpow_le. lia. }
  destruct (I l F R) as (A1 & A2 & A3). destruct (I l' F' R') as (B1 & B2 & B3). split; [exact A1|]. split; [exact B1|]. rewrite A2, B2.
  assert (Q : / b2r l' = / b2r l * bpow radix2 (- p)). { rewrite E, bpow_opp. pose proof (bpow_gt_0 radix2 p). pose proof (bpow_gt_0 radix2 (-75)). field. lra. }
  rewrite Q in B3 |- *. now apply rnd_scale_normal.
Qed.
(** the product of values scaled by opposite powers is the same *)
Lemma mult_same (x x' r r' : f32) p : scaled p x x' -> scaled (- p) r r' -> finite (Bmult mode_NE x r) ->
  finite (Bmult mode_NE x' r') /\ b2r (Bmult mode_NE x' r') = b2r (Bmult mode_NE x r).
Proof.
  intros (Fx & Fx' & Ex) (Fr & Fr' & Er) F. apply mult_inv in F as (_ & _ & E). pose proof (b2r_lt_big (Bmult mode_NE x r)) as B.
  assert (Q : b2r x' * b2r r' = b2r x * b2r r).
  { rewrite Ex, Er. replace (b2r x * bpow radix2 p * (b2r r * bpow radix2 (- p))) with (b2r x * b2r r * (bpow radix2 p * bpow radix2 (- p))) by ring.
    rewrite <- bpow_plus. replace (p + - p)%Z with 0%Z by lia. change (bpow radix2 0) with 1. ring. }
  destruct (mult_ok x' r' Fx' Fr') as [F' E']; [rewrite Q, <- E; apply Rabs_def1; apply B|]. split; [exact F'|]. now rewrite E', Q, E.
Qed.
Lemma div_same (x x' r r' : f32) p : scaled p x x' -> scaled p r r' -> b2r r <> 0 -> finite (Bdiv mode_NE x r) ->
  finite (Bdiv mode_NE x' r') /\ b2r (Bdiv mode_NE x' r') = b2r (Bdiv mode_NE x r).
Proof.
  intros (Fx & Fx' & Ex) (Fr & Fr' & Er) N F. assert (E := div_inv x r Fx Fr N F). pose proof (b2r_lt_big (Bdiv mode_NE x r)) as B. pose proof (bpow_gt_0 radix2 p).
  assert (N' : b2r r' <> 0) by (rewrite Er; apply Rmult_integral_contrapositive_currified; lra).
  assert (Q : b2r x' / b2r r' = b2r x / b2r r) by (rewrite Ex, Er; field; lra).
  destruct (div_ok x' r' Fx' Fr' N') as [F' E']; [rewrite Q, <- E; apply Rabs_def1; apply B|]. split; [exact F'|]. now rewrite E', Q, E.
Qed.
