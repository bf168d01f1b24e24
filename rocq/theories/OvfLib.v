(** * Expressions of bounded size do not overflow *)
From Coq Require Import ZArith Bool Reals List Lra Lia.
From Flocq Require Import Core Relative IEEE754.BinarySingleNaN.
From Verif Require Import Scalar IEEE32 RealInst FloatBasics FloatOps SpecF32 SpecErr NumLib ErrExpr ErrLib.
Import ListNotations.
Local Open Scope R_scope.

Lemma rnd_upper x y : 1 <= y -> Rabs x <= y -> Rabs (rnd x) <= (1 + u32) * y.
Proof.
  intros Y H. destruct (rnd_error y) as [eps [eta [He [Ht [Z E]]]]].
  assert (A : Rabs (rnd x) <= rnd y).
  { unfold Rabs in H |- *. destruct (Rcase_abs (rnd x)).
    - rewrite <- rnd_opp. apply rnd_mono. destruct (Rcase_abs x); lra.
    - apply rnd_mono. destruct (Rcase_abs x); lra. }
  eapply Rle_trans; [exact A|].
  pose proof u_pos as U.
  (* above 1 the absolute term vanishes: compare with the relative bound *)
  assert (N : bpow radix2 (-126) <= Rabs y).
  { rewrite Rabs_pos_eq by lra. apply Rle_trans with 1; [|exact Y]. change 1 with (bpow radix2 0). apply bpow_le. lia. }
  destruct (relative_error_N_FLT_ex radix2 (-149) 24 eq_refl (fun t => negb (Z.even t)) y N) as [d [D1 D2]].
  change (rnd y = y * (1 + d)) in D2. rewrite D2.
  assert (D3 : Rabs d <= u32). { eapply Rle_trans; [exact D1|]. unfold u32. apply half_bpow; reflexivity. }
  pose proof (Rle_abs d). rewrite Rmult_comm. apply Rmult_le_compat_r; lra.
Qed.

Lemma lit_finite m : (Z.abs m <=? 2 ^ 24)%Z = true -> finite (f32_lit m 0).
Proof.
  intros H. apply Z.leb_le in H.
  assert (E : rnd (IZR m) = IZR m) by (apply rnd_id, fmt_Z; exact H).
  assert (B : Rabs (rnd (Rlit m 0)) < big).
  { change (Rlit m 0) with (IZR m). rewrite E. rewrite <- abs_IZR.
    apply Rle_lt_trans with (IZR (2 ^ 24)); [now apply IZR_le|].
    change (bpow radix2 24 < bpow radix2 128). apply bpow_lt. reflexivity. }
  now destruct (lit_rnd m 0 (Z.le_refl 0) B).
Qed.
Lemma ofZ_lit m : f32_ofZ m = f32_lit m 0.
Proof. destruct m; [reflexivity| |]; unfold f32_lit; now rewrite Z.mul_1_r. Qed.

Section OVF.
  Variable L : Libm.
  Variable rho : nat -> f32.
  Variable M : R.
  Hypothesis M1 : 1 <= M.
  Hypothesis HF : forall n, finite (rho n).
  Hypothesis HM : forall n, Rabs (b2r (rho n)) <= M.
  Definition ebound (e : expr) : R := IZR (esize e) * M ^ degree e.
  Lemma esize_pos e : (1 <= esize e)%Z.
  Proof. induction e; cbn [esize]; lia. Qed.
  Lemma pow_ge1 k : 1 <= M ^ k. Proof. now apply pow_R1_Rle. Qed.
  Lemma ebound_ge1 e : 1 <= ebound e.
  Proof.
    unfold ebound. pose proof (IZR_le _ _ (esize_pos e)). pose proof (pow_ge1 (degree e)).
    replace 1 with (1 * 1) by ring. apply Rmult_le_compat; lra.
  Qed.
  Lemma ebound_add a b : ebound a + ebound b <= IZR (esize a + esize b) * M ^ Nat.max (degree a) (degree b).
  Proof.
    unfold ebound. rewrite plus_IZR, Rmult_plus_distr_r.
    pose proof (IZR_le _ _ (esize_pos a)). pose proof (IZR_le _ _ (esize_pos b)).
    apply Rplus_le_compat; (apply Rmult_le_compat_l; [lra|]); apply Rle_pow; trivial; lia.
  Qed.
  Lemma ebound_mul a b : ebound (EMul a b) = ebound a * ebound b.
  Proof. unfold ebound. cbn [esize degree]. rewrite mult_IZR, pow_add. ring. Qed.

  Lemma small_finite x y z k : 1 <= y -> Rabs x <= grow k * y -> grow (S k) * y <= z -> z < big ->
    Rabs (rnd x) < big /\ Rabs (rnd x) <= grow (S k) * y.
  Proof.
    intros Y H G Z. pose proof (grow_ge1 k).
    assert (1 <= grow k * y). { replace 1 with (1 * 1) by ring. apply Rmult_le_compat; lra. }
    pose proof (rnd_upper x (grow k * y) H1 H) as A. rewrite grow_S, Rmult_assoc in *. split; [|exact A]. lra.
  Qed.

  Lemma finite_main : forall e, lits_ok e = true -> grow (roundings e) * ebound e < big ->
    finite (eval (F32 L) rho e) /\ Rabs (b2r (eval (F32 L) rho e)) <= grow (roundings e) * ebound e.
  Proof.
    assert (G1 : forall (x : f32) e, finite x -> roundings e = 0%nat -> Rabs (b2r x) <= ebound e ->
      finite x /\ Rabs (b2r x) <= grow (roundings e) * ebound e).
    { intros x e F R H. split; [exact F|]. rewrite R. unfold grow. cbn [pow]. lra. }
    assert (SUB : forall k k' y y', (k <= k')%nat -> 1 <= y -> y <= y' -> grow k' * y' < big -> grow k * y < big).
    { intros k k' y y' K Y1 Y H. eapply Rle_lt_trans; [|exact H]. pose proof (grow_ge1 k). apply Rmult_le_compat; try lra. now apply grow_mono. }
    assert (WID : forall k k' x y y', (k <= k')%nat -> 0 <= y -> y <= y' -> Rabs x <= grow k * y -> Rabs x <= grow k' * y').
    { intros k k' x y y' K P Y H. eapply Rle_trans; [exact H|]. pose proof (grow_ge1 k). apply Rmult_le_compat; try lra. now apply grow_mono. }
    assert (SUM : forall (op : f32 -> f32 -> f32) a b e, (e = EAdd a b /\ op = Bplus mode_NE) \/ (e = ESub a b /\ op = Bminus mode_NE) ->
      (lits_ok a = true -> grow (roundings a) * ebound a < big -> finite (eval (F32 L) rho a) /\ Rabs (b2r (eval (F32 L) rho a)) <= grow (roundings a) * ebound a) ->
      (lits_ok b = true -> grow (roundings b) * ebound b < big -> finite (eval (F32 L) rho b) /\ Rabs (b2r (eval (F32 L) rho b)) <= grow (roundings b) * ebound b) ->
      lits_ok e = true -> grow (roundings e) * ebound e < big ->
      finite (op (eval (F32 L) rho a) (eval (F32 L) rho b)) /\ Rabs (b2r (op (eval (F32 L) rho a) (eval (F32 L) rho b))) <= grow (roundings e) * ebound e).
    { intros op a b e Hop IHa IHb Hl Hb.
      assert (Hl' : lits_ok a && lits_ok b = true) by (destruct Hop as [[-> _]|[-> _]]; exact Hl). apply andb_prop in Hl' as [La Lb].
      assert (Rd : roundings e = S (Nat.max (roundings a) (roundings b))) by (destruct Hop as [[-> _]|[-> _]]; reflexivity).
      assert (Eb : ebound a + ebound b <= ebound e) by (destruct Hop as [[-> _]|[-> _]]; exact (ebound_add a b)).
      pose proof (ebound_ge1 a). pose proof (ebound_ge1 b).
      destruct IHa as [Fa Ba]; [exact La|eapply SUB; [| | |exact Hb]; try lra; rewrite Rd; lia|].
      destruct IHb as [Fb Bb]; [exact Lb|eapply SUB; [| | |exact Hb]; try lra; rewrite Rd; lia|].
      set (k := Nat.max (roundings a) (roundings b)) in *.
      apply (WID _ k _ _ (ebound a)) in Ba; [|unfold k; lia|lra|lra]. apply (WID _ k _ _ (ebound b)) in Bb; [|unfold k; lia|lra|lra].
      rewrite Rd in *.
      assert (T : forall x, Rabs x <= Rabs (b2r (eval (F32 L) rho a : f32)) + Rabs (b2r (eval (F32 L) rho b : f32)) ->
        Rabs (rnd x) < big /\ Rabs (rnd x) <= grow (S k) * ebound e).
      { intros x Hx. apply (small_finite x (ebound e) (grow (S k) * ebound e) k); [apply ebound_ge1| |lra|exact Hb].
        eapply Rle_trans; [exact Hx|]. apply Rle_trans with (grow k * (ebound a + ebound b)); [lra|].
        apply Rmult_le_compat_l; [pose proof (grow_ge1 k); lra|exact Eb]. }
      destruct Hop as [[_ ->]|[_ ->]].
      - destruct (T _ (Rabs_triang _ _)) as [T1 T2]. destruct (plus_ok _ _ Fa Fb T1) as [F E]. split; [exact F|now rewrite E].
      - assert (T0 : Rabs (b2r (eval (F32 L) rho a : f32) - b2r (eval (F32 L) rho b : f32)) <= Rabs (b2r (eval (F32 L) rho a : f32)) + Rabs (b2r (eval (F32 L) rho b : f32))).
        { unfold Rminus. eapply Rle_trans; [apply Rabs_triang|]. rewrite Rabs_Ropp. apply Rle_refl. }
        destruct (T _ T0) as [T1 T2]. destruct (minus_ok _ _ Fa Fb T1) as [F E]. split; [exact F|now rewrite E]. }
    induction e as [n|m|m| |a IHa b IHb|a IHa b IHb|a IHa b IHb|a IHa]; intros Hl Hb.
    - apply G1; [apply HF|reflexivity|]. unfold ebound. cbn [esize degree pow eval]. rewrite Rmult_1_r, Rmult_1_l. apply HM.
    - apply G1; [exact (lit_finite m Hl)|reflexivity|]. cbn [eval]. change (@slit (F32 L) m 0) with (f32_lit m 0). rewrite (lit_exact m Hl).
      unfold ebound. cbn [esize degree pow]. rewrite <- abs_IZR, Rmult_1_r. apply IZR_le. lia.
    - apply G1; [change (finite (f32_ofZ m)); rewrite ofZ_lit; exact (lit_finite m Hl)|reflexivity|]. cbn [eval].
      change (@sofZ (F32 L) m) with (f32_ofZ m). rewrite (ofZ_exact m Hl).
      unfold ebound. cbn [esize degree pow]. rewrite <- abs_IZR, Rmult_1_r. apply IZR_le. lia.
    - apply G1; [reflexivity|reflexivity|]. cbn [eval]. change (@slit (F32 L) 5 (-1)) with (f32_lit 5 (-1)). rewrite b2r_lit_half.
      unfold ebound. cbn [esize degree pow]. rewrite Rabs_pos_eq; lra.
    - exact (SUM (Bplus mode_NE) a b (EAdd a b) (or_introl (conj eq_refl eq_refl)) IHa IHb Hl Hb).
    - exact (SUM (Bminus mode_NE) a b (ESub a b) (or_intror (conj eq_refl eq_refl)) IHa IHb Hl Hb).
    - cbn [lits_ok] in Hl. apply andb_prop in Hl as [La Lb].
      change (roundings (EMul a b)) with (S (roundings a + roundings b)) in *. rewrite ebound_mul in *.
      pose proof (ebound_ge1 a) as A1. pose proof (ebound_ge1 b) as B1.
      assert (PA : ebound a <= ebound a * ebound b). { rewrite <- (Rmult_1_r (ebound a)) at 1. apply Rmult_le_compat_l; lra. }
      assert (PB : ebound b <= ebound a * ebound b). { rewrite <- (Rmult_1_l (ebound b)) at 1. apply Rmult_le_compat_r; lra. }
      destruct IHa as [Fa Ba]; [exact La|eapply SUB; [| | |exact Hb]; try lra; lia|].
      destruct IHb as [Fb Bb]; [exact Lb|eapply SUB; [| | |exact Hb]; try lra; lia|].
      assert (T : Rabs (b2r (eval (F32 L) rho a : f32) * b2r (eval (F32 L) rho b : f32)) <= grow (roundings a + roundings b) * (ebound a * ebound b)).
      { rewrite Rabs_mult, grow_add. replace (grow (roundings a) * grow (roundings b) * (ebound a * ebound b)) with
          ((grow (roundings a) * ebound a) * (grow (roundings b) * ebound b)) by ring.
        apply Rmult_le_compat; auto using Rabs_pos. }
      destruct (small_finite _ (ebound a * ebound b) _ (roundings a + roundings b) ltac:(lra) T (Rle_refl _) Hb) as [T1 T2].
      destruct (mult_ok _ _ Fa Fb T1) as [F E]. cbn [eval]. change (@smul (F32 L)) with (Bmult mode_NE : f32 -> f32 -> f32).
      split; [exact F|now rewrite E].
    - destruct (IHa Hl Hb) as [F B]. cbn [eval]. change (@sneg (F32 L)) with (@Bopp 24 128). split; [now apply finite_opp|].
      rewrite Bopp_b2r, Rabs_Ropp. exact B.
  Qed.
End OVF.

Theorem expression_finite (L : Libm) (rho : nat -> f32) (e : expr) (M : R) :
  lits_ok e = true -> (roundings e <= Pos.to_nat (2 ^ 23))%nat -> 1 <= M ->
  (forall n, finite (rho n)) -> (forall n, Rabs (b2r (rho n)) <= M) ->
  IZR (esize e) * M ^ degree e < IZR (2 ^ 127) -> finite (eval (F32 L) rho e).
Proof.
  intros Hl Hk M1 HF HM Hb. apply (finite_main L rho M M1 HF HM e Hl).
  pose proof (INR_u_small _ Hk) as Hu. pose proof (grow_gam (roundings e) ltac:(lra)) as G. pose proof (gam_le_1 _ Hu).
  pose proof (grow_ge1 (roundings e)). pose proof (ebound_ge1 M M1 e) as E1. fold (ebound M e) in Hb.
  change big with (bpow radix2 128). change (bpow radix2 128) with (IZR (2 * 2 ^ 127)). rewrite mult_IZR.
  apply Rle_lt_trans with (2 * ebound M e); [apply Rmult_le_compat_r; lra|lra].
Qed.

Definition fits_in (c : Z) (d : nat) (e : expr) : bool :=
  lits_ok e && Nat.leb (roundings e) 100 && (esize e <=? c)%Z && Nat.leb (degree e) d.
Lemma all_finite_env l : all_finite l -> forall n, finite (env (B754_zero false : f32) l n).
Proof.
  intros H n. unfold env. destruct (nth_in_or_default n l (B754_zero false)) as [I|E]; [|now rewrite E].
  unfold all_finite in H. rewrite Forall_forall in H. now apply H.
Qed.
Lemma bounded_env' B l : 0 <= B -> bounded_by B l -> forall n, Rabs (b2r (env (B754_zero false : f32) l n)) <= B.
Proof.
  intros P H n. unfold env. destruct (nth_in_or_default n l (B754_zero false)) as [I|E].
  - unfold bounded_by in H. rewrite Forall_forall in H. now apply H.
  - rewrite E. cbn. now rewrite Rabs_R0.
Qed.
Lemma exprs_finite L l es c d : forallb (fits_in c d) es = true ->
  no_overflow (IZR c) d l (map (eval (F32 L) (env (B754_zero false) l)) es).
Proof.
  intros S M M1 F B H. apply Forall_forall. intros x Hx. apply in_map_iff in Hx as [e [<- He]].
  rewrite forallb_forall in S. specialize (S e He). unfold fits_in in S. repeat (apply andb_prop in S as [S ?]).
  apply Nat.leb_le in H0, H2. apply Z.leb_le in H1.
  apply (expression_finite L _ e M); trivial.
  - lia.
  - now apply all_finite_env.
  - apply bounded_env'; [lra|exact B].
  - eapply Rle_lt_trans; [|exact H]. apply Rmult_le_compat.
    + apply IZR_le. pose proof (esize_pos e). lia.
    + apply pow_le; lra.
    + now apply IZR_le.
    + now apply Rle_pow.
Qed.
