(** * Rounding error of an arbitrary expression *)
From Coq Require Import ZArith Bool Reals List Lra Lia Psatz.
From Flocq Require Import Core IEEE754.BinarySingleNaN.
From Verif Require Import Scalar IEEE32 RealInst FloatBasics FloatOps SpecF32 NumLib SpecMat SpecErr ErrExpr.
Import ListNotations.
Local Open Scope R_scope.

Lemma u32_ulp : u32 = ulp_half. Proof. reflexivity. Qed.
Lemma eta_tiny : eta32 = tiny / 2.
Proof.
  unfold eta32, tiny. change (IZR (2 ^ 149)) with (bpow radix2 149). change (-150)%Z with (-149 + -1)%Z.
  rewrite bpow_plus. change (bpow radix2 (-149)) with (/ bpow radix2 149). reflexivity.
Qed.
Lemma u_pos : 0 < u32. Proof. apply bpow_gt_0. Qed.
Lemma eta_pos : 0 < eta32. Proof. apply bpow_gt_0. Qed.
Lemma eta_le1 : eta32 <= 1. Proof. change 1 with (bpow radix2 0). apply bpow_le. lia. Qed.
Lemma tiny_pos : 0 < tiny. Proof. apply Rinv_0_lt_compat. now apply IZR_lt. Qed.

Definition grow (k : nat) : R := (1 + u32) ^ k.
Lemma grow_ge1 k : 1 <= grow k. Proof. apply pow_R1_Rle. pose proof u_pos; lra. Qed.
Lemma grow_S k : grow (S k) = (1 + u32) * grow k. Proof. reflexivity. Qed.
Lemma grow_add a b : grow (a + b) = grow a * grow b. Proof. apply pow_add. Qed.
Lemma grow_mono a b : (a <= b)%nat -> grow a <= grow b.
Proof. intros. apply Rle_pow; [pose proof u_pos; lra|assumption]. Qed.

(** the underflow term *)
Fixpoint uerr (r : nat -> R) (e : expr) : R :=
  match e with
  | EVar _ | ELit _ | EInt _ | EHalf => 0
  | EAdd a b | ESub a b => (1 + u32) * (uerr r a + uerr r b)
  | EMul a b => (1 + u32) * (grow (roundings a) * magnitude r a * uerr r b + grow (roundings b) * magnitude r b * uerr r a + uerr r a * uerr r b) + eta32
  | ENeg a => uerr r a
  end.
Lemma magnitude_pos r e : 0 <= magnitude r e.
Proof. induction e; cbn; try apply Rabs_pos; try lra. now apply Rmult_le_pos. Qed.
Lemma uerr_pos r e : 0 <= uerr r e.
Proof.
  pose proof u_pos. pose proof eta_pos. induction e; cbn -[u32 eta32]; try lra; try (apply Rmult_le_pos; lra).
  pose proof (magnitude_pos r e1). pose proof (magnitude_pos r e2).
  pose proof (grow_ge1 (roundings e1)). pose proof (grow_ge1 (roundings e2)).
  apply Rplus_le_le_0_compat; [|lra]. apply Rmult_le_pos; [lra|].
  apply Rplus_le_le_0_compat; [apply Rplus_le_le_0_compat|]; repeat apply Rmult_le_pos; lra.
Qed.
Lemma value_le_magnitude r e : Rabs (eval RS r e) <= magnitude r e.
Proof.
  induction e; cbn [eval magnitude]; try apply Rle_refl.
  - change (@slit RS 5 (-1)) with (5 / 10). rewrite Rabs_right; lra.
  - eapply Rle_trans; [apply Rabs_triang|]. now apply Rplus_le_compat.
  - eapply Rle_trans; [apply Rabs_triang|]. rewrite Rabs_Ropp. now apply Rplus_le_compat.
  - eapply Rle_trans; [apply Req_le, Rabs_mult|]. apply Rmult_le_compat; auto using Rabs_pos.
  - eapply Rle_trans; [apply Req_le, Rabs_Ropp|]. assumption.
Qed.

(** one rounded operation *)
Lemma step_sum x X k M U y eps : Rabs (x - X) <= (grow k - 1) * M + U -> Rabs X <= M -> Rabs eps <= u32 ->
  y = x * (1 + eps) -> 0 <= U -> Rabs (y - X) <= (grow (S k) - 1) * M + (1 + u32) * U.
Proof.
  intros H HX He -> HU. replace (x * (1 + eps) - X) with ((x - X) * (1 + eps) + X * eps) by ring.
  eapply Rle_trans; [apply Rabs_triang|]. rewrite !Rabs_mult.
  assert (Rabs (1 + eps) <= 1 + u32).
  { eapply Rle_trans; [apply Rabs_triang|]. rewrite Rabs_R1. lra. }
  assert (A : Rabs (x - X) * Rabs (1 + eps) <= ((grow k - 1) * M + U) * (1 + u32)) by (apply Rmult_le_compat; auto using Rabs_pos).
  assert (B : Rabs X * Rabs eps <= M * u32) by (apply Rmult_le_compat; auto using Rabs_pos).
  rewrite grow_S. nra.
Qed.
Lemma prod_err a A b B ka kb Ma Mb Ua Ub :
  Rabs (a - A) <= (grow ka - 1) * Ma + Ua -> Rabs (b - B) <= (grow kb - 1) * Mb + Ub ->
  Rabs A <= Ma -> Rabs B <= Mb -> 0 <= Ua -> 0 <= Ub -> 0 <= Ma -> 0 <= Mb ->
  Rabs (a * b - A * B) <= (grow (ka + kb) - 1) * (Ma * Mb) + (grow ka * Ma * Ub + grow kb * Mb * Ua + Ua * Ub).
Proof.
  intros Ha Hb HA HB PUa PUb PMa PMb. rewrite grow_add. pose proof (grow_ge1 ka). pose proof (grow_ge1 kb).
  set (ga := grow ka) in *. set (gb := grow kb) in *.
  replace (a * b - A * B) with ((a - A) * (b - B) + (a - A) * B + A * (b - B)) by ring.
  eapply Rle_trans; [apply Rabs_triang|]. eapply Rle_trans; [apply Rplus_le_compat_r, Rabs_triang|]. rewrite !Rabs_mult.
  set (Ea := (ga - 1) * Ma + Ua) in *. set (Eb := (gb - 1) * Mb + Ub) in *.
  assert (0 <= Ea) by (eapply Rle_trans; [apply Rabs_pos|exact Ha]).
  assert (Rabs (a - A) * Rabs (b - B) <= Ea * Eb) by (apply Rmult_le_compat; auto using Rabs_pos).
  assert (Rabs (a - A) * Rabs B <= Ea * Mb) by (apply Rmult_le_compat; auto using Rabs_pos).
  assert (Rabs A * Rabs (b - B) <= Ma * Eb) by (apply Rmult_le_compat; auto using Rabs_pos).
  eapply Rle_trans; [apply Rplus_le_compat; [apply Rplus_le_compat; eassumption|eassumption]|].
  apply Req_le. unfold Ea, Eb. ring.
Qed.
Lemma step_prod x X k M U y eps eta : Rabs (x - X) <= (grow k - 1) * M + U -> Rabs X <= M -> Rabs eps <= u32 -> Rabs eta <= eta32 ->
  y = x * (1 + eps) + eta -> 0 <= U -> Rabs (y - X) <= (grow (S k) - 1) * M + ((1 + u32) * U + eta32).
Proof.
  intros H HX He Ht -> HU. replace (x * (1 + eps) + eta - X) with ((x * (1 + eps) - X) + eta) by ring.
  eapply Rle_trans; [apply Rabs_triang|]. rewrite <- Rplus_assoc. apply Rplus_le_compat; [|assumption].
  eapply step_sum; eauto.
Qed.
Lemma widen x X k k' M U : (k <= k')%nat -> 0 <= M -> Rabs (x - X) <= (grow k - 1) * M + U -> Rabs (x - X) <= (grow k' - 1) * M + U.
Proof.
  intros Hk HM H. eapply Rle_trans; [exact H|]. apply Rplus_le_compat_r, Rmult_le_compat_r; [assumption|]. pose proof (grow_mono k k' Hk). lra.
Qed.

Lemma lit_exact m : (Z.abs m <=? 2 ^ 24)%Z = true -> b2r (f32_lit m 0) = IZR m.
Proof.
  intros H. apply Z.leb_le in H.
  assert (E : rnd (IZR m) = IZR m) by (apply rnd_id, fmt_Z; exact H).
  assert (B : Rabs (rnd (Rlit m 0)) < big).
  { change (Rlit m 0) with (IZR m). rewrite E. rewrite <- abs_IZR.
    apply Rle_lt_trans with (IZR (2 ^ 24)); [now apply IZR_le|].
    change (bpow radix2 24 < bpow radix2 128). apply bpow_lt. reflexivity. }
  destruct (lit_rnd m 0 (Z.le_refl 0) B) as [_ R]. rewrite R. exact E.
Qed.

Lemma ofZ_exact m : (Z.abs m <=? 2 ^ 24)%Z = true -> b2r (f32_ofZ m) = IZR m.
Proof.
  intros H. rewrite <- lit_exact by exact H. destruct m; [reflexivity| |]; unfold f32_lit; now rewrite Z.mul_1_r.
Qed.
Lemma sum_err a b A B g Ma Mb Ua Ub : Rabs (a - A) <= g * Ma + Ua -> Rabs (b - B) <= g * Mb + Ub ->
  Rabs (a + b - (A + B)) <= g * (Ma + Mb) + (Ua + Ub).
Proof.
  intros. replace (a + b - (A + B)) with ((a - A) + (b - B)) by ring. eapply Rle_trans; [apply Rabs_triang|]. lra.
Qed.
Lemma diff_err a b A B g Ma Mb Ua Ub : Rabs (a - A) <= g * Ma + Ua -> Rabs (b - B) <= g * Mb + Ub ->
  Rabs (a - b - (A - B)) <= g * (Ma + Mb) + (Ua + Ub).
Proof.
  intros. replace (a - b - (A - B)) with ((a - A) + - (b - B)) by ring. eapply Rle_trans; [apply Rabs_triang|]. rewrite Rabs_Ropp. lra.
Qed.
Lemma neg_err a A E : Rabs (a - A) <= E -> Rabs (- a - - A) <= E.
Proof. intros. replace (- a - - A) with (- (a - A)) by ring. now rewrite Rabs_Ropp. Qed.

Section MAIN.
  Variable L : Libm.
  Variable rho : nat -> f32.
  Let r : nat -> R := fun n => b2r (rho n).

  Lemma err_main e : lits_ok e = true -> finite (eval (F32 L) rho e) ->
    Rabs (b2r (eval (F32 L) rho e) - eval RS r e) <= (grow (roundings e) - 1) * magnitude r e + uerr r e.
  Proof.
    assert (Z0 : forall a m : R, Rabs (a - a) <= (grow 0 - 1) * m + 0).
    { intros a m. unfold grow. cbn. rewrite Rminus_diag_eq, Rabs_R0 by reflexivity. lra. }
    induction e as [n|m|m| |a IHa b IHb|a IHa b IHb|a IHa b IHb|a IHa]; cbn [lits_ok eval roundings magnitude uerr]; intros Hl F.
    - apply Z0.
    - change (b2r (eval (F32 L) rho (ELit m))) with (b2r (f32_lit m 0)).
      change (@slit (F32 L) m 0) with (f32_lit m 0). rewrite lit_exact by exact Hl. apply Z0.
    - change (@sofZ (F32 L) m) with (f32_ofZ m). rewrite ofZ_exact by exact Hl. apply Z0.
    - change (@slit (F32 L) 5 (-1)) with (f32_lit 5 (-1)). rewrite b2r_lit_half.
      change (@slit RS 5 (-1)) with (5 / 10). replace (5 / 10) with (/ 2) by lra. apply Z0.
    - apply andb_prop in Hl as [La Lb].
      change (finite (Bplus mode_NE (eval (F32 L) rho a : f32) (eval (F32 L) rho b))) in F.
      change (@sadd (F32 L)) with (Bplus mode_NE : f32 -> f32 -> f32).
      apply plus_inv in F as [Fa [Fb E]].
      specialize (IHa La Fa). specialize (IHb Lb Fb).
      destruct (rnd_plus_error (eval (F32 L) rho a) (eval (F32 L) rho b)) as [eps [He Hr]].
      set (ma := magnitude r a) in *. set (mb := magnitude r b) in *.
      apply (widen _ _ _ (Nat.max (roundings a) (roundings b)) _ _ (Nat.le_max_l _ _) (magnitude_pos r a)) in IHa.
      apply (widen _ _ _ (Nat.max (roundings a) (roundings b)) _ _ (Nat.le_max_r _ _) (magnitude_pos r b)) in IHb.
      apply (step_sum (b2r (eval (F32 L) rho a : f32) + b2r (eval (F32 L) rho b : f32)) (eval RS r a + eval RS r b) _ _ _ _ eps); [| |exact He|now rewrite E|].
      + now apply sum_err.
      + apply (value_le_magnitude r (EAdd a b)).
      + pose proof (uerr_pos r a); pose proof (uerr_pos r b); lra.
    - apply andb_prop in Hl as [La Lb].
      change (finite (Bminus mode_NE (eval (F32 L) rho a : f32) (eval (F32 L) rho b))) in F.
      change (@ssub (F32 L)) with (Bminus mode_NE : f32 -> f32 -> f32).
      apply minus_inv in F as [Fa [Fb E]].
      specialize (IHa La Fa). specialize (IHb Lb Fb).
      destruct (rnd_plus_error (eval (F32 L) rho a) (Bopp (eval (F32 L) rho b))) as [eps [He Hr]]. rewrite Bopp_b2r in Hr.
      apply (widen _ _ _ (Nat.max (roundings a) (roundings b)) _ _ (Nat.le_max_l _ _) (magnitude_pos r a)) in IHa.
      apply (widen _ _ _ (Nat.max (roundings a) (roundings b)) _ _ (Nat.le_max_r _ _) (magnitude_pos r b)) in IHb.
      apply (step_sum (b2r (eval (F32 L) rho a : f32) - b2r (eval (F32 L) rho b : f32)) (eval RS r a - eval RS r b) _ _ _ _ eps); [| |exact He|now rewrite E|].
      + now apply diff_err.
      + apply (value_le_magnitude r (ESub a b)).
      + pose proof (uerr_pos r a); pose proof (uerr_pos r b); lra.
    - apply andb_prop in Hl as [La Lb].
      change (finite (Bmult mode_NE (eval (F32 L) rho a : f32) (eval (F32 L) rho b))) in F.
      change (@smul (F32 L)) with (Bmult mode_NE : f32 -> f32 -> f32).
      apply mult_inv in F as [Fa [Fb E]].
      specialize (IHa La Fa). specialize (IHb Lb Fb).
      destruct (rnd_error (b2r (eval (F32 L) rho a : f32) * b2r (eval (F32 L) rho b : f32))) as [eps [eta [He [Ht [_ Hr]]]]].
      pose proof (uerr_pos r a); pose proof (uerr_pos r b). pose proof (magnitude_pos r a). pose proof (magnitude_pos r b).
      apply (step_prod (b2r (eval (F32 L) rho a : f32) * b2r (eval (F32 L) rho b : f32)) (eval RS r a * eval RS r b) _ _ _ _ eps eta);
        [| |exact He|exact Ht|now rewrite E|].
      + apply prod_err; try assumption; apply value_le_magnitude.
      + apply (value_le_magnitude r (EMul a b)).
      + pose proof (grow_ge1 (roundings a)). pose proof (grow_ge1 (roundings b)).
        apply Rplus_le_le_0_compat; [apply Rplus_le_le_0_compat|]; repeat apply Rmult_le_pos; lra.
    - change (@sneg (F32 L)) with (@Bopp 24 128). change (@sneg RS) with Ropp.
      change (is_finite (Bopp (eval (F32 L) rho a : f32)) = true) in F. rewrite is_finite_Bopp in F.
      rewrite Bopp_b2r. apply neg_err. now apply IHa.
  Qed.
End MAIN.

(** ** Closed forms of the two terms *)
Lemma grow_gam k : INR k * u32 < 1 -> grow k - 1 <= gam k.
Proof.
  intros H. unfold gam. rewrite <- u32_ulp. set (t := INR k * u32) in *.
  assert (P : (1 - t) * grow k <= 1).
  { unfold t. clear t H. induction k as [|k IH]; [cbn; lra|].
    rewrite S_INR, grow_S. pose proof u_pos. pose proof (grow_ge1 k). pose proof (pos_INR k).
    replace ((1 - (INR k + 1) * u32) * ((1 + u32) * grow k)) with
      ((1 - INR k * u32) * grow k - (INR k + 1) * (u32 * u32) * grow k) by ring.
    assert (0 <= (INR k + 1) * (u32 * u32) * grow k) by (repeat apply Rmult_le_pos; lra). lra. }
  apply Rmult_le_reg_r with (1 - t); [lra|]. unfold Rdiv. rewrite Rmult_assoc, Rinv_l by lra. lra.
Qed.
Lemma INR_u_small k : (k <= Pos.to_nat (2 ^ 23))%nat -> INR k * u32 <= / 2.
Proof.
  intros H. apply le_INR in H. rewrite INR_IPR in H. change (IPR (2 ^ 23)) with (IZR (2 ^ 23)) in H.
  change u32 with (/ IZR (2 ^ 24)). change (IZR (2 ^ 24)) with (IZR (2 * 2 ^ 23)). rewrite mult_IZR.
  assert (0 < IZR (2 ^ 23)) by now apply IZR_lt.
  rewrite Rinv_mult. assert (INR k * / IZR (2 ^ 23) <= 1).
  { apply Rmult_le_reg_r with (IZR (2 ^ 23)); [assumption|]. rewrite Rmult_assoc, Rinv_l; lra. }
  nra.
Qed.
Lemma gam_le_1 k : INR k * u32 <= / 2 -> gam k <= 1.
Proof.
  intros H. unfold gam. rewrite <- u32_ulp. apply Rmult_le_reg_r with (1 - INR k * u32); [lra|].
  unfold Rdiv. rewrite Rmult_assoc, Rinv_l; lra.
Qed.

Section UBOUND.
  Variable r : nat -> R.
  Variable M : R.
  Hypothesis M1 : 1 <= M.
  Hypothesis HM : forall n, Rabs (r n) <= M.
  Lemma Mpow_pos k : 0 < M ^ k. Proof. apply pow_lt; lra. Qed.
  Lemma Mpow_mono a b : (a <= b)%nat -> M ^ a <= M ^ b. Proof. intros. now apply Rle_pow. Qed.
  Lemma coeffs_pos e : (0 <= coeffs e)%Z.
  Proof. induction e; cbn; lia. Qed.
  Lemma uweight_pos e : (0 <= uweight e)%Z.
  Proof. induction e; cbn; try lia. pose proof (coeffs_pos e1). pose proof (coeffs_pos e2). nia. Qed.
  Lemma udegree_le e : (udegree e <= degree e)%nat.
  Proof. induction e; cbn [udegree degree]; try lia. destruct (Z.eqb_spec (uweight e2) 0), (Z.eqb_spec (uweight e1) 0); lia. Qed.
  Lemma magnitude_bound e : magnitude r e <= IZR (coeffs e) * M ^ degree e.
  Proof.
    assert (SUM : forall a b x y, magnitude r a <= IZR (coeffs a) * M ^ x -> magnitude r b <= IZR (coeffs b) * M ^ y ->
      magnitude r a + magnitude r b <= IZR (coeffs a + coeffs b) * M ^ Nat.max x y).
    { intros a b x y Ha Hb. rewrite plus_IZR, Rmult_plus_distr_r.
      pose proof (IZR_le _ _ (coeffs_pos a)). pose proof (IZR_le _ _ (coeffs_pos b)).
      apply Rplus_le_compat; (eapply Rle_trans; [eassumption|]); (apply Rmult_le_compat_l; [assumption|]); apply Mpow_mono; lia. }
    induction e; cbn [magnitude coeffs degree].
    - cbn [pow]. rewrite Rmult_1_r, Rmult_1_l. apply HM.
    - cbn [pow]. rewrite abs_IZR. lra.
    - cbn [pow]. rewrite abs_IZR. lra.
    - cbn [pow]. lra.
    - now apply SUM.
    - now apply SUM.
    - rewrite mult_IZR, pow_add. replace (IZR (coeffs e1) * IZR (coeffs e2) * (M ^ degree e1 * M ^ degree e2)) with
        ((IZR (coeffs e1) * M ^ degree e1) * (IZR (coeffs e2) * M ^ degree e2)) by ring.
      apply Rmult_le_compat; auto using magnitude_pos.
    - assumption.
  Qed.
  Lemma uerr_bound e : uerr r e <= grow (roundings e) * eta32 * (IZR (uweight e) * M ^ udegree e).
  Proof.
    pose proof eta_pos as EP. pose proof u_pos as UP.
    assert (SUM : forall a b, uerr r a <= grow (roundings a) * eta32 * (IZR (uweight a) * M ^ udegree a) ->
      uerr r b <= grow (roundings b) * eta32 * (IZR (uweight b) * M ^ udegree b) ->
      (1 + u32) * (uerr r a + uerr r b) <= grow (S (Nat.max (roundings a) (roundings b))) * eta32 *
        (IZR (uweight a + uweight b) * M ^ Nat.max (udegree a) (udegree b))).
    { intros a b Ha Hb. rewrite grow_S. set (k := Nat.max (roundings a) (roundings b)). set (d := Nat.max (udegree a) (udegree b)).
      assert (X : forall c, uerr r c <= grow (roundings c) * eta32 * (IZR (uweight c) * M ^ udegree c) ->
        (roundings c <= k)%nat -> (udegree c <= d)%nat -> uerr r c <= grow k * eta32 * (IZR (uweight c) * M ^ d)).
      { intros c Hc Kc Dc. eapply Rle_trans; [exact Hc|]. pose proof (IZR_le _ _ (uweight_pos c)). pose proof (Mpow_pos (udegree c)).
        pose proof (grow_ge1 (roundings c)).
        apply Rmult_le_compat; [apply Rmult_le_pos; lra|apply Rmult_le_pos; lra| |].
        - apply Rmult_le_compat_r; [lra|now apply grow_mono].
        - apply Rmult_le_compat_l; [assumption|now apply Mpow_mono]. }
      apply X in Ha; [|lia|lia]. apply X in Hb; [|lia|lia]. rewrite plus_IZR.
      replace ((1 + u32) * grow k * eta32 * ((IZR (uweight a) + IZR (uweight b)) * M ^ d)) with
        ((1 + u32) * (grow k * eta32 * (IZR (uweight a) * M ^ d) + grow k * eta32 * (IZR (uweight b) * M ^ d))) by ring.
      apply Rmult_le_compat_l; lra. }
    induction e; cbn [uerr roundings uweight udegree]; try (rewrite Rmult_0_l, Rmult_0_r; lra); try (now apply SUM); [|assumption].
    rename e1 into a, e2 into b. rewrite grow_S, grow_add.
    set (D := Nat.max _ _). pose proof (magnitude_bound a) as MA. pose proof (magnitude_bound b) as MB.
    pose proof (magnitude_pos r a). pose proof (magnitude_pos r b). pose proof (uerr_pos r a). pose proof (uerr_pos r b).
    pose proof (IZR_le _ _ (uweight_pos a)) as WA. pose proof (IZR_le _ _ (uweight_pos b)) as WB.
    pose proof (IZR_le _ _ (coeffs_pos a)) as CA. pose proof (IZR_le _ _ (coeffs_pos b)) as CB.
    pose proof (grow_ge1 (roundings a)) as GA. pose proof (grow_ge1 (roundings b)) as GB.
    set (ga := grow (roundings a)) in *. set (gb := grow (roundings b)) in *.
    assert (PD : 0 < M ^ D) by apply Mpow_pos.
    (* the two cross terms *)
    assert (T : forall ma ca da gx ux wx dx gy, ma <= ca * M ^ da -> 0 <= ma -> 0 <= ca -> 1 <= gx -> 1 <= gy ->
      0 <= ux -> ux <= gx * eta32 * (IZR wx * M ^ dx) -> (0 <= wx)%Z ->
      ((if (wx =? 0)%Z then 0 else da + dx) <= D)%nat ->
      gy * ma * ux <= (gx * gy * eta32) * ((ca * IZR wx) * M ^ D)).
    { intros ma ca da gx ux wx dx gy Hm Pm Pc Gx Gy Px Hu Pw HD.
      destruct (Z.eqb_spec wx 0) as [->|N].
      - rewrite Rmult_0_l, Rmult_0_r in Hu. replace ux with 0 by lra. rewrite !Rmult_0_r, Rmult_0_l. lra.
      - apply Rle_trans with (gy * (ca * M ^ da) * (gx * eta32 * (IZR wx * M ^ dx))).
        + apply Rmult_le_compat; trivial; [apply Rmult_le_pos; lra|]. apply Rmult_le_compat_l; lra.
        + apply IZR_le in Pw.
          replace (gy * (ca * M ^ da) * (gx * eta32 * (IZR wx * M ^ dx))) with (gx * gy * eta32 * ((ca * IZR wx) * (M ^ da * M ^ dx))) by ring.
          rewrite <- pow_add. apply Rmult_le_compat_l; [repeat apply Rmult_le_pos; lra|].
          apply Rmult_le_compat_l; [now apply Rmult_le_pos|]. now apply Mpow_mono. }
    pose proof (T _ _ _ _ _ _ _ _ MA H CA GB GA H2 IHe2 (uweight_pos b) (Nat.le_max_l _ _)) as T1.
    pose proof (T _ _ _ _ _ _ _ _ MB H0 CB GA GB H1 IHe1 (uweight_pos a) (Nat.le_max_r _ _)) as T2.
    assert (T3 : uerr r a * uerr r b <= ga * gb * eta32 * ((IZR (uweight a) * IZR (uweight b)) * M ^ D)).
    { destruct (Z.eqb_spec (uweight b) 0) as [Z|N].
      { rewrite Z in IHe2 |- *. rewrite Rmult_0_l, Rmult_0_r in IHe2. replace (uerr r b) with 0 by lra. rewrite !Rmult_0_r, Rmult_0_l. lra. }
      destruct (Z.eqb_spec (uweight a) 0) as [Z|N'].
      { rewrite Z in IHe1 |- *. rewrite Rmult_0_l, Rmult_0_r in IHe1. replace (uerr r a) with 0 by lra. rewrite !Rmult_0_l, Rmult_0_r. lra. }
      assert (DD : (udegree a + udegree b <= D)%nat).
      { pose proof (udegree_le a).
        unfold D. destruct (Z.eqb_spec (uweight b) 0); [contradiction|]. lia. }
      apply Rle_trans with ((ga * eta32 * (IZR (uweight a) * M ^ udegree a)) * (gb * eta32 * (IZR (uweight b) * M ^ udegree b))).
      { apply Rmult_le_compat; assumption. }
      replace ((ga * eta32 * (IZR (uweight a) * M ^ udegree a)) * (gb * eta32 * (IZR (uweight b) * M ^ udegree b))) with
        ((ga * gb * eta32) * ((eta32 * (IZR (uweight a) * IZR (uweight b))) * (M ^ udegree a * M ^ udegree b))) by ring.
      rewrite <- pow_add. apply Rmult_le_compat_l; [repeat apply Rmult_le_pos; lra|].
      assert (0 <= IZR (uweight a) * IZR (uweight b)) by now apply Rmult_le_pos.
      apply Rmult_le_compat; [apply Rmult_le_pos; lra|left; apply Mpow_pos| |now apply Mpow_mono].
      pose proof eta_le1. rewrite <- (Rmult_1_l (IZR (uweight a) * IZR (uweight b))) at 2. now apply Rmult_le_compat_r. }
    rewrite !plus_IZR, !mult_IZR. set (P := ga * gb) in *.
    assert (1 <= P). { unfold P. replace 1 with (1 * 1) by ring. apply Rmult_le_compat; lra. }
    assert (1 <= M ^ D) by now apply pow_R1_Rle.
    assert (T4 : eta32 <= (1 + u32) * (P * eta32 * (1 * M ^ D))).
    { apply Rle_trans with (1 * (1 * eta32 * (1 * 1))); [lra|].
      apply Rmult_le_compat; try lra. apply Rmult_le_compat; try lra. apply Rmult_le_compat; lra. }
    assert (gb * ga = P) as E by (unfold P; ring). rewrite E in T1.
    apply Rle_trans with ((1 + u32) * (P * eta32 * (IZR (coeffs a) * IZR (uweight b) * M ^ D) + P * eta32 * (IZR (coeffs b) * IZR (uweight a) * M ^ D)
      + P * eta32 * (IZR (uweight a) * IZR (uweight b) * M ^ D)) + (1 + u32) * (P * eta32 * (1 * M ^ D))).
    { apply Rplus_le_compat; [|exact T4]. apply Rmult_le_compat_l; lra. }
    apply Req_le. ring.
  Qed.
End UBOUND.

(** ** The theorem *)
Theorem expression_error (L : Libm) (rho : nat -> f32) (e : expr) (M : R) :
  lits_ok e = true -> (roundings e <= Pos.to_nat (2 ^ 23))%nat -> 1 <= M -> (forall n, Rabs (b2r (rho n)) <= M) ->
  finite (eval (F32 L) rho e) ->
  Rabs (b2r (eval (F32 L) rho e) - eval RS (fun n => b2r (rho n)) e) <=
    gam (roundings e) * magnitude (fun n => b2r (rho n)) e + IZR (uweight e) * M ^ udegree e * tiny.
Proof.
  intros Hl Hk M1 HM F. eapply Rle_trans; [now apply err_main|].
  pose proof (INR_u_small _ Hk) as Hu. pose proof (grow_gam (roundings e) ltac:(lra)) as G. pose proof (gam_le_1 _ Hu).
  apply Rplus_le_compat.
  - apply Rmult_le_compat_r; [apply magnitude_pos|exact G].
  - eapply Rle_trans; [now apply (uerr_bound _ M)|]. rewrite eta_tiny. pose proof tiny_pos.
    assert (0 <= IZR (uweight e) * M ^ udegree e).
    { apply Rmult_le_pos; [apply IZR_le, uweight_pos|left; now apply Mpow_pos]. }
    rewrite (Rmult_comm _ tiny). apply Rmult_le_compat_r; [assumption|]. nra.
Qed.
(** without products of products no bound on the inputs is needed *)
Theorem expression_error_flat (L : Libm) (rho : nat -> f32) (e : expr) :
  lits_ok e = true -> (roundings e <= Pos.to_nat (2 ^ 23))%nat -> udegree e = 0%nat ->
  finite (eval (F32 L) rho e) ->
  (exists B, forall n, Rabs (b2r (rho n)) <= B) ->
  Rabs (b2r (eval (F32 L) rho e) - eval RS (fun n => b2r (rho n)) e) <=
    gam (roundings e) * magnitude (fun n => b2r (rho n)) e + IZR (uweight e) * tiny.
Proof.
  intros Hl Hk HD F [B HB]. pose proof (expression_error L rho e (Rmax 1 B) Hl Hk (Rmax_l _ _)) as H.
  rewrite HD in H. cbn [pow] in H. rewrite Rmult_1_r in H. apply H; [|assumption].
  intros n. eapply Rle_trans; [apply HB|apply Rmax_r].
Qed.

(** ** Lists of expressions over a list of inputs *)
Definition env {A} (d : A) (l : list A) (n : nat) : A := nth n l d.
Lemma env_vals l n : b2r (env (B754_zero false : f32) l n) = env 0 (vals l) n.
Proof. unfold env, vals. change 0 with ((fun x : f32 => b2r x) (B754_zero false)). now rewrite map_nth. Qed.
Lemma env_bounded l : exists B, forall n, Rabs (b2r (env (B754_zero false : f32) l n)) <= B.
Proof.
  induction l as [|x l [B HB]].
  - exists 0. intros [|n]; cbn; rewrite Rabs_R0; apply Rle_refl.
  - exists (Rmax (Rabs (b2r x)) B). intros [|n]; [apply Rmax_l|]. eapply Rle_trans; [apply HB|apply Rmax_r].
Qed.
Lemma eval_ext (S : Scalar) (r r' : nat -> S) e : (forall n, r n = r' n) -> eval S r e = eval S r' e.
Proof. intros H. induction e; cbn; auto; try (now rewrite IHe1, IHe2). now rewrite IHe. Qed.
Lemma magnitude_ext r r' e : (forall n, r n = r' n) -> magnitude r e = magnitude r' e.
Proof. intros H. induction e; cbn; auto; try (now rewrite IHe1, IHe2). now rewrite H. Qed.
Lemma magnitude_mono r r' e : (forall n, Rabs (r n) <= r' n) -> magnitude r e <= magnitude r' e.
Proof.
  intros H. induction e; cbn [magnitude]; auto using Rle_refl.
  - eapply Rle_trans; [apply H|apply Rle_abs].
  - now apply Rplus_le_compat.
  - now apply Rplus_le_compat.
  - apply Rmult_le_compat; auto using magnitude_pos.
Qed.

Definition shape (k : nat) (w : Z) (d : nat) (e : expr) : bool :=
  lits_ok e && (Nat.leb (roundings e) k) && (uweight e <=? w)%Z && (Nat.leb (udegree e) d).
Lemma gam_mono k k' : (k <= k')%nat -> INR k' * u32 < 1 -> gam k <= gam k'.
Proof.
  intros H H'. unfold gam. rewrite <- u32_ulp. apply le_INR in H. pose proof u_pos. pose proof (pos_INR k).
  assert (INR k * u32 <= INR k' * u32) by (apply Rmult_le_compat_r; lra).
  apply Rmult_le_compat; [apply Rmult_le_pos; lra| |lra|].
  - left. apply Rinv_0_lt_compat. lra.
  - apply Rinv_le_contravar; lra.
Qed.
Lemma expr_near L l e k w d M : shape k w d e = true -> (k <= 100)%nat -> 1 <= M ->
  (forall n, Rabs (env 0 (vals l) n) <= M) ->
  finite (eval (F32 L) (env (B754_zero false) l) e) ->
  near k (IZR w * M ^ d * tiny) (eval (F32 L) (env (B754_zero false) l) e) (eval RS (env 0 (vals l)) e) (magnitude (env 0 (vals l)) e).
Proof.
  intros S K M1 HM F. unfold shape in S. repeat (apply andb_prop in S as [S ?]).
  rename H into Hd, H0 into Hw, H1 into Hk. apply Nat.leb_le in Hk, Hd. apply Z.leb_le in Hw.
  assert (KB : (k <= Pos.to_nat (2 ^ 23))%nat) by lia.
  unfold near.
  rewrite <- (eval_ext RS _ (env 0 (vals l)) e (env_vals l)), <- (magnitude_ext _ (env 0 (vals l)) e (env_vals l)).
  eapply Rle_trans; [apply (expression_error L _ e M S)|].
  - lia.
  - exact M1.
  - intros n. rewrite env_vals. apply HM.
  - exact F.
  - apply Rplus_le_compat.
    + apply Rmult_le_compat_r; [apply magnitude_pos|]. apply gam_mono; [assumption|]. pose proof (INR_u_small k KB). lra.
    + apply Rmult_le_compat_r; [left; apply tiny_pos|]. apply Rmult_le_compat.
      * apply IZR_le, uweight_pos.
      * left. now apply Mpow_pos.
      * now apply IZR_le.
      * now apply Mpow_mono.
Qed.
Lemma nears_exprs L l es k w d M : forallb (shape k w d) es = true -> (k <= 100)%nat -> 1 <= M ->
  (forall n, Rabs (env 0 (vals l) n) <= M) ->
  all_finite (map (eval (F32 L) (env (B754_zero false) l)) es) ->
  nears k (IZR w * M ^ d * tiny) (map (eval (F32 L) (env (B754_zero false) l)) es) (map (eval RS (env 0 (vals l))) es)
    (map (magnitude (env 0 (vals l))) es).
Proof.
  intros S K M1 HM. induction es as [|e es IH]; cbn [map nears]; [trivial|]. intros F.
  cbn [forallb] in S. apply andb_prop in S as [S1 S2]. apply Forall_cons_iff in F as [F1 F2].
  split; [now apply expr_near|now apply IH].
Qed.
(** no bound needed when there is no product of products *)
Lemma nears_flat L l es k w : forallb (shape k w 0) es = true -> (k <= 100)%nat ->
  all_finite (map (eval (F32 L) (env (B754_zero false) l)) es) ->
  nears k (IZR w * tiny) (map (eval (F32 L) (env (B754_zero false) l)) es) (map (eval RS (env 0 (vals l))) es)
    (map (magnitude (env 0 (vals l))) es).
Proof.
  intros S K F. destruct (env_bounded l) as [B HB].
  pose proof (nears_exprs L l es k w 0 (Rmax 1 B) S K (Rmax_l _ _)) as H. cbn [pow] in H. rewrite Rmult_1_r in H.
  apply H; [|exact F]. intros n. rewrite <- env_vals. eapply Rle_trans; [apply HB|apply Rmax_r].
Qed.
Lemma near_flat L l e k w : shape k w 0 e = true -> (k <= 100)%nat ->
  finite (eval (F32 L) (env (B754_zero false) l) e) ->
  near k (IZR w * tiny) (eval (F32 L) (env (B754_zero false) l) e) (eval RS (env 0 (vals l)) e) (magnitude (env 0 (vals l)) e).
Proof.
  intros S K F. destruct (nears_flat L l [e] k w) as [H _]; cbn; auto.
  - now rewrite S.
  - now apply Forall_cons.
Qed.
