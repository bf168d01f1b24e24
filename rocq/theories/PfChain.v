(** * Proofs: chains of operations in binary32 *)
From Coq Require Import ZArith Bool Reals List Lra Lia.
From Flocq Require Import Core IEEE754.BinarySingleNaN.
From Verif Require Import Scalar IEEE32 RealInst Types Outcome Spec SpecR SpecMat SpecGeo SpecF32 SpecErr SpecChain FloatBasics FloatOps
  ModelVec ModelMat ModelGeom ModelQuat ModelQuaternion ErrExpr ErrLib.
Import ListNotations.
Local Open Scope R_scope.
(*HEADER END*)
From Verif Require Import RealTac LenLib OpLib PfErr PfOvf PfQuat.

Lemma nears_at k u c x m i : nears k u c x m -> (i < length x)%nat -> Rabs (nth i (vals c) 0 - nth i x 0) <= gam k * nth i m 0 + u.
Proof.
  revert c m i. induction x as [|x xs IH]; intros [|c cs] [|m ms] i H Hi; try contradiction; [cbn in Hi; lia|].
  destruct H as [H1 H2]. destruct i as [|i]; [exact H1|]. cbn in Hi. apply (IH cs ms i H2). lia.
Qed.
Lemma growth_ge1 e k : 0 <= e -> 1 <= growth e k.
Proof. intros H. apply pow_R1_Rle. rewrite uval. nra. Qed.
Lemma ulp_half_val : ulp_half = / 16777216. Proof. apply uval. Qed.
Lemma growth_add e j k : growth e (j + k) = growth e j * growth e k. Proof. apply pow_add. Qed.
Lemma growth_S e k : growth e (S k) = (1 + e * ulp_half) * growth e k. Proof. reflexivity. Qed.
Lemma fold_mult_ge cs c : Forall (fun x => 1 <= x) cs -> 1 <= c -> c <= fold_left Rmult cs c.
Proof.
  intros H. revert c. induction H as [|x cs H F IH]; intros c Hc; cbn; [lra|]. apply Rle_trans with (c * x); [nra|]. apply IH. nra.
Qed.
(** one step of the recurrence *)
Lemma chain_step (G e P c : R) : 1 <= G -> 0 <= e -> 0 <= P -> 0 <= c -> (G - 1) * P * c + e * (G * P * c) <= ((1 + e) * G - 1) * (P * c).
Proof. intros. apply Req_le. ring. Qed.
Lemma tiny_small : 0 < tiny <= / 1000000000000 * ulp_half.
Proof.
  split; [apply tiny_pos|]. unfold tiny. rewrite uval. rewrite <- Rinv_mult. apply Rinv_le_contravar; [lra|].
  rewrite <- mult_IZR. apply IZR_le. vm_compute. discriminate.
Qed.
Lemma bounded_ents n c l : length l = (n * n)%nat -> (0 < n)%nat -> (forall i j, (i < n)%nat -> (j < n)%nat -> Rabs (ent n (vals l) i j) <= c) -> bounded_by c l.
Proof.
  intros Ll Hn H. apply Forall_forall. intros x Hx. apply (In_nth _ _ (B754_zero false)) in Hx as [k [Hk E]]. assert (Hk' : (k < n * n)%nat) by (rewrite <- Ll; exact Hk).
  pose proof (Nat.div_mod k n ltac:(lia)) as DM. pose proof (Nat.mod_upper_bound k n ltac:(lia)) as MU.
  assert (DU : (k / n < n)%nat) by (apply Nat.div_lt_upper_bound; lia).
  specialize (H (k mod n)%nat (k / n)%nat MU DU). unfold ent in H. replace (k / n * n + k mod n)%nat with k in H by (rewrite Nat.mul_comm; exact DM).
  replace (nth k (vals l) 0) with (b2r x) in H; [exact H|]. unfold vals. rewrite <- E. change 0 with (b2r (B754_zero false)) at 1. now rewrite map_nth.
Qed.

Section MATRIX.
  Context {M : Type} (n : nat) (comps : M -> list f32) (mul : M -> M -> M).
  Hypothesis Hn : (2 <= n <= 4)%nat.
  Hypothesis Hl : forall m, length (comps m) = (n * n)%nat.
  Hypothesis Herr : forall a b, all_finite (comps (mul a b)) -> nears n (INR n * tiny) (comps (mul a b)) (mprod n (vals (comps a)) (vals (comps b))) (mprod n (mags (comps a)) (mags (comps b))).
  Hypothesis Hovf : forall a b, no_overflow (INR n) 2 (comps a ++ comps b) (comps (mul a b)).
  Context (eta : R) (Heta : INR n * INR n + / 1000 <= eta).
  Lemma eta_pos' : 0 <= eta. Proof. pose proof (pos_INR n). nra. Qed.
  Lemma INR_n : 2 <= INR n <= 4.
  Proof. destruct Hn as [A B]. apply le_INR in A, B. cbn in A, B. lra. Qed.
  Lemma two60 : n = n -> INR n * IZR (2 ^ 60) ^ 2 < IZR (2 ^ 127).
  Proof.
    intros _. pose proof INR_n as N. apply Rle_lt_trans with (4 * IZR (2 ^ 60) ^ 2).
    - apply Rmult_le_compat_r; [apply pow2_ge_0|apply N].
    - rewrite pow_IZR, <- mult_IZR. apply IZR_lt. vm_compute. reflexivity.
  Qed.
  Lemma mul_step a b A B : all_finite (comps a) -> all_finite (comps b) -> 1 <= A -> 1 <= B -> A * B <= IZR (2 ^ 60) ->
    stretch_le n (vals (comps a)) A -> stretch_le n (vals (comps b)) B ->
    all_finite (comps (mul a b)) /\ within n (vals (comps (mul a b))) (mprod n (vals (comps a)) (vals (comps b))) (eta * ulp_half * (A * B)).
  Proof.
    intros Fa Fb HA HB AB Sa Sb. pose proof INR_n as N.
    assert (F : all_finite (comps (mul a b))).
    { apply (Hovf a b (IZR (2 ^ 60))).
      - apply (IZR_le 1). vm_compute. discriminate.
      - apply Forall_app. now split.
      - apply Forall_app. split; (apply (bounded_ents n); [apply Hl|lia|]); intros i j Hi Hj.
        + apply Rle_trans with A; [apply (ent_le n); trivial; lra|nra].
        + apply Rle_trans with B; [apply (ent_le n); trivial; lra|nra].
      - now apply two60. }
    split; [exact F|]. pose proof (Herr a b F) as E.
    assert (G : gam n * (A * B) + INR n * tiny <= (INR n + / 4000) * ulp_half * (A * B)).
    { pose proof (gam_small n ltac:(lia)) as [G0 G1]. pose proof tiny_small as T. rewrite uval in *. assert (1 <= A * B) by nra. assert (INR n * tiny <= 4 * tiny) by nra. nra. }
    assert (W : within n (vals (comps (mul a b))) (mprod n (vals (comps a)) (vals (comps b))) (INR n * ((INR n + / 4000) * ulp_half * (A * B)))).
    { apply within_entries; [rewrite uval; assert (1 <= A * B) by nra; nra|]. intros i j Hi Hj. eapply Rle_trans; [|exact G].
      unfold ent. eapply Rle_trans; [apply (nears_at _ _ _ _ _ _ E)|].
      - unfold mprod. rewrite length_build. nia.
      - apply Rplus_le_compat_r. apply Rmult_le_compat_l; [apply gam_small; lia|].
        change (mags (comps a)) with (map (fun x => Rabs (b2r x)) (comps a)). change (mags (comps b)) with (map (fun x => Rabs (b2r x)) (comps b)).
        rewrite <- (map_map (fun x => b2r x) Rabs (comps a)), <- (map_map (fun x => b2r x) Rabs (comps b)).
        apply (mprod_abs n _ _ A B i j); trivial; lra. }
    intros x Lx. eapply Rle_trans; [apply (W x Lx)|]. apply Rmult_le_compat_r; [apply norm_pos|]. assert (1 <= A * B) by nra. apply Rle_trans with ((INR n * INR n + / 1000) * ulp_half * (A * B)); [rewrite uval; nra|]. apply Rmult_le_compat_r; [lra|]. apply Rmult_le_compat_r; [rewrite uval; lra|exact Heta].
  Qed.
  Lemma mul_chain ms cs : Forall2 (fun m c => all_finite (comps m) /\ 1 <= c /\ stretch_le n (vals (comps m)) c) ms cs ->
    forall a ex P k, 1 <= P -> all_finite (comps a) -> stretch_le n ex P -> within n (vals (comps a)) ex ((growth eta k - 1) * P) ->
    growth eta (k + length ms) * fold_left Rmult cs P <= IZR (2 ^ 60) ->
    all_finite (comps (fold_left mul ms a)) /\
    within n (vals (comps (fold_left mul ms a))) (fold_left (mprod n) (map (fun m => vals (comps m)) ms) ex) ((growth eta (k + length ms) - 1) * fold_left Rmult cs P).
  Proof.
    pose proof eta_pos' as PE. intros H. induction H as [|m c ms cs [Fm [Hc Sm]] HF IH]; intros a ex P k HP Fa Sx W B.
    - cbn [fold_left map length] in *. rewrite Nat.add_0_r in *. now split.
    - cbn [fold_left map length] in *. replace (k + S (length ms))%nat with (S k + length ms)%nat in * by lia.
      pose proof (growth_ge1 eta k PE) as G1. pose proof (growth_ge1 eta (S k) PE) as G2.
      assert (C1 : Forall (fun x => 1 <= x) cs) by (clear -HF; induction HF as [|? ? ? ? [_ [Q _]] ? IH]; constructor; trivial).
      assert (B1 : growth eta k * P * c <= IZR (2 ^ 60)).
      { eapply Rle_trans; [|exact B]. pose proof (fold_mult_ge cs (P * c) C1 ltac:(nra)) as Q. rewrite growth_add.
        pose proof (growth_ge1 eta (length ms) PE) as G3. rewrite growth_S in *.
        apply Rle_trans with (growth eta k * (P * c)); [apply Req_le; ring|]. apply Rmult_le_compat; [lra|nra| |exact Q]. rewrite uval in *. nra. }
      assert (Sa : stretch_le n (vals (comps a)) (growth eta k * P)).
      { pose proof (within_stretch n _ _ _ _ W Sx) as Q. replace (growth eta k * P) with (P + (growth eta k - 1) * P) by ring. exact Q. }
      destruct (mul_step a m (growth eta k * P) c Fa Fm ltac:(nra) Hc B1 Sa Sm) as [F' W'].
      apply IH; trivial; [nra|apply stretch_mprod; trivial; lra|].
      pose proof (within_mprod n (vals (comps a)) ex (vals (comps m)) ((growth eta k - 1) * P) c ltac:(nra) W Sm) as W2.
      pose proof (within_trans n _ _ _ _ _ W' W2) as W3. intros x Lx. eapply Rle_trans; [apply (W3 x Lx)|]. apply Rmult_le_compat_r; [apply norm_pos|]. rewrite growth_S.
      pose proof (chain_step (growth eta k) (eta * ulp_half) P c G1 ltac:(rewrite uval; nra) ltac:(lra) ltac:(lra)). lra.
  Qed.
  Lemma mul_chain_ok : product_chain_ok n eta comps mul.
  Proof.
    intros ms cs m0 c0 H. inversion H as [|? ? ? ? [F0 [C0 S0]] HF]; subst. cbv zeta. intros B.
    apply (mul_chain ms cs HF m0 (vals (comps m0)) c0 0%nat C0 F0 S0); [|exact B].
    unfold growth. rewrite pow_O. replace ((1 - 1) * c0) with 0 by ring. apply within_refl.
  Qed.
End MATRIX.

Section TRANSFORM.
  Context {M V : Type} (n kv : nat) (comps : M -> list f32) (vcomps : V -> list f32) (mulv : M -> V -> V).
  Hypothesis Hn : (2 <= n <= 4)%nat.
  Hypothesis Hk : (kv <= 3)%nat.
  Hypothesis Hl : forall m, length (comps m) = (n * n)%nat.
  Hypothesis Hlv : forall v, length (vcomps v) = n.
  Hypothesis Herr : forall a v, all_finite (vcomps (mulv a v)) -> nears kv (INR n * tiny) (vcomps (mulv a v)) (mapply n (vals (comps a)) (vals (vcomps v))) (mapply n (mags (comps a)) (mags (vcomps v))).
  Hypothesis Hovf : forall a v M, 1 <= M -> all_finite (comps a ++ vcomps v) -> bounded_by M (comps a ++ vcomps v) -> INR n * M ^ 2 < IZR (2 ^ 127) -> all_finite (vcomps (mulv a v)).
  Context (eta : R) (Heta : 2 * INR kv + / 1000 <= eta).
  Lemma eta_pos2 : 0 <= eta. Proof. pose proof (pos_INR kv). nra. Qed.
  Lemma vlen v : length (vals (vcomps v)) = n. Proof. unfold vals. rewrite map_length. apply Hlv. Qed.
  Lemma sqrt_n : sqrt (INR n) <= 2.
  Proof. pose proof (INR_n n Hn). rewrite <- (sqrt_square 2) by lra. apply sqrt_le_1_alt. lra. Qed.
  Lemma mulv_step a v A B : all_finite (comps a) -> all_finite (vcomps v) -> 1 <= A -> 1 <= B -> A * B <= IZR (2 ^ 60) ->
    stretch_le n (vals (comps a)) A -> norm (vals (vcomps v)) <= B ->
    all_finite (vcomps (mulv a v)) /\ norm (zip Rminus (vals (vcomps (mulv a v))) (mapply n (vals (comps a)) (vals (vcomps v)))) <= eta * ulp_half * (A * B).
  Proof.
    intros Fa Fb HA HB AB Sa Sb. pose proof (INR_n n Hn) as N.
    assert (F : all_finite (vcomps (mulv a v))).
    { apply (Hovf a v (IZR (2 ^ 60))).
      - apply (IZR_le 1). vm_compute. discriminate.
      - apply Forall_app. now split.
      - apply Forall_app. split.
        + apply (bounded_ents n); [apply Hl|lia|]; intros i j Hi Hj. apply Rle_trans with A; [apply (ent_le n); trivial; lra|nra].
        + apply Forall_forall. intros x Hx. apply (In_nth _ _ (B754_zero false)) in Hx as [k [Hk' E]].
          pose proof (nth_le_norm (vals (vcomps v)) k) as Q. replace (nth k (vals (vcomps v)) 0) with (b2r x) in Q; [apply Rle_trans with B; [lra|nra]|].
          unfold vals. rewrite <- E. change 0 with (b2r (B754_zero false)) at 1. now rewrite map_nth.
      - now apply two60. }
    split; [exact F|]. pose proof (Herr a v F) as E. assert (AB1 : 1 <= A * B) by nra.
    assert (G : gam kv * (A * B) + INR n * tiny <= (INR kv + / 4000) * ulp_half * (A * B)).
    { pose proof (gam_small kv ltac:(lia)) as [G0 G1]. pose proof tiny_small as T. rewrite uval in *. assert (INR n * tiny <= 4 * tiny) by nra. nra. }
    pose proof (pos_INR kv) as PK.
    assert (P0 : 0 <= (INR kv + / 4000) * ulp_half * (A * B)) by (rewrite uval; apply Rmult_le_pos; [apply Rmult_le_pos; lra|lra]).
    eapply Rle_trans; [apply (norm_const _ ((INR kv + / 4000) * ulp_half * (A * B)) n); [|exact P0|]|].
    - rewrite zip_len; rewrite vlen; [reflexivity|]. now rewrite length_mapply.
    - intros i Hi. rewrite (nth_zip_sub _ _ n) by (try apply vlen; apply length_mapply).
      eapply Rle_trans; [|exact G]. eapply Rle_trans; [apply (nears_at _ _ _ _ _ _ E); now rewrite length_mapply|].
      apply Rplus_le_compat_r. apply Rmult_le_compat_l; [apply gam_small; lia|].
      change (mags (comps a)) with (map (fun x => Rabs (b2r x)) (comps a)). change (mags (vcomps v)) with (map (fun x => Rabs (b2r x)) (vcomps v)).
      rewrite <- (map_map (fun x => b2r x) Rabs (comps a)), <- (map_map (fun x => b2r x) Rabs (vcomps v)).
      eapply Rle_trans; [apply (mapply_abs n (vals (comps a)) A (vals (vcomps v)) i); trivial; [lra|apply vlen]|]. apply Rmult_le_compat_l; lra.
    - pose proof sqrt_n as SN. pose proof (sqrt_pos (INR n)). apply Rle_trans with (2 * ((INR kv + / 4000) * ulp_half * (A * B))); [nra|].
      apply Rle_trans with ((2 * INR kv + / 1000) * ulp_half * (A * B)); [rewrite uval; nra|]. apply Rmult_le_compat_r; [lra|]. apply Rmult_le_compat_r; [rewrite uval; lra|exact Heta].
  Qed.
  Lemma mapply_sub_le m c x y : stretch_le n m c -> length x = n -> length y = n -> norm (zip Rminus (mapply n m x) (mapply n m y)) <= c * norm (zip Rminus x y).
  Proof.
    intros S Lx Ly. assert (LZ : length (zip Rminus x y) = n) by (rewrite zip_len; congruence).
    eapply Rle_trans; [|apply (S (zip Rminus x y) LZ)]. apply Req_le. f_equal.
    apply nth_ext with 0 0; [rewrite zip_len; rewrite !length_mapply; reflexivity|]. intros i Hi. rewrite zip_len, length_mapply in Hi by (now rewrite !length_mapply).
    rewrite (nth_zip_sub _ _ n) by apply length_mapply. rewrite !nth_mapply by exact Hi. rewrite <- sum_minus. apply sum_ext. intros k Hk'. rewrite (nth_zip_sub x y n) by trivial. ring.
  Qed.
  Lemma mulv_chain ms cs : Forall2 (fun m c => all_finite (comps m) /\ 1 <= c /\ stretch_le n (vals (comps m)) c) ms cs ->
    forall v ex P k, 1 <= P -> all_finite (vcomps v) -> length ex = n -> norm ex <= P -> norm (zip Rminus (vals (vcomps v)) ex) <= (growth eta k - 1) * P ->
    growth eta (k + length ms) * fold_left Rmult cs P <= IZR (2 ^ 60) ->
    all_finite (vcomps (fold_left (fun v m => mulv m v) ms v)) /\
    norm (zip Rminus (vals (vcomps (fold_left (fun v m => mulv m v) ms v))) (fold_left (fun v m => mapply n (vals (comps m)) v) ms ex)) <= (growth eta (k + length ms) - 1) * fold_left Rmult cs P.
  Proof.
    pose proof eta_pos2 as PE. intros H. induction H as [|m c ms cs [Fm [Hc Sm]] HF IH]; intros a ex P k HP Fa Lx Sx W B.
    - cbn [fold_left map length] in *. rewrite Nat.add_0_r in *. now split.
    - cbn [fold_left map length] in *. replace (k + S (length ms))%nat with (S k + length ms)%nat in * by lia.
      pose proof (growth_ge1 eta k PE) as G1. pose proof (growth_ge1 eta (S k) PE) as G2.
      assert (C1 : Forall (fun x => 1 <= x) cs) by (clear -HF; induction HF as [|? ? ? ? [_ [Q _]] ? IH]; constructor; trivial).
      assert (B1 : c * (growth eta k * P) <= IZR (2 ^ 60)).
      { eapply Rle_trans; [|exact B]. pose proof (fold_mult_ge cs (P * c) C1 ltac:(nra)) as Q. rewrite growth_add.
        pose proof (growth_ge1 eta (length ms) PE) as G3. rewrite growth_S in *.
        apply Rle_trans with (growth eta k * (P * c)); [apply Req_le; ring|]. apply Rmult_le_compat; [lra|nra| |exact Q]. rewrite uval in *. nra. }
      assert (Sa : norm (vals (vcomps a)) <= growth eta k * P).
      { pose proof (norm_le_sub (vals (vcomps a)) ex n (vlen a) Lx) as Q. lra. }
      destruct (mulv_step m a c (growth eta k * P) Fm Fa Hc ltac:(nra) B1 Sm Sa) as [F' W'].
      apply IH; trivial; [nra|apply length_mapply| |].
      + eapply Rle_trans; [apply (Sm ex Lx)|]. rewrite Rmult_comm. apply Rmult_le_compat_r; lra.
      + eapply Rle_trans; [apply (norm_sub_le _ (mapply n (vals (comps m)) (vals (vcomps a))) _ n); [apply vlen|apply length_mapply|apply length_mapply]|].
        pose proof (mapply_sub_le (vals (comps m)) c (vals (vcomps a)) ex Sm (vlen a) Lx) as W2. rewrite growth_S.
        pose proof (chain_step (growth eta k) (eta * ulp_half) P c G1 ltac:(rewrite uval; nra) ltac:(lra) ltac:(lra)).
        assert (c * norm (zip Rminus (vals (vcomps a)) ex) <= c * ((growth eta k - 1) * P)) by (apply Rmult_le_compat_l; lra). lra.
  Qed.
  Lemma mulv_chain_ok : transform_chain_ok n eta comps vcomps mulv.
  Proof.
    intros ms cs v0 c0 F0 C0 N0 HF. cbv zeta. intros B.
    apply (mulv_chain ms cs HF v0 (vals (vcomps v0)) c0 0%nat C0 F0 (vlen v0) N0); [|exact B].
    unfold growth. rewrite pow_O. replace ((1 - 1) * c0) with 0 by ring. right. apply norm_zero. apply zip_sub_self.
  Qed.
End TRANSFORM.

(** ** Quaternions *)
Lemma norm4 a b c d : norm [a; b; c; d] = sqrt (a * a + b * b + c * c + d * d).
Proof. unfold norm. f_equal. cbn. ring. Qed.
Lemma sq4 a b c d : 0 <= a * a + b * b + c * c + d * d. Proof. nra. Qed.
Lemma norm_ham p q : norm (lq (ham p q)) = norm (lq p) * norm (lq q).
Proof.
  destruct p as [a b c d], q as [x y z w]. unfold lq, ham, mkq, qvec. cbn [qx qy qz qw nth]. rewrite !norm4, <- sqrt_mult_alt by apply sq4. f_equal. cbn. ring.
Qed.
Lemma ham_sub a b m : norm (zip Rminus (lq (ham a m)) (lq (ham b m))) = norm (zip Rminus (lq a) (lq b)) * norm (lq m).
Proof.
  destruct a as [a0 a1 a2 a3], b as [b0 b1 b2 b3], m as [x y z w]. unfold lq, ham, mkq, qvec. cbn [qx qy qz qw nth zip]. rewrite !norm4, <- sqrt_mult_alt by apply sq4. f_equal. cbn. ring.
Qed.
Lemma rquat_vals q : lq (rquat q) = vals (lq q). Proof. destruct q. reflexivity. Qed.
Lemma total4 (l : list f32) : length l = 4%nat -> total (mags l) <= 2 * norm (vals l).
Proof.
  intros L. pose proof (sum_abs_le 4 (vals l) ltac:(unfold vals; now rewrite map_length)) as Q.
  replace (sqrt (INR 4)) with 2 in Q by (replace (INR 4) with (2 * 2) by (cbn; ring); symmetry; apply sqrt_square; lra).
  eapply Rle_trans; [|exact Q]. destruct l as [|a [|b [|c [|d [|]]]]]; try discriminate L. right. reflexivity.
Qed.
Lemma bounded_norm l c : norm (vals l) <= c -> bounded_by c l.
Proof.
  intros H. apply Forall_forall. intros x Hx. apply (In_nth _ _ (B754_zero false)) in Hx as [k [Hk' E]].
  pose proof (nth_le_norm (vals l) k) as Q. replace (nth k (vals l) 0) with (b2r x) in Q; [lra|].
  unfold vals. rewrite <- E. change 0 with (b2r (B754_zero false)) at 1. now rewrite map_nth.
Qed.
Lemma qmul_step L a b A B : all_finite (lq a) -> all_finite (lq b) -> 1 <= A -> 1 <= B -> A * B <= IZR (2 ^ 60) -> norm (vals (lq a)) <= A -> norm (vals (lq b)) <= B ->
  all_finite (lq (quat_mul (F32 L) a b)) /\ norm (zip Rminus (vals (lq (quat_mul (F32 L) a b))) (lq (ham (rquat a) (rquat b)))) <= 290 * ulp_half * (A * B).
Proof.
  intros Fa Fb HA HB AB Sa Sb. assert (F : all_finite (lq (quat_mul (F32 L) a b))).
  { apply (proj1 (C71_quaternions_pf L) a b (IZR (2 ^ 60))).
    - apply (IZR_le 1). vm_compute. discriminate.
    - apply Forall_app. now split.
    - apply Forall_app. split; apply bounded_norm; nra.
    - rewrite pow_IZR, <- mult_IZR. apply IZR_lt. vm_compute. reflexivity. }
  split; [exact F|]. pose proof (C65_quat_product_pf L a b F) as E. cbv zeta in E. change (nears 9 (9 * tiny) (lq (quat_mul (F32 L) a b)) (lq (ham (rquat a) (rquat b)))
    [4 * (total (mags (lq a)) * total (mags (lq b))); 4 * (total (mags (lq a)) * total (mags (lq b))); 4 * (total (mags (lq a)) * total (mags (lq b))); 4 * (total (mags (lq a)) * total (mags (lq b)))]) in E.
  pose proof (total4 (lq a) eq_refl) as Ta. pose proof (total4 (lq b) eq_refl) as Tb.
  assert (T0 : forall q : quat f32, 0 <= total (mags (lq q))).
  { intros [x y z w]. cbn. pose proof (Rabs_pos (b2r x)). pose proof (Rabs_pos (b2r y)). pose proof (Rabs_pos (b2r z)). pose proof (Rabs_pos (b2r w)). lra. }
  pose proof (T0 a) as Ta0. pose proof (T0 b) as Tb0.
  set (t := 4 * (total (mags (lq a)) * total (mags (lq b)))) in *.
  assert (Ht : t <= 16 * (A * B)).
  { unfold t. assert (total (mags (lq a)) * total (mags (lq b)) <= (2 * A) * (2 * B)) by (apply Rmult_le_compat; lra). lra. }
  assert (AB1 : 1 <= A * B) by nra.
  assert (G : gam 9 * t + 9 * tiny <= 145 * ulp_half * (A * B)).
  { assert (G0 : 0 <= gam 9 <= 901 / 100 * ulp_half).
    { unfold gam. replace (INR 9) with 9 by (cbn; lra). rewrite uval. replace (9 * / 16777216 / (1 - 9 * / 16777216)) with (9 / 16777207) by (field; lra). lra. }
    pose proof tiny_small as T. assert (gam 9 * t <= 901 / 100 * ulp_half * (16 * (A * B))). { apply Rle_trans with (gam 9 * (16 * (A * B))); [apply Rmult_le_compat_l; lra|apply Rmult_le_compat_r; lra]. }
    rewrite uval in *. lra. }
  assert (P0 : 0 <= 145 * ulp_half * (A * B)) by (rewrite uval; lra).
  eapply Rle_trans; [apply (norm_const _ (145 * ulp_half * (A * B)) 4); [reflexivity|exact P0|]|].
  - intros i Hi. rewrite (nth_zip_sub _ _ 4) by reflexivity. eapply Rle_trans; [apply (nears_at _ _ _ _ _ i E); exact Hi|].
    replace (nth i [t; t; t; t] 0) with t; [exact G|]. destruct i as [|[|[|[|i]]]]; try reflexivity. lia.
  - replace (sqrt (INR 4)) with 2 by (replace (INR 4) with (2 * 2) by (cbn; ring); symmetry; apply sqrt_square; lra). lra.
Qed.
Lemma qmul_chain L qs cs : Forall2 (fun q c => all_finite (lq q) /\ 1 <= c /\ norm (vals (lq q)) <= c) qs cs ->
  forall a ex P k, 1 <= P -> all_finite (lq a) -> norm (lq ex) <= P -> norm (zip Rminus (vals (lq a)) (lq ex)) <= (growth 290 k - 1) * P ->
  growth 290 (k + length qs) * fold_left Rmult cs P <= IZR (2 ^ 60) ->
  all_finite (lq (fold_left (quat_mul (F32 L)) qs a)) /\
  norm (zip Rminus (vals (lq (fold_left (quat_mul (F32 L)) qs a))) (lq (fold_left ham (map rquat qs) ex))) <= (growth 290 (k + length qs) - 1) * fold_left Rmult cs P.
Proof.
  assert (PE : 0 <= 290) by lra. intros H. induction H as [|m c qs cs [Fm [Hc Sm]] HF IH]; intros a ex P k HP Fa Sx W B.
  - cbn [fold_left map length] in *. rewrite Nat.add_0_r in *. now split.
  - cbn [fold_left map length] in *. replace (k + S (length qs))%nat with (S k + length qs)%nat in * by lia.
    pose proof (growth_ge1 290 k PE) as G1. pose proof (growth_ge1 290 (S k) PE) as G2.
    assert (C1 : Forall (fun x => 1 <= x) cs) by (clear -HF; induction HF as [|? ? ? ? [_ [Q _]] ? IH]; constructor; trivial).
    assert (B1 : growth 290 k * P * c <= IZR (2 ^ 60)).
    { eapply Rle_trans; [|exact B]. pose proof (fold_mult_ge cs (P * c) C1 ltac:(nra)) as Q. rewrite growth_add.
      pose proof (growth_ge1 290 (length qs) PE) as G3. rewrite growth_S in *.
      apply Rle_trans with (growth 290 k * (P * c)); [apply Req_le; ring|]. apply Rmult_le_compat; [lra|nra| |exact Q]. rewrite uval in *. nra. }
    assert (Sa : norm (vals (lq a)) <= growth 290 k * P).
    { pose proof (norm_le_sub (vals (lq a)) (lq ex) 4 eq_refl eq_refl) as Q. lra. }
    destruct (qmul_step L a m (growth 290 k * P) c Fa Fm ltac:(nra) Hc B1 Sa Sm) as [F' W'].
    apply IH; trivial; [nra| |].
    + rewrite norm_ham, rquat_vals. apply Rmult_le_compat; trivial; apply norm_pos.
    + eapply Rle_trans; [apply (norm_sub_le _ (lq (ham (rquat a) (rquat m))) _ 4); reflexivity|].
      pose proof (ham_sub (rquat a) ex (rquat m)) as W2. rewrite !rquat_vals in W2. rewrite W2, growth_S.
      pose proof (chain_step (growth 290 k) (290 * ulp_half) P c G1 ltac:(rewrite uval; nra) ltac:(lra) ltac:(lra)).
      assert (W3 : norm (zip Rminus (vals (lq a)) (lq ex)) * norm (vals (lq m)) <= (growth 290 k - 1) * P * c) by (apply Rmult_le_compat; trivial; apply norm_pos).
      eapply Rle_trans; [apply Rplus_le_compat; [exact W'|exact W3]|lra].
Qed.
Lemma qmul_chain_ok L : quat_chain_ok 290 (quat_mul (F32 L)).
Proof.
  intros qs cs q0 c0 H. inversion H as [|? ? ? ? [F0 [C0 N0]] HF]; subst. cbv zeta. intros B.
  apply (qmul_chain L qs cs HF q0 (rquat q0) c0 0%nat C0 F0); [now rewrite rquat_vals| |exact B].
  unfold growth. rewrite pow_O. replace ((1 - 1) * c0) with 0 by ring. right. apply norm_zero. rewrite rquat_vals. apply zip_sub_self.
Qed.

(** ** Drift *)
Lemma pow_inv_le x m : 0 <= x -> (1 + x) ^ m * (1 - INR m * x) <= 1.
Proof.
  intros Hx. induction m as [|m IH]; [cbn; lra|]. rewrite S_INR. cbn [pow]. apply Rle_trans with ((1 + x) ^ m * (1 - INR m * x)); [|exact IH].
  assert (P : 0 <= (1 + x) ^ m) by (apply pow_le; lra). pose proof (pos_INR m). replace ((1 + x) * (1 + x) ^ m * (1 - (INR m + 1) * x)) with ((1 + x) ^ m * (1 - INR m * x - (INR m + 1) * (x * x))) by ring.
  apply Rmult_le_compat_l; [exact P|]. nra.
Qed.
Lemma pow_up x m : 0 <= x -> INR m * x <= / 4 -> (1 + x) ^ m <= 1 + 4 / 3 * (INR m * x).
Proof.
  intros Hx Hm. pose proof (pow_inv_le x m Hx) as Q. pose proof (pos_INR m) as PM. assert (0 <= INR m * x) by nra. set (t := INR m * x) in *.
  apply Rmult_le_reg_r with (1 - t); [lra|]. eapply Rle_trans; [exact Q|]. nra.
Qed.
Lemma pow_down x m : 0 <= x <= 1 -> 1 - INR m * x <= (1 - x) ^ m.
Proof.
  intros Hx. induction m as [|m IH]; [cbn; lra|]. rewrite S_INR. cbn [pow]. pose proof (pos_INR m). assert (Q : 0 <= (1 - x) ^ m <= 1).
  { split; [apply pow_le; lra|]. rewrite <- (pow1 m) at 2. apply pow_incr. lra. }
  nra.
Qed.
Lemma fold_repeat c n a : fold_left Rmult (repeat c n) a = a * c ^ n.
Proof. revert a. induction n as [|n IH]; intros a; cbn; [ring|]. rewrite IH. ring. Qed.
Lemma ham_chain_norm (lo hi : R) qs ex : 0 <= lo -> Forall (fun q => lo <= norm (vals (lq q)) <= hi) qs ->
  norm (lq ex) * lo ^ length qs <= norm (lq (fold_left ham (map rquat qs) ex)) <= norm (lq ex) * hi ^ length qs.
Proof.
  intros Hlo H. revert ex. induction H as [|q qs Hq H IH]; intros ex; cbn [map fold_left length pow]; [lra|].
  destruct (IH (ham ex (rquat q))) as [A B]. rewrite norm_ham, rquat_vals in A, B. pose proof (norm_pos (lq ex)) as P.
  assert (0 <= lo ^ length qs) by (apply pow_le; lra). assert (0 <= hi ^ length qs) by (apply pow_le; lra).
  split.
  - eapply Rle_trans; [|exact A]. rewrite Rmult_assoc. apply Rmult_le_compat_l; [exact P|]. nra.
  - eapply Rle_trans; [exact B|]. rewrite Rmult_assoc. apply Rmult_le_compat_l; [exact P|]. nra.
Qed.
Lemma qmul_drift_ok L : quat_drift_ok 9 410 (quat_mul (F32 L)).
Proof.
  intros qs q0 H. inversion H as [|? ? [F0 N0] HF]; subst. cbv zeta. cbn [length]. intros B. set (u := ulp_half) in *. assert (U : u = / 16777216) by apply uval.
  set (k := length qs) in *. set (c := 1 + 9 * u).
  assert (PM : 0 <= INR (S k)) by apply pos_INR. change (10 ^ 4)%Z with 10000%Z in B.
  assert (Pow : (1 + 300 * u) ^ S k <= 1 + 400 * (INR (S k) * u)).
  { pose proof (pow_up (300 * u) (S k) ltac:(lra) ltac:(rewrite U; lra)) as Q. lra. }
  assert (GP : growth 290 k * (c * c ^ k) <= (1 + 300 * u) ^ S k).
  { unfold growth. fold u. change (c * c ^ k) with (c ^ S k). apply Rle_trans with ((1 + 290 * u) ^ S k * c ^ S k).
    - apply Rmult_le_compat_r; [apply pow_le; unfold c; lra|]. apply Rle_pow; [lra|lia].
    - rewrite <- Rpow_mult_distr. apply pow_incr. unfold c. split; [rewrite U; lra|]. rewrite U. lra. }
  assert (HC : Forall2 (fun q c => all_finite (lq q) /\ 1 <= c /\ norm (vals (lq q)) <= c) (q0 :: qs) (c :: repeat c k)).
  { assert (G : forall q, all_finite (lq q) /\ Rabs (norm (vals (lq q)) - 1) <= 9 * u -> all_finite (lq q) /\ 1 <= c /\ norm (vals (lq q)) <= c).
    { intros q [A C]. unfold c. apply Rabs_le_inv in C. split; [exact A|]. split; lra. }
    constructor; [now apply G|]. unfold k. clear -HF G. induction HF; cbn; constructor; trivial. now apply G. }
  destruct (qmul_chain_ok L qs (repeat c k) q0 c HC) as [F W].
  { fold k. rewrite fold_repeat. eapply Rle_trans; [exact GP|]. eapply Rle_trans; [exact Pow|]. apply Rle_trans with 2; [rewrite U; lra|]. apply IZR_le. vm_compute. discriminate. }
  split; [exact F|]. fold k in W. rewrite fold_repeat in W.
  assert (HN : Forall (fun q => 1 - 9 * u <= norm (vals (lq q)) <= c) qs).
  { eapply Forall_impl; [|exact HF]. cbn. intros q [_ C]. apply Rabs_le_inv in C. unfold c. lra. }
  pose proof (ham_chain_norm (1 - 9 * u) c qs (rquat q0) ltac:(lra) HN) as [N1 N2]. fold k in N1, N2. rewrite rquat_vals in N1, N2. apply Rabs_le_inv in N0.
  set (r := vals (lq (fold_left (quat_mul (F32 L)) qs q0))) in *. set (e := lq (fold_left ham (map rquat qs) (rquat q0))) in *.
  pose proof (norm_le_sub r e 4 eq_refl eq_refl) as D1. pose proof (norm_le_sub e r 4 eq_refl eq_refl) as D2.
  assert (SY : norm (zip Rminus e r) = norm (zip Rminus r e)).
  { unfold e, r. destruct (fold_left _ _ _), (fold_left _ _ _). unfold norm. f_equal. cbn. ring. }
  rewrite SY in D2. assert (C1 : 1 <= c ^ k) by (apply pow_R1_Rle; unfold c; lra).
  assert (E1 : norm (zip Rminus r e) <= (1 + 300 * u) ^ S k - c * c ^ k).
  { eapply Rle_trans; [exact W|]. lra. }
  assert (LO : 1 - INR (S k) * (9 * u) <= norm (vals (lq q0)) * (1 - 9 * u) ^ k).
  { eapply Rle_trans; [apply pow_down; rewrite U; lra|]. cbn [pow]. apply Rmult_le_compat_r; [apply pow_le; rewrite U; lra|]. lra. }
  assert (HI : norm (vals (lq q0)) * c ^ k <= c * c ^ k) by (apply Rmult_le_compat_r; [lra|unfold c; lra]).
  assert (CC : 1 <= c * c ^ k) by (unfold c in *; nra). change (Rabs (norm r - 1) <= 410 * INR (S k) * u). apply Rabs_le. assert (0 <= INR (S k) * u) by (apply Rmult_le_pos; lra). clearbody r e. lra.
Qed.

(** ** Sums *)
Lemma fold_plus_finite xs a : finite (fold_left (Bplus mode_NE) xs a) -> finite a.
Proof. revert a. induction xs as [|x xs IH]; intros a H; [exact H|]. now destruct (plus_inv a x (IH _ H)). Qed.
Lemma total_cons a l : total (a :: l) = a + total l. Proof. reflexivity. Qed.
Lemma fold_plus_error (xs : list f32) : forall (a : f32) ex S k, finite (fold_left (Bplus mode_NE) xs a) -> Rabs ex <= S -> Rabs (b2r a - ex) <= (growth 1 k - 1) * S ->
  Rabs (b2r (fold_left (Bplus mode_NE) xs a) - (ex + total (map (fun x => b2r x) xs))) <= (growth 1 (k + length xs) - 1) * (S + total (map (fun x => Rabs (b2r x)) xs)).
Proof.
  induction xs as [|x xs IH]; intros a ex S k F HS H; cbn [fold_left map length].
  - rewrite Nat.add_0_r. unfold total. cbn. rewrite !Rplus_0_r. exact H.
  - rewrite !total_cons. replace (k + Datatypes.S (length xs))%nat with (Datatypes.S k + length xs)%nat by lia. cbn [fold_left] in F.
    pose proof (fold_plus_finite _ _ F) as F1. destruct (plus_inv a x F1) as [_ [_ E]]. destruct (rnd_plus_error a x) as [eps [H1 H2]]. rewrite u32_ulp in H1.
    rewrite <- !Rplus_assoc. apply IH; [exact F| |].
    + eapply Rle_trans; [apply Rabs_triang|]. lra.
    + rewrite E, H2, growth_S, Rmult_1_l. pose proof (growth_ge1 1 k ltac:(lra)) as G. assert (U : 0 < ulp_half) by (rewrite uval; lra).
      replace ((b2r a + b2r x) * (1 + eps) - (ex + b2r x)) with ((b2r a - ex) + eps * ((b2r a - ex) + ex + b2r x)) by ring.
      pose proof (Rabs_pos (b2r x)) as PX. pose proof (Rabs_pos ex) as PS.
      assert (A1 : Rabs (b2r a - ex + ex + b2r x) <= growth 1 k * S + Rabs (b2r x)).
      { eapply Rle_trans; [apply Rabs_triang|]. apply Rplus_le_compat_r. eapply Rle_trans; [apply Rabs_triang|]. lra. }
      eapply Rle_trans; [apply Rabs_triang|]. rewrite Rabs_mult.
      assert (A2 : Rabs eps * Rabs (b2r a - ex + ex + b2r x) <= ulp_half * (growth 1 k * S + Rabs (b2r x))) by (apply Rmult_le_compat; trivial; apply Rabs_pos).
      assert (A3 : 0 <= (growth 1 k * (1 + ulp_half) - 1 - ulp_half) * Rabs (b2r x)) by (apply Rmult_le_pos; nra). nra.
Qed.
Lemma sum_chain_gen {V} n (comps : V -> list f32) (add : V -> V -> V) : (forall v, length (comps v) = n) ->
  (forall a b i, (i < n)%nat -> nth i (comps (add a b)) (B754_zero false) = Bplus mode_NE (nth i (comps a) (B754_zero false)) (nth i (comps b) (B754_zero false))) ->
  sum_chain_ok comps add.
Proof.
  intros Hl Hadd vs v0. cbv zeta. intros F i. destruct (Nat.lt_ge_cases i n) as [Hi|Hi].
  - assert (NV : forall v, nth i (vals (comps v)) 0 = b2r (nth i (comps v) (B754_zero false))).
    { intros v. unfold vals. change 0 with (b2r (B754_zero false)) at 1. now rewrite map_nth. }
    assert (FE : nth i (comps (fold_left add vs v0)) (B754_zero false) = fold_left (Bplus mode_NE) (map (fun v => nth i (comps v) (B754_zero false)) vs) (nth i (comps v0) (B754_zero false))).
    { clear F. revert v0. induction vs as [|v vs IH]; intros v0; cbn [fold_left map]; [reflexivity|]. rewrite IH. now rewrite Hadd. }
    assert (F1 : finite (nth i (comps (fold_left add vs v0)) (B754_zero false))).
    { unfold all_finite in F. rewrite Forall_forall in F. apply F. apply nth_In. now rewrite Hl. }
    rewrite NV. rewrite FE in F1 |- *. cbn [map]. rewrite !total_cons.
    pose proof (fold_plus_error (map (fun v => nth i (comps v) (B754_zero false)) vs) (nth i (comps v0) (B754_zero false)) (b2r (nth i (comps v0) (B754_zero false))) (Rabs (b2r (nth i (comps v0) (B754_zero false)))) 0 F1 (Rle_refl _)) as Q.
    rewrite !map_map, map_length in Q. rewrite !NV. rewrite (map_ext (fun v => nth i (vals (comps v)) 0) (fun v => b2r (nth i (comps v) (B754_zero false))) NV).
    rewrite (map_ext (fun v => Rabs (nth i (vals (comps v)) 0)) (fun v => Rabs (b2r (nth i (comps v) (B754_zero false))))) by (intros v; now rewrite NV).
    apply Q. unfold growth. rewrite pow_O. replace (b2r (nth i (comps v0) (B754_zero false)) - b2r (nth i (comps v0) (B754_zero false))) with 0 by ring. rewrite Rabs_R0. lra.
  - assert (NV : forall v, nth i (vals (comps v)) 0 = 0) by (intros v; apply nth_overflow; unfold vals; now rewrite map_length, Hl).
    rewrite NV. rewrite (map_ext (fun v => nth i (vals (comps v)) 0) (fun _ => 0) NV), (map_ext (fun v => Rabs (nth i (vals (comps v)) 0)) (fun _ => 0)) by (intros v; rewrite NV; apply Rabs_R0).
    assert (T : forall l : list V, total (map (fun _ => 0) l) = 0) by (induction l as [|? l IH]; cbn; [reflexivity|]; fold (total (map (fun _ : V => 0) l)); rewrite IH; ring).
    rewrite T, Rminus_0_r, Rmult_0_r, Rabs_R0. lra.
Qed.

(** ** Properties *)
(** C77: m := m0 * m1 * ... * mk in binary32 is within ((1 + eta u)^k - 1) c0 c1 ... ck of the exact product as an operator, where the
    c_i bound how much the factors stretch; eta is 5, 10 and 17 for dimension 2, 3 and 4 *)
Lemma C77_matrix_products_pf : forall L : Libm,
  product_chain_ok 2 5 lm2 (mat2_mul (F32 L)) /\ product_chain_ok 3 10 lm3 (mat3_mul (F32 L)) /\ product_chain_ok 4 17 lm4 (mat4_mul (F32 L)).
Proof.
  intros L. destruct (C65_matrix_products_pf L) as [[E2 _] [[E3 _] [E4 _]]]. destruct (C71_products_pf L) as [_ [_ [_ [_ [_ [O2 [O3 [O4 _]]]]]]]].
  split; [|split].
  - apply mul_chain_ok; [lia|reflexivity|exact E2| |cbn; lra]. replace (INR 2) with 2 by (cbn; lra). exact O2.
  - apply mul_chain_ok; [lia|reflexivity|exact E3| |cbn; lra]. replace (INR 3) with 3 by (cbn; lra). exact O3.
  - apply mul_chain_ok; [lia|reflexivity|exact E4| |cbn; lra]. replace (INR 4) with 4 by (cbn; lra). exact O4.
Qed.
(** the same for a vector moved through k matrices one after the other *)
Lemma C77_transforms_pf : forall L : Libm,
  transform_chain_ok 2 5 lm2 l2 (mat2_mul_vec (F32 L)) /\ transform_chain_ok 3 7 lm3 l3 (mat3_mul_vec (F32 L)) /\ transform_chain_ok 4 7 lm4 l4 (mat4_mul_vec (F32 L)).
Proof.
  intros L. destruct (C65_matrix_products_pf L) as [[_ [E2 _]] [[_ [E3 _]] [_ [E4 _]]]]. destruct (C71_products_pf L) as [_ [_ [_ [_ [_ [_ [_ [_ [O2 [O3 O4]]]]]]]]]].
  split; [|split].
  - apply (mulv_chain_ok 2 2); [lia|lia|reflexivity|reflexivity|exact E2| |cbn; lra]. replace (INR 2) with 2 by (cbn; lra). intros a v M H1 H2 H3 H4. exact (proj1 (proj1 (Forall_app _ _ _) (O2 a v M H1 H2 H3 H4))).
  - apply (mulv_chain_ok 3 3); [lia|lia|reflexivity|reflexivity|exact E3| |cbn; lra]. replace (INR 3) with 3 by (cbn; lra). intros a v M H1 H2 H3 H4. exact (proj1 (proj1 (Forall_app _ _ _) (O3 a v M H1 H2 H3 H4))).
  - apply (mulv_chain_ok 4 3); [lia|lia|reflexivity|reflexivity|exact E4| |cbn; lra]. replace (INR 4) with 4 by (cbn; lra). intros a v M H1 H2 H3 H4. exact (proj1 (proj1 (Forall_app _ _ _) (O4 a v M H1 H2 H3 H4))).
Qed.
(** the same for quaternion products, with their lengths *)
Lemma C77_quaternion_products_pf : forall L : Libm, quat_chain_ok 290 (quat_mul (F32 L)).
Proof. exact qmul_chain_ok. Qed.
(** up to 10000 rotations within 9 half-ulps of unit length can be accumulated; the length drifts by at most 410 half-ulps per factor *)
Lemma C77_quaternion_drift_pf : forall L : Libm, quat_drift_ok 9 410 (quat_mul (F32 L)).
Proof. exact qmul_drift_ok. Qed.
(** sums of any number of vectors or quaternions *)
Lemma C77_sums_pf : forall L : Libm,
  sum_chain_ok l2 (vec2_add (F32 L)) /\ sum_chain_ok l3 (vec3_add (F32 L)) /\ sum_chain_ok l4 (vec4_add (F32 L)) /\ sum_chain_ok lq (quat_add (F32 L)).
Proof.
  intros L. split; [apply (sum_chain_gen 2)|split; [apply (sum_chain_gen 3)|split; [apply (sum_chain_gen 4)|apply (sum_chain_gen 4)]]]; try reflexivity;
    intros a b i Hi; destruct a, b; destruct i as [|[|[|[|i]]]]; try lia; reflexivity.
Qed.

(*PROPS
(** a thousand quarter turns *)
Example C77_case : let q : mat2 f32 := M2 (V2 (f32_ofZ 0) (f32_ofZ 1)) (V2 (f32_ofZ (-1)) (f32_ofZ 0)) in
  let ms := repeat q 1000 in let cs := repeat 1 1000 in
  Forall2 (fun m c => all_finite (lm2 m) /\ 1 <= c /\ stretch_le 2 (vals (lm2 m)) c) (q :: ms) (1 :: cs) /\
  growth 5 (length ms) * fold_left Rmult cs 1 <= IZR (2 ^ 60).
Proof.
  cbv zeta. split.
  - assert (Q : let m : mat2 f32 := M2 (V2 (f32_ofZ 0) (f32_ofZ 1)) (V2 (f32_ofZ (-1)) (f32_ofZ 0)) in all_finite (lm2 m) /\ 1 <= 1 /\ stretch_le 2 (vals (lm2 m)) 1).
    { cbv zeta. split; [repeat apply Forall_cons; [..|apply Forall_nil]; vm_compute; reflexivity|]. split; [lra|].
      intros x Lx. destruct x as [|x [|y [|]]]; try discriminate Lx.
      change (vals _) with [b2r (f32_ofZ 0); b2r (f32_ofZ 1); b2r (f32_ofZ (-1)); b2r (f32_ofZ 0)]. rewrite !ofZ_exact by reflexivity.
      rewrite Rmult_1_l. apply Req_le. unfold norm. f_equal. cbn. ring. }
    apply Forall2_cons; [exact Q|]. generalize 1000%nat as j. induction j as [|j IH]; cbn [repeat]; constructor; trivial.
  - rewrite repeat_length, fold_repeat, pow1. unfold growth. rewrite ulp_half_val.
    eapply Rle_trans; [apply Rmult_le_compat_r; [lra|]; apply pow_up; [lra|]|].
    + rewrite INR_IZR_INZ. change (Z.of_nat 1000) with 1000%Z. lra.
    + rewrite INR_IZR_INZ. change (Z.of_nat 1000) with 1000%Z. apply Rle_trans with 2; [lra|]. apply IZR_le. vm_compute. discriminate.
Qed.
(** (0.6, 0, 0, 0.8) rounded to binary32, a hundred times *)
Example C77_drift_case : let q := Quat (@B754_finite 24 128 false 10066330 (-24) eq_refl) (f32_ofZ 0) (f32_ofZ 0) (@B754_finite 24 128 false 13421773 (-24) eq_refl) in
  Forall (fun q : quat f32 => all_finite (lq q) /\ Rabs (norm (vals (lq q)) - 1) <= 9 * ulp_half) (q :: repeat q 100) /\ INR (length (q :: repeat q 100)) <= IZR (10 ^ 4).
Proof.
  cbv zeta. split.
  - assert (Q : let q := Quat (@B754_finite 24 128 false 10066330 (-24) eq_refl) (f32_ofZ 0) (f32_ofZ 0) (@B754_finite 24 128 false 13421773 (-24) eq_refl) in
      all_finite (lq q) /\ Rabs (norm (vals (lq q)) - 1) <= 9 * ulp_half).
    { cbv zeta. split; [repeat apply Forall_cons; [..|apply Forall_nil]; vm_compute; reflexivity|].
      change (vals _) with [b2r (@B754_finite 24 128 false 10066330 (-24) eq_refl); b2r (f32_ofZ 0); b2r (f32_ofZ 0); b2r (@B754_finite 24 128 false 13421773 (-24) eq_refl)]. rewrite ofZ_exact by reflexivity.
      replace (b2r (@B754_finite 24 128 false 10066330 (-24) eq_refl)) with (10066330 / 16777216) by (unfold b2r, B2R, F2R; cbn; lra).
      replace (b2r (@B754_finite 24 128 false 13421773 (-24) eq_refl)) with (13421773 / 16777216) by (unfold b2r, B2R, F2R; cbn; lra).
      rewrite norm4. rewrite ulp_half_val.
      assert (1 - 9 * / 16777216 <= sqrt (10066330 / 16777216 * (10066330 / 16777216) + 0 * 0 + 0 * 0 + 13421773 / 16777216 * (13421773 / 16777216))).
      { rewrite <- (sqrt_square (1 - 9 * / 16777216)) by lra. apply sqrt_le_1_alt. lra. }
      assert (sqrt (10066330 / 16777216 * (10066330 / 16777216) + 0 * 0 + 0 * 0 + 13421773 / 16777216 * (13421773 / 16777216)) <= 1 + 9 * / 16777216).
      { rewrite <- (sqrt_square (1 + 9 * / 16777216)) by lra. apply sqrt_le_1_alt. lra. }
      apply Rabs_le. lra. }
    apply Forall_cons; [exact Q|]. generalize 100%nat as j. induction j as [|j IH]; cbn [repeat]; constructor; trivial.
  - cbn [length]. rewrite repeat_length, INR_IZR_INZ. apply IZR_le. vm_compute. discriminate.
Qed.
(** ten times 1/10: the sum is finite *)
Example C77_sum_case : let v : vec2 f32 := V2 (@B754_finite 24 128 false 13421773 (-27) eq_refl) (f32_ofZ 3) in
  all_finite (l2 (fold_left (vec2_add (F32 L0)) (repeat v 9) v)).
Proof. repeat apply Forall_cons; [..|apply Forall_nil]; vm_compute; reflexivity. Qed.
PROPS*)
