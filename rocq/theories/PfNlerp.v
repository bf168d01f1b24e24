(** * Proofs: linear interpolation of quaternions in binary32 *)
From Coq Require Import ZArith Bool Reals List Lra Lia.
From Flocq Require Import Core IEEE754.BinarySingleNaN.
From Verif Require Import Scalar IEEE32 RealInst Types Outcome Spec SpecR SpecMat SpecGeo SpecF32 SpecErr SpecOrd SpecDom SpecAcc SpecChain SpecDrift SpecNlerp FloatBasics FloatOps
  ModelVec ModelCommon ModelGeom ModelQuat ModelQuaternion ErrLib OvfLib F32Tac RealTac.
Import ListNotations.
Local Open Scope R_scope.
(*HEADER END*)
From Coq Require Import Psatz.
From Verif Require Import FloatAlg LenLib DomLib OpLib PfErr PfOvf PfLen PfQuatAcc PfOctAcc AbsLib VecErrLib QuatErrLib PfChain PfQuat PfGeom PfInterp PfSlerp PfDrift.

(** ** One component *)
Definition lerp1 (x y t : f32) : f32 := Bplus mode_NE (Bmult mode_NE x (Bminus mode_NE (f32_lit 1 0) t)) (Bmult mode_NE y t).
Lemma lerp1_err (x y t : f32) : finite x -> finite y -> Rabs (b2r x) <= 2 -> Rabs (b2r y) <= 2 -> between 0 1 t ->
  finite (lerp1 x y t) /\
  Rabs (b2r (lerp1 x y t) - ((1 - b2r t) * b2r x + b2r t * b2r y)) <= 301/100 * u * ((1 - b2r t) * Rabs (b2r x) + b2r t * Rabs (b2r y)) + 2 * tiny.
Proof.
  intros Fx Fy Bx By Ht. destruct (one_minus t Ht) as [Hs (e0 & He0 & E0)]. destruct Ht as [Ft Bt]. destruct Hs as [Fs Bs]. unfold lerp1.
  set (s := Bminus mode_NE (f32_lit 1 0) t) in *. clearbody s.
  assert (Wt : within 0 t) by (split; [exact Ft|]; rewrite Rabs_pos_eq by lra; cbn; lra).
  assert (Ws : within 0 s) by (split; [exact Fs|]; rewrite Rabs_pos_eq by apply Bs; cbn; apply Bs).
  assert (Wx : within 1 x) by (split; [exact Fx|]; cbn; lra). assert (Wy : within 1 y) by (split; [exact Fy|]; cbn; lra).
  destruct (w_mul 1 0 1 x s Wx Ws) as [V1 E1]; try lia. destruct (w_mul 1 0 1 y t Wy Wt) as [V2 E2]; try lia.
  destruct (w_add 1 1 2 _ _ V1 V2) as [V3 E3]; try lia. split; [apply V3|].
  destruct (rnd_plus_error (Bmult mode_NE x s) (Bmult mode_NE y t)) as (e3 & He3 & K3). rewrite E3, K3, E1, E2.
  destruct (rnd_error (b2r x * b2r s)) as (e1 & h1 & He1 & Hh1 & _ & K1). destruct (rnd_error (b2r y * b2r t)) as (e2 & h2 & He2 & Hh2 & _ & K2).
  rewrite K1, K2, E0. rewrite u32_ulp in *. rewrite eta_tiny in *. pose proof u_val as U. pose proof tiny_small as T.
  set (X := b2r x) in *. set (Y := b2r y) in *. set (r := b2r t) in *. clearbody X Y r. clear - Bx By Bt He0 He1 He2 He3 Hh1 Hh2 U T.
  replace ((X * ((1 - r) * (1 + e0)) * (1 + e1) + h1 + (Y * r * (1 + e2) + h2)) * (1 + e3) - ((1 - r) * X + r * Y))
    with ((1 - r) * X * ((1 + e0) * (1 + e1) * (1 + e3) - 1) + r * Y * ((1 + e2) * (1 + e3) - 1) + (h1 + h2) * (1 + e3)) by ring.
  assert (P3 : Rabs ((1 + e0) * (1 + e1) * (1 + e3) - 1) <= 301/100 * u).
  { apply Rabs_le_inv in He0, He1, He3. apply Rabs_le.
    assert (A1 : - (u * u) <= e0 * e1 <= u * u) by nra. assert (A2 : - (u * u) <= e0 * e3 <= u * u) by nra. assert (A3 : - (u * u) <= e1 * e3 <= u * u) by nra.
    assert (A4 : - (u * u) <= e0 * e1 * e3 <= u * u) by nra. replace ((1 + e0) * (1 + e1) * (1 + e3) - 1) with (e0 + e1 + e3 + e0 * e1 + e0 * e3 + e1 * e3 + e0 * e1 * e3) by ring. nra. }
  assert (P2 : Rabs ((1 + e2) * (1 + e3) - 1) <= 301/100 * u).
  { apply Rabs_le_inv in He2, He3. apply Rabs_le. assert (A1 : - (u * u) <= e2 * e3 <= u * u) by nra. replace ((1 + e2) * (1 + e3) - 1) with (e2 + e3 + e2 * e3) by ring. nra. }
  assert (P1 : Rabs ((h1 + h2) * (1 + e3)) <= 2 * tiny).
  { rewrite Rabs_mult. apply Rle_trans with (tiny * 2); [|lra]. apply Rmult_le_compat; try apply Rabs_pos; [eapply Rle_trans; [apply Rabs_triang|]; lra|]. apply Rabs_le_inv in He3. apply Rabs_le. lra. }
  eapply Rle_trans; [apply Rabs_triang|]. apply Rplus_le_compat; [|exact P1]. eapply Rle_trans; [apply Rabs_triang|].
  rewrite (Rmult_plus_distr_l (301/100 * u)). apply Rplus_le_compat; rewrite Rabs_mult, Rmult_comm; apply Rmult_le_compat; try apply Rabs_pos; trivial; rewrite Rabs_mult, (Rabs_pos_eq) by lra; apply Rle_refl.
Qed.

(** ** The four components *)
Lemma blend_len t A B : length A = 4%nat -> length B = 4%nat -> length (blend t A B) = 4%nat.
Proof. intros LA LB. list4 A. list4 B. reflexivity. Qed.
Lemma blend_norm t A B : length A = 4%nat -> length B = 4%nat -> 0 <= t <= 1 -> norm (blend t A B) <= (1 - t) * norm A + t * norm B.
Proof.
  intros LA LB Ht. apply (norm_from_parts4 (vscale (1 - t) A) (vscale t B)); [now rewrite vscale_len|now rewrite vscale_len|reflexivity| |]; rewrite norm_scale3, Rabs_pos_eq by lra; apply Rle_refl.
Qed.
Lemma blend_dist t A B A' B' a b : length A = 4%nat -> length B = 4%nat -> length A' = 4%nat -> length B' = 4%nat -> 0 <= t <= 1 ->
  norm (vsub A A') <= a -> norm (vsub B B') <= b -> norm (vsub (blend t A B) (blend t A' B')) <= (1 - t) * a + t * b.
Proof.
  intros LA LB LA' LB' Ht Ha Hb. replace (vsub (blend t A B) (blend t A' B')) with (blend t (vsub A A') (vsub B B')).
  - eapply Rle_trans; [apply blend_norm; trivial; now apply vsub_len4|]. apply Rplus_le_compat; apply Rmult_le_compat_l; lra.
  - list4 A. list4 B. list4 A'. list4 B'. unfold blend, vsub, vadd, vscale. cbn. lring.
Qed.
Lemma lerp_ret L b x y t : between 0 1 t -> lerp (F32 L) b x y t = Ret (Quat (lerp1 (qx x) (qx y) t) (lerp1 (qy x) (qy y) t) (lerp1 (qz x) (qz y) t) (lerp1 (qw x) (qw y) t)).
Proof.
  intros [Ft Bt].
  assert (R : lerp (F32 L) Release x y t = Ret (Quat (lerp1 (qx x) (qx y) t) (lerp1 (qy x) (qy y) t) (lerp1 (qz x) (qz y) t) (lerp1 (qw x) (qw y) t))) by reflexivity.
  destruct b; [|exact R]. destruct (C59_lerp_assert_pf L x y t) as (H1 & H2 & _). rewrite <- R. apply H2. intros A. apply H1 in A. apply A. clear - Ft Bt.
  split; [destruct t; try reflexivity; discriminate|]. replace (xr t) with (b2r t); [exact Bt|]. destruct t; try discriminate; reflexivity.
Qed.
Lemma lerp_near L b x y t : all_finite (lq x) -> all_finite (lq y) -> norm (vals (lq x)) <= 1005/1000 -> norm (vals (lq y)) <= 1005/1000 -> between 0 1 t ->
  exists r : quat f32, lerp (F32 L) b x y t = Ret r /\ qnear (31/10 * u) r (blend (b2r t) (vals (lq x)) (vals (lq y))).
Proof.
  intros Fx Fy Nx Ny Ht. rewrite lerp_ret by exact Ht. eexists. split; [reflexivity|]. pose proof (blend_norm (b2r t) (map Rabs (vals (lq x))) (map Rabs (vals (lq y))) eq_refl eq_refl (proj2 Ht)) as BN.
  rewrite !norm_abs in BN.
  assert (Cx : forall a, In a (vals (lq x)) -> Rabs a <= 2) by (intros a Ha; eapply Rle_trans; [apply (comp_norm4 (vals (lq x))); [reflexivity|exact Ha]|lra]).
  assert (Cy : forall a, In a (vals (lq y)) -> Rabs a <= 2) by (intros a Ha; eapply Rle_trans; [apply (comp_norm4 (vals (lq y))); [reflexivity|exact Ha]|lra]).
  assert (BB : norm (blend (b2r t) (map Rabs (vals (lq x))) (map Rabs (vals (lq y)))) <= 1005/1000).
  { eapply Rle_trans; [exact BN|]. destruct Ht as [_ Ht]. nra. } clear BN Nx Ny.
  destruct x as [x0 x1 x2 x3], y as [y0 y1 y2 y3]. unfold all_finite, lq in Fx, Fy. cbn [qx qy qz qw] in *.
  apply Forall_cons_iff in Fx as [X0 Fx]. apply Forall_cons_iff in Fx as [X1 Fx]. apply Forall_cons_iff in Fx as [X2 Fx]. apply Forall_cons_iff in Fx as [X3 _].
  apply Forall_cons_iff in Fy as [Y0 Fy]. apply Forall_cons_iff in Fy as [Y1 Fy]. apply Forall_cons_iff in Fy as [Y2 Fy]. apply Forall_cons_iff in Fy as [Y3 _].
  cbn [lq qx qy qz qw vals map In] in Cx, Cy.
  destruct (lerp1_err x0 y0 t X0 Y0 (Cx (b2r x0) ltac:(auto)) (Cy (b2r y0) ltac:(auto)) Ht) as [F0 K0]. destruct (lerp1_err x1 y1 t X1 Y1 (Cx (b2r x1) ltac:(auto)) (Cy (b2r y1) ltac:(auto)) Ht) as [F1 K1].
  destruct (lerp1_err x2 y2 t X2 Y2 (Cx (b2r x2) ltac:(auto)) (Cy (b2r y2) ltac:(auto)) Ht) as [F2 K2]. destruct (lerp1_err x3 y3 t X3 Y3 (Cx (b2r x3) ltac:(auto)) (Cy (b2r y3) ltac:(auto)) Ht) as [F3 K3].
  split; [reflexivity|]. split; [unfold all_finite, lq; cbn [qx qy qz qw]; auto|]. pose proof u_val as U. pose proof tiny_small as T.
  apply Rle_trans with (norm (vadd (vscale (301/100 * u) (blend (b2r t) (map Rabs (vals [x0; x1; x2; x3])) (map Rabs (vals [y0; y1; y2; y3])))) (vscale (2 * tiny) [1; 1; 1; 1]))).
  - apply norm_mono. unfold vsub, vadd, vscale, blend, vals, lq. cbn. rewrite !(Rmult_1_r (2 * tiny)). repeat (apply Forall2_cons; [assumption|]). apply Forall2_nil.
  - eapply Rle_trans; [apply norm_triangle; reflexivity|]. rewrite !norm_scale3, !Rabs_pos_eq by lra.
    assert (N1 : norm [1; 1; 1; 1] <= 2) by (apply sq_le_norm; [lra|]; unfold ip; cbn; lra).
    match goal with |- _ * ?n + _ <= _ => assert (n <= 1005/1000) by exact BB end. pose proof (norm_nn [1; 1; 1; 1]). nra.
Qed.
Lemma unit_near_norm e q Q : unit_near e q Q -> norm (vals (lq q)) <= 1 + e /\ 0 <= e.
Proof.
  intros (F & UQ & K). destruct (qnear_norm e q (lq Q) (conj (lq_len Q) (conj F K))) as (N1 & N2 & Pe). unfold unit_quat in UQ. rewrite UQ in N1. split; assumption.
Qed.
(** lerp of quaternions within e of unit quaternions X and Y, at a parameter in [0, 1]: it returns, in debug builds too, and the result is within
    e + 3.1 half-ulps (Euclidean distance) of the point of the segment from X to Y. *)
Lemma C104_lerp_pf : forall (L : Libm) (b : build) (e : R) (x y : quat f32) (X Y : quat R) (t : f32),
  unit_near e x X -> unit_near e y Y -> e <= / 250 -> between 0 1 t ->
  exists r : quat f32, lerp (F32 L) b x y t = Ret r /\ all_finite (lq r) /\
  norm (vsub (vals (lq r)) (blend (b2r t) (lq X) (lq Y))) <= e + 31/10 * ulp_half.
Proof.
  intros L b e x y X Y t Hx Hy He Ht. destruct (unit_near_norm _ _ _ Hx) as [Nx Pe]. destruct (unit_near_norm _ _ _ Hy) as [Ny _].
  destruct Hx as (Fx & UX & Kx). destruct Hy as (Fy & UY & Ky).
  destruct (lerp_near L b x y t Fx Fy ltac:(lra) ltac:(lra) Ht) as (r & Er & LB & Fr & Kr). exists r. split; [exact Er|]. split; [exact Fr|].
  pose proof (blend_dist (b2r t) _ _ _ _ _ _ (eq_refl : length (vals (lq x)) = 4%nat) (eq_refl : length (vals (lq y)) = 4%nat) (lq_len X) (lq_len Y) (proj2 Ht) Kx Ky) as D.
  eapply Rle_trans; [apply (tri4 _ _ _ _ _ (eq_refl : length (vals (lq r)) = 4%nat) LB (blend_len _ _ _ (lq_len X) (lq_len Y)) Kr D)|]. lra.
Qed.
(** nlerp: wherever the segment stays away from 0, compared with the errors, the result is normalized within 9 half-ulps and within
    2 (e + 3.1 half-ulps) / s + 9 half-ulps of the direction of the segment's point, s being its length. *)
Lemma C104_nlerp_pf : forall (L : Libm) (b : build) (e : R) (x y : quat f32) (X Y : quat R) (t : f32),
  unit_near e x X -> unit_near e y Y -> e <= / 250 -> between 0 1 t ->
  let P := blend (b2r t) (lq X) (lq Y) in 4 * (e + 31/10 * ulp_half) <= norm P ->
  exists r : quat f32, nlerp (F32 L) b x y t = Ret r /\ all_finite (lq r) /\ Rabs (norm (vals (lq r)) - 1) <= 9 * ulp_half /\
  norm (vsub (vals (lq r)) (unit_of P)) <= 2 * (e + 31/10 * ulp_half) / norm P + 9 * ulp_half.
Proof.
  intros L b e x y X Y t Hx Hy He Ht P HP. destruct (C104_lerp_pf L b e x y X Y t Hx Hy He Ht) as (c & Ec & Fc & Kc). fold P in Kc.
  destruct (unit_near_norm _ _ _ Hx) as [_ Pe]. pose proof u_val as U. pose proof tiny_small as T.
  assert (LP : length P = 4%nat) by (apply blend_len; apply lq_len).
  destruct (qnear_norm _ c P (conj LP (conj Fc Kc))) as (N1 & N2 & _).
  assert (NP : norm P <= 1).
  { destruct Hx as (_ & UX & _), Hy as (_ & UY & _). unfold unit_quat in *. eapply Rle_trans; [apply blend_norm; [apply lq_len|apply lq_len|apply Ht]|]. rewrite UX, UY. lra. }
  assert (R48 : / IZR (2 ^ 48) <= norm (vals (lq c)) <= IZR (2 ^ 62)).
  { split; [apply Rle_trans with (9 * u); [|lra]|apply Rle_trans with 2; [lra|now apply IZR_le]]. apply Rle_trans with (/ 16777216); [apply Rinv_le_contravar; [lra|now apply IZR_le]|rewrite uval; lra]. }
  exists (normalize_q (F32 L) c). split; [unfold nlerp; rewrite Ec; reflexivity|].
  destruct (normalize_q_near L _ c P (conj LP (conj Fc Kc)) ltac:(lra) R48) as (_ & Fn & Kn). split; [exact Fn|].
  destruct (C72_normalize_pf L) as (_ & _ & _ & H). destruct (H c Fc R48) as (_ & _ & KN). cbn [INR] in KN. split; [eapply Rle_trans; [exact KN|lra]|].
  eapply Rle_trans; [exact Kn|]. lra.
Qed.
Lemma ip_blend t A B C : length A = 4%nat -> length B = 4%nat -> length C = 4%nat -> ip (blend t A B) C = (1 - t) * ip A C + t * ip B C.
Proof. intros LA LB LC. list4 A. list4 B. list4 C. unfold blend, vadd, vscale, ip. cbn. ring. Qed.
Lemma blend_sq t A B : length A = 4%nat -> length B = 4%nat -> norm A = 1 -> norm B = 1 ->
  norm (blend t A B) * norm (blend t A B) = 1 - 2 * t * (1 - t) * (1 - ip A B).
Proof.
  intros LA LB NA NB. rewrite norm_sq. rewrite ip_blend by (trivial; now apply blend_len). rewrite (ip_comm4 A), (ip_comm4 B) by (trivial; now apply blend_len).
  rewrite !ip_blend by trivial. rewrite <- (norm_sq A), <- (norm_sq B), NA, NB, (ip_comm4 B A) by trivial. ring.
Qed.
Lemma blend_ge t A B : length A = 4%nat -> length B = 4%nat -> norm A = 1 -> norm B = 1 -> 0 <= t <= 1 -> 0 <= ip A B -> 7/10 <= norm (blend t A B).
Proof.
  intros LA LB NA NB Ht C. pose proof (blend_sq t A B LA LB NA NB) as S. pose proof (norm_nn (blend t A B)) as P.
  destruct (Rle_or_lt (7/10) (norm (blend t A B))) as [H|H]; [exact H|]. exfalso.
  assert (norm (blend t A B) * norm (blend t A B) < 49/100) by nra. set (c := ip A B) in *. clearbody c.
  assert (W1 : 0 <= t * (1 - t)) by (apply Rmult_le_pos; lra). assert (W2 : t * (1 - t) <= / 4) by (pose proof (Rle_0_sqr (t - / 2)) as Q; unfold Rsqr in Q; lra).
  replace (2 * t * (1 - t) * (1 - c)) with (2 * (t * (1 - t)) - 2 * (t * (1 - t) * c)) in S by ring. pose proof (Rmult_le_pos _ _ W1 C). lra.
Qed.
(** For quaternions at most a quarter turn of the 3-sphere apart (dot product not negative) nlerp is within 3 e + 18 half-ulps. *)
Lemma C104_near_pf : forall (L : Libm) (b : build) (e : R) (x y : quat f32) (X Y : quat R) (t : f32),
  unit_near e x X -> unit_near e y Y -> e <= / 250 -> between 0 1 t -> 0 <= ip (lq X) (lq Y) ->
  exists r : quat f32, nlerp (F32 L) b x y t = Ret r /\ all_finite (lq r) /\ Rabs (norm (vals (lq r)) - 1) <= 9 * ulp_half /\
  norm (vsub (vals (lq r)) (unit_of (blend (b2r t) (lq X) (lq Y)))) <= 3 * e + 18 * ulp_half.
Proof.
  intros L b e x y X Y t Hx Hy He Ht C. destruct (unit_near_norm _ _ _ Hx) as [_ Pe]. pose proof u_val as U.
  assert (G : 7/10 <= norm (blend (b2r t) (lq X) (lq Y))).
  { apply blend_ge; try apply lq_len; trivial; [apply Hx|apply Hy|apply Ht]. }
  destruct (C104_nlerp_pf L b e x y X Y t Hx Hy He Ht ltac:(lra)) as (r & E & F & N & K). exists r. split; [exact E|]. split; [exact F|]. split; [exact N|].
  eapply Rle_trans; [exact K|]. set (s := norm (blend (b2r t) (lq X) (lq Y))) in *.
  assert (I : / s <= 10/7) by (replace (10/7) with (/ (7/10)) by field; apply Rinv_le_contravar; lra). unfold Rdiv.
  assert (2 * (e + 31/10 * u) * / s <= 2 * (e + 31/10 * u) * (10/7)) by (apply Rmult_le_compat_l; lra). lra.
Qed.
(** ** Following a target *)
Lemma sub_sq A B : length A = 4%nat -> length B = 4%nat -> norm A = 1 -> norm B = 1 -> norm (vsub A B) * norm (vsub A B) = 2 - 2 * ip A B.
Proof.
  intros LA LB NA NB. rewrite norm_sq. assert (E : ip (vsub A B) (vsub A B) = ip A A - 2 * ip A B + ip B B) by (list4 A; list4 B; unfold vsub, ip; cbn; ring).
  rewrite E, <- (norm_sq A), <- (norm_sq B), NA, NB. ring.
Qed.
Lemma contract t Q T : length Q = 4%nat -> length T = 4%nat -> norm Q = 1 -> norm T = 1 -> 0 <= t <= 1 -> 0 <= ip Q T ->
  norm (vsub (unit_of (blend t Q T)) T) <= (1 - t / 2) * norm (vsub Q T).
Proof.
  intros LQ LT NQ NT Ht C. pose proof (blend_ge t Q T LQ LT NQ NT Ht C) as G. pose proof (blend_norm t Q T LQ LT Ht) as S. rewrite NQ, NT in S.
  set (V := blend t Q T) in *. assert (LV : length V = 4%nat) by now apply blend_len.
  assert (LU : length (unit_of V) = 4%nat) by (unfold unit_of; now rewrite vscale_len).
  assert (NU : norm (unit_of V) = 1) by (apply unit_norm'; lra).
  pose proof (norm_nn (vsub Q T)) as PD. assert (0 <= (1 - t / 2) * norm (vsub Q T)) by (apply Rmult_le_pos; lra).
  apply sq_le_norm; [assumption|]. rewrite <- norm_sq, sub_sq by trivial.
  replace ((1 - t / 2) * norm (vsub Q T) * ((1 - t / 2) * norm (vsub Q T))) with ((1 - t / 2) * (1 - t / 2) * (norm (vsub Q T) * norm (vsub Q T))) by ring.
  rewrite sub_sq by trivial.
  assert (IU : ip (unit_of V) T = / norm V * ((1 - t) * ip Q T + t)).
  { transitivity (/ norm V * ip V T); [|unfold V; rewrite ip_blend, <- (norm_sq T), NT by trivial; ring]. unfold unit_of. generalize (/ norm V). clear - LV LT. clearbody V. intros k. list4 V. list4 T. unfold vscale, ip. cbn. ring. }
  rewrite IU.
  assert (C1 : ip Q T <= 1). { pose proof (sub_sq Q T LQ LT NQ NT). nra. }
  assert (I : 1 <= / norm V) by (rewrite <- Rinv_1 at 1; apply Rinv_le_contravar; lra). set (k := / norm V) in *. set (c := ip Q T) in *. clearbody k c.
  assert (0 <= (1 - t) * c + t) by nra. assert ((1 - t) * c + t <= k * ((1 - t) * c + t)) by nra. nra.
Qed.
Lemma q4_unit q : all_finite (lq q) -> Rabs (norm (vals (lq q)) - 1) <= 9 * u -> unit_near (9 * u) q (q4 (unit_of (vals (lq q)))).
Proof.
  intros F N. assert (LU : length (unit_of (vals (lq q))) = 4%nat) by (unfold unit_of; now rewrite vscale_len).
  assert (P : 0 < norm (vals (lq q))) by (pose proof u_val; apply Rabs_le_inv in N; lra).
  split; [exact F|]. unfold unit_quat. rewrite lq_q4 by exact LU. split; [now apply unit_norm'|]. rewrite unit_dist; trivial.
Qed.
Lemma follow_step L b q y t : all_finite (lq q) -> all_finite (lq y) -> Rabs (norm (vals (lq q)) - 1) <= 9 * u -> Rabs (norm (vals (lq y)) - 1) <= 9 * u ->
  between 0 1 t -> let D p := norm (vsub (unit_of (vals (lq p))) (unit_of (vals (lq y)))) in D q <= 7/5 ->
  exists r : quat f32, nlerp (F32 L) b q y t = Ret r /\ all_finite (lq r) /\ Rabs (norm (vals (lq r)) - 1) <= 9 * u /\ D r <= (1 - b2r t / 2) * D q + 54 * u.
Proof.
  intros Fq Fy Nq Ny Ht D HD. pose proof u_val as U.
  set (Q := unit_of (vals (lq q))) in *. set (T := unit_of (vals (lq y))) in *.
  assert (LQ : length Q = 4%nat) by (unfold Q, unit_of; now rewrite vscale_len). assert (LT : length T = 4%nat) by (unfold T, unit_of; now rewrite vscale_len).
  pose proof (q4_unit q Fq Nq) as Uq. pose proof (q4_unit y Fy Ny) as Uy. fold Q in Uq. fold T in Uy.
  assert (NQ : norm Q = 1) by (destruct Uq as (_ & X & _); unfold unit_quat in X; rewrite lq_q4 in X; trivial).
  assert (NT : norm T = 1) by (destruct Uy as (_ & X & _); unfold unit_quat in X; rewrite lq_q4 in X; trivial).
  assert (Dq : D q = norm (vsub Q T)) by reflexivity.
  assert (C : 0 <= ip Q T). { pose proof (sub_sq Q T LQ LT NQ NT) as S. pose proof (norm_nn (vsub Q T)). rewrite Dq in HD. nra. }
  destruct (C104_near_pf L b (9 * u) q y _ _ t Uq Uy ltac:(lra) Ht ltac:(rewrite !lq_q4 by trivial; exact C)) as (r & E & F & N & K). rewrite !lq_q4 in K by trivial.
  exists r. split; [exact E|]. split; [exact F|]. split; [exact N|].
  assert (P : 0 < norm (vals (lq r))) by (apply Rabs_le_inv in N; lra).
  assert (K1 : norm (vsub (unit_of (vals (lq r))) (vals (lq r))) <= 9 * u).
  { replace (norm (vsub (unit_of (vals (lq r))) (vals (lq r)))) with (norm (vsub (vals (lq r)) (unit_of (vals (lq r))))); [rewrite unit_dist; trivial|].
    assert (G : forall A B, length A = 4%nat -> length B = 4%nat -> norm (vsub A B) = norm (vsub B A)).
    { intros A B LA LB. unfold norm. f_equal. list4 A. list4 B. unfold vsub, ip. cbn. ring. }
    apply G; [reflexivity|unfold unit_of; now rewrite vscale_len]. }
  pose proof (contract (b2r t) Q T LQ LT NQ NT (proj2 Ht) C) as K2.
  assert (L1 : length (unit_of (vals (lq r))) = 4%nat) by (unfold unit_of; now rewrite vscale_len).
  assert (L2 : length (unit_of (blend (b2r t) Q T)) = 4%nat) by (unfold unit_of; rewrite vscale_len; now apply blend_len).
  pose proof (tri4 _ _ _ _ _ L1 (eq_refl : length (vals (lq r)) = 4%nat) L2 K1 K) as K3. pose proof (tri4 _ _ _ _ _ L1 L2 LT K3 K2) as K4.
  change (norm (vsub (unit_of (vals (lq r))) T) <= (1 - b2r t / 2) * norm (vsub Q T) + 54 * u). lra.
Qed.
Lemma follow_n : forall (L : Libm) (b : build) (q y : quat f32) (t : f32) (n : nat),
  all_finite (lq q) -> all_finite (lq y) -> Rabs (norm (vals (lq q)) - 1) <= 9 * ulp_half -> Rabs (norm (vals (lq y)) - 1) <= 9 * ulp_half ->
  between (/ IZR (2 ^ 17)) 1 t ->
  let D p := norm (vsub (unit_of (vals (lq p))) (unit_of (vals (lq y)))) in D q <= 7/5 ->
  exists r : quat f32, updates (fun p => nlerp (F32 L) b p y t) n q = Ret r /\ all_finite (lq r) /\ Rabs (norm (vals (lq r)) - 1) <= 9 * ulp_half /\
  D r <= (1 - b2r t / 2) ^ n * D q + (1 - (1 - b2r t / 2) ^ n) * (108 * ulp_half / b2r t).
Proof.
  intros L b q y t n Fq Fy Nq Ny [Ft Bt] D HD. pose proof u_val as U. assert (E17 : / IZR (2 ^ 17) = 128 * u) by (rewrite uval; change (2 ^ 17)%Z with 131072%Z; lra). rewrite E17 in Bt. clear E17.
  assert (Ht : between 0 1 t) by (split; [exact Ft|lra]).
  assert (X0 : 0 <= 108 * u / b2r t) by (unfold Rdiv; apply Rmult_le_pos; [lra|]; left; apply Rinv_0_lt_compat; lra).
  revert q Fq Nq HD. induction n as [|n IH]; intros q Fq Nq HD.
  - exists q. split; [reflexivity|]. split; [exact Fq|]. split; [exact Nq|]. cbn [pow]. lra.
  - destruct (follow_step L b q y t Fq Fy Nq Ny Ht HD) as (p & E & Fp & Np & Kp). fold (D p) in Kp. fold (D q) in Kp.
    assert (P0 : 0 <= D q) by apply norm_nn.
    assert (HDp : D p <= 7/5) by nra.
    destruct (IH p Fp Np HDp) as (r & Er & Fr & Nr & Kr). exists r. split; [cbn [updates]; rewrite E; exact Er|]. split; [exact Fr|]. split; [exact Nr|].
    eapply Rle_trans; [exact Kr|]. cbn [pow]. set (rho := 1 - b2r t / 2) in *. assert (PR : 0 <= rho ^ n) by (apply pow_le; unfold rho; lra).
    assert (CC : 54 * u = (1 - rho) * (108 * u / b2r t)) by (unfold rho; field; lra). rewrite CC in Kp. set (c := 108 * u / b2r t) in *.
    assert (rho ^ n * D p <= rho ^ n * (rho * D q + (1 - rho) * c)) by (apply Rmult_le_compat_l; [exact PR|exact Kp]). lra.
Qed.

(** Repeating q := nlerp(q, target, t) any number n of times, for normalized q and target less than 88 degrees apart on the 3-sphere and t in
    [2^-17, 1]: every step returns, q stays normalized within 9 half-ulps, and its distance from the target is at most (1 - t/2)^n times
    that of the start, plus 108 half-ulps / t. *)
Lemma C104_follow_pf : forall (L : Libm) (b : build) (q y : quat f32) (t : f32) (n : nat),
  all_finite (lq q) -> all_finite (lq y) -> Rabs (norm (vals (lq q)) - 1) <= 9 * ulp_half -> Rabs (norm (vals (lq y)) - 1) <= 9 * ulp_half ->
  between (/ IZR (2 ^ 17)) 1 t ->
  let D p := norm (vsub (unit_of (vals (lq p))) (unit_of (vals (lq y)))) in D q <= 7/5 ->
  exists r : quat f32, updates (fun p => nlerp (F32 L) b p y t) n q = Ret r /\ all_finite (lq r) /\ Rabs (norm (vals (lq r)) - 1) <= 9 * ulp_half /\
  D r <= (1 - b2r t / 2) ^ n * D q + 108 * ulp_half / b2r t.
Proof.
  intros L b q y t n Fq Fy Nq Ny Ht D HD. destruct (follow_n L b q y t n Fq Fy Nq Ny Ht HD) as (r & E & F & N & K). exists r. split; [exact E|]. split; [exact F|]. split; [exact N|].
  eapply Rle_trans; [exact K|]. apply Rplus_le_compat_l. destruct Ht as [_ Bt]. assert (P : 0 < b2r t) by (eapply Rlt_le_trans; [|apply Bt]; apply Rinv_0_lt_compat; now apply (IZR_lt 0)).
  assert (0 <= (1 - b2r t / 2) ^ n) by (apply pow_le; lra). pose proof u_val as U.
  assert (0 <= 108 * u / b2r t) by (unfold Rdiv; apply Rmult_le_pos; [lra|]; left; now apply Rinv_0_lt_compat).
  rewrite <- (Rmult_1_l (108 * u / b2r t)) at 2. apply Rmult_le_compat_r; lra.
Qed.
(** nlerp does not take the shorter way: halfway between a quaternion and its negation, which are the same rotation, every component is NaN. *)
Lemma C104_opposite_refuted_pf : forall (L : Libm) (b : build) (q : quat f32), all_finite (lq q) -> bounded_by 1 (lq q) ->
  exists r : quat f32, nlerp (F32 L) b q (quat_neg (F32 L) q) (f32_lit 5 (-1)) = Ret r /\ Forall (fun x => is_nan x = true) (lq r).
Proof.
  intros L b q F B. set (h := f32_lit 5 (-1)). assert (Eh : b2r h = / 2) by (vm_compute; lra). assert (Fh : finite h) by reflexivity.
  assert (Ht : between 0 1 h) by (split; [exact Fh|rewrite Eh; lra]).
  assert (Z : forall x : f32, finite x -> Rabs (b2r x) <= 1 -> lerp1 x (Bopp x) h = B754_zero false).
  { intros x Fx Bx. unfold lerp1. assert (Eo : Bminus mode_NE (f32_lit 1 0) h = h) by (apply B2SF_inj; vm_compute; reflexivity). rewrite Eo.
    change (badd (bmul x h) (bmul (Bopp x) h) = B754_zero false). rewrite bmul_opp_l. rewrite <- (opp_involutive (bmul x h)) at 1. apply add_opp_self. apply finite_opp.
    assert (W : within 0 x) by (split; [exact Fx|cbn; lra]). assert (Wh : within 0 h) by (split; [exact Fh|rewrite Eh, Rabs_pos_eq by lra; cbn; lra]).
    destruct (w_mul 0 0 0 x h W Wh) as [[V _] _]; [lia|lia|exact V]. }
  unfold nlerp. rewrite lerp_ret by exact Ht. cbn [bind]. eexists. split; [reflexivity|].
  destruct (C33_zero_pf L) as (_ & _ & _ & H). apply H. clear H.
  destruct q as [x0 x1 x2 x3]. unfold all_finite, bounded_by, lq in F, B. cbn [qx qy qz qw] in F, B.
  apply Forall_cons_iff in F as [F0 F]. apply Forall_cons_iff in F as [F1 F]. apply Forall_cons_iff in F as [F2 F]. apply Forall_cons_iff in F as [F3 _].
  apply Forall_cons_iff in B as [B0 B]. apply Forall_cons_iff in B as [B1 B]. apply Forall_cons_iff in B as [B2 B]. apply Forall_cons_iff in B as [B3 _].
  change (Forall (fun x => iszero x = true) [lerp1 x0 (Bopp x0) h; lerp1 x1 (Bopp x1) h; lerp1 x2 (Bopp x2) h; lerp1 x3 (Bopp x3) h]).
  rewrite !Z by assumption. repeat constructor.
Qed.
(*PROPS
(** The hypotheses are met: smoothing from the identity to a turn of 120 degrees with a step of 1/8. *)
Example C104_case : let h := f32_lit 5 (-1) in let q := Quat (f32_lit 0 0) (f32_lit 0 0) (f32_lit 0 0) (f32_lit 1 0) in let y := Quat h h h h in
  let t := f32_lit 125 (-3) in
  all_finite (lq q) /\ all_finite (lq y) /\ Rabs (norm (vals (lq q)) - 1) <= 9 * ulp_half /\ Rabs (norm (vals (lq y)) - 1) <= 9 * ulp_half /\
  between (/ IZR (2 ^ 17)) 1 t /\ norm (vsub (unit_of (vals (lq q))) (unit_of (vals (lq y)))) <= 7/5.
Proof.
  intros h q y t. assert (Eh : b2r h = / 2) by (vm_compute; lra). assert (E0 : b2r (f32_lit 0 0) = 0) by reflexivity. assert (E1 : b2r (f32_lit 1 0) = 1) by (vm_compute; lra).
  assert (Et : b2r t = / 8) by (vm_compute; lra). assert (U : 0 < ulp_half) by (unfold ulp_half; apply Rinv_0_lt_compat, (IZR_lt 0); reflexivity).
  assert (Vq : vals (lq q) = [0; 0; 0; 1]) by (unfold q, vals, lq; cbn [map qx qy qz qw]; rewrite E0, E1; reflexivity).
  assert (Vy : vals (lq y) = [/ 2; / 2; / 2; / 2]) by (unfold y, vals, lq; cbn [map qx qy qz qw]; rewrite Eh; reflexivity).
  rewrite Vq, Vy.
  assert (Nq : norm [0; 0; 0; 1] = 1) by (unfold norm, ip; cbn; transitivity (sqrt 1); [f_equal; ring|apply sqrt_1]).
  assert (Ny : norm [/ 2; / 2; / 2; / 2] = 1) by (unfold norm, ip; cbn; transitivity (sqrt 1); [f_equal; field|apply sqrt_1]).
  split; [repeat constructor|]. split; [repeat constructor|]. unfold unit_of. rewrite Nq, Ny, Rinv_1.
  replace (1 - 1) with 0 by ring. rewrite Rabs_R0. split; [lra|]. split; [lra|]. split; [split; [reflexivity|rewrite Et; change (2 ^ 17)%Z with 131072%Z; lra]|].
  unfold norm, ip. cbn. apply Rle_trans with (sqrt 1); [apply sqrt_le_1_alt; lra|rewrite sqrt_1; lra].
Qed.
PROPS*)
