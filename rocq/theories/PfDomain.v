(** * Proofs: guarded operations never leave their domain *)
From Coq Require Import ZArith Bool Reals List Lra Lia.
From Flocq Require Import Core IEEE754.BinarySingleNaN.
From Verif Require Import Scalar IEEE32 RealInst Types Outcome Spec SpecR SpecMat SpecGeo SpecF32 SpecErr SpecOrd SpecDom FloatBasics FloatOps
  ModelVec ModelCommon ModelExp ModelGeom ModelMat ModelMatrix ModelQuat ModelQuaternion ModelColor ModelTrig ModelConst ErrLib OvfLib F32Tac.
Import ListNotations.
Local Open Scope R_scope.
(*HEADER END*)
From Verif Require Import FloatAlg NumLib OvfLib PfErr ScaleLib LenLib MonoLib DomLib PfMono.

Ltac wi := first [eassumption | lia | apply w_opp; eassumption].
(** ** Matrix to quaternion *)
Lemma sub_neg_order a b c : within 125 a -> within 125 b -> within 125 c -> b2r (Bminus mode_NE (Bminus mode_NE a b) c) < 0 -> rnd (b2r a - b2r b) < b2r c.
Proof.
  intros Ha Hb Hc H. destruct (w_sub 125 125 126 a b) as [W1 E1]; try wi. destruct (w_sub 126 125 127 _ c W1 Hc) as [_ E3]; try wi.
  rewrite E3 in H. apply rnd_neg_inv in H. rewrite E1 in H. lra.
Qed.
(** one of the four candidates is not negative *)
Lemma four_cases a b c : within 125 a -> within 125 b -> within 125 c ->
  b2r (Bminus mode_NE (Bminus mode_NE a b) c) < 0 -> b2r (Bminus mode_NE (Bminus mode_NE b a) c) < 0 -> b2r (Bminus mode_NE (Bminus mode_NE c a) b) < 0 ->
  0 <= b2r (Bplus mode_NE (Bplus mode_NE a b) c).
Proof.
  intros Ha Hb Hc H1 H2 H3. pose proof (sub_neg_order _ _ _ Ha Hb Hc H1) as K1. pose proof (sub_neg_order _ _ _ Hb Ha Hc H2) as K2. pose proof (sub_neg_order _ _ _ Hc Ha Hb H3) as K3.
  assert (C : 0 < b2r c). { replace (b2r b - b2r a) with (- (b2r a - b2r b)) in K2 by ring. rewrite rnd_opp in K2. lra. }
  destruct (w_add 125 125 126 a b) as [W1 E1]; try wi. destruct (w_add 126 125 127 _ c W1 Hc) as [_ E3]; try wi.
  rewrite E3. apply rnd_pos. rewrite E1.
  assert (A : rnd (b2r a - b2r b) < b2r c) by exact K1.
  assert (rnd (b2r c - b2r a) < b2r b) by exact K3.
  destruct (Rle_or_lt 0 (b2r a + b2r b)) as [P|P]; [apply rnd_pos in P; lra|].
  assert (rnd (- (b2r a + b2r b)) <= b2r c); [|rewrite rnd_opp in *; lra].
  destruct (Rle_or_lt (- (b2r a + b2r b)) (b2r c)) as [Q|Q]; [now apply rnd_le_fmt; [apply fmt_b2r|]|].
  exfalso. assert (K : b2r b < b2r c - b2r a) by lra. assert (b2r b <= rnd (b2r c - b2r a)) by (apply rnd_ge_fmt; [apply fmt_b2r|lra]). lra.
Qed.

Lemma qc_scale (y : f32) : within 126 y -> 0 <= b2r y -> let v := Bmult mode_NE (Bsqrt mode_NE (Bplus mode_NE y (f32_lit 1 0))) (f32_lit 5 (-1)) in
  within 63 v /\ / 2 <= b2r v /\ within (-1) (Bdiv mode_NE (f32_lit 25 (-2)) v).
Proof.
  intros W P v. assert (W1 : within 0 (f32_lit 1 0)) by (split; [reflexivity|rewrite b2r_lit1, Rabs_R1; cbn; lra]).
  assert (Wh : within (-1) (f32_lit 5 (-1))) by (split; [reflexivity|rewrite b2r_lit_half, Rabs_pos_eq; cbn; lra]).
  assert (Wq : within (-2) (f32_lit 25 (-2))) by (split; [reflexivity|]; assert (E : b2r (f32_lit 25 (-2)) = / 4) by (unfold f32_lit; vm_compute; lra); rewrite E, Rabs_pos_eq; cbn; lra).
  destruct (w_add 126 0 127 y _ W W1) as [W2 E2]; try lia. rewrite b2r_lit1 in E2.
  assert (G : 1 <= b2r (Bplus mode_NE y (f32_lit 1 0))) by (rewrite E2; apply rnd_ge_fmt; [apply fmt_1|lra]).
  destruct (w_sqrt 127 64 _ W2) as (W3 & P3 & E3); [lra|lia|lia|].
  assert (G3 : 1 <= b2r (Bsqrt mode_NE (Bplus mode_NE y (f32_lit 1 0)))) by (rewrite E3; apply rnd_ge_fmt; [apply fmt_1|]; rewrite <- sqrt_1; now apply sqrt_le_1_alt).
  destruct (w_mul 64 (-1) 63 _ _ W3 Wh) as [W4 E4]; try lia. fold v in W4, E4. rewrite b2r_lit_half in E4.
  assert (G4 : / 2 <= b2r v) by (rewrite E4; change (/ 2) with (p2 (-1)) at 1; apply rnd_ge_fmt; [apply fmt_bpow; lia|]; change (p2 (-1)) with (/ 2); lra).
  split; [exact W4|]. split; [exact G4|].
  apply (w_div (-2) 1 (-1)); [exact Wq|apply W4| |lia|lia]. rewrite Rabs_pos_eq by lra. change (p2 (- (1))) with (/ 2). exact G4.
Qed.
Ltac ands := repeat match goal with |- _ /\ _ => split end.
(** quat_cast produces a finite quaternion with a component at least 1/2 from every finite matrix (rotation or not, entries up to 2^124):
    the square root is never taken of a negative number and the division never has a small divisor. *)
Lemma C83_quat_cast_pf : forall L : Libm,
  (forall m, all_finite (lm3 m) -> bounded_by (IZR (2 ^ 124)) (lm3 m) -> all_finite (lq (quat_cast3 (F32 L) m)) /\ Exists (fun x => / 2 <= b2r x) (lq (quat_cast3 (F32 L) m))) /\
  (forall m, all_finite (lm4 m) -> bounded_by (IZR (2 ^ 124)) (lm4 m) -> all_finite (lq (quat_cast4 (F32 L) m)) /\ Exists (fun x => / 2 <= b2r x) (lq (quat_cast4 (F32 L) m))).
Proof.
  intros L. assert (A : forall m, Forall (within 124) (lm3 m) -> all_finite (lq (quat_cast3 (F32 L) m)) /\ Exists (fun x => / 2 <= b2r x) (lq (quat_cast3 (F32 L) m))).
  { intros [[a00 a01 a02] [a10 a11 a12] [a20 a21 a22]] W. cbn in W.
    assert (W00 : within 124 a00) by (apply (Forall_forall (within 124) _) with (1 := W); cbn; tauto). assert (W01 : within 124 a01) by (apply (Forall_forall (within 124) _) with (1 := W); cbn; tauto).
    assert (W02 : within 124 a02) by (apply (Forall_forall (within 124) _) with (1 := W); cbn; tauto). assert (W10 : within 124 a10) by (apply (Forall_forall (within 124) _) with (1 := W); cbn; tauto).
    assert (W11 : within 124 a11) by (apply (Forall_forall (within 124) _) with (1 := W); cbn; tauto). assert (W12 : within 124 a12) by (apply (Forall_forall (within 124) _) with (1 := W); cbn; tauto).
    assert (W20 : within 124 a20) by (apply (Forall_forall (within 124) _) with (1 := W); cbn; tauto). assert (W21 : within 124 a21) by (apply (Forall_forall (within 124) _) with (1 := W); cbn; tauto).
    assert (W22 : within 124 a22) by (apply (Forall_forall (within 124) _) with (1 := W); cbn; tauto). clear W.
    assert (C3 : forall x y z, within 124 x -> within 124 y -> within 124 z -> within 126 (Bminus mode_NE (Bminus mode_NE x y) z)).
    { intros x y z X Y Z. destruct (w_sub 124 124 125 x y) as [W _]; try wi. now apply (w_sub 125 124 126). }
    assert (C4 : forall x y z, within 124 x -> within 124 y -> within 124 z -> within 126 (Bplus mode_NE (Bplus mode_NE x y) z)).
    { intros x y z X Y Z. destruct (w_add 124 124 125 x y) as [W _]; try wi. now apply (w_add 125 124 126). }
    set (X := Bminus mode_NE (Bminus mode_NE a00 a11) a22). set (Y := Bminus mode_NE (Bminus mode_NE a11 a00) a22).
    set (Z := Bminus mode_NE (Bminus mode_NE a22 a00) a11). set (W := Bplus mode_NE (Bplus mode_NE a00 a11) a22).
    assert (WX : within 126 X) by now apply C3. assert (WY : within 126 Y) by now apply C3. assert (WZ : within 126 Z) by now apply C3. assert (WW : within 126 W) by now apply C4.
    assert (SG : b2r X < 0 -> b2r Y < 0 -> b2r Z < 0 -> 0 <= b2r W) by (intros; apply four_cases; try assumption; now apply (w_weak 124)).
    assert (CC : exists (y : f32) (n : nat), within 126 y /\ 0 <= b2r y /\
      let v := Bmult mode_NE (Bsqrt mode_NE (Bplus mode_NE y (f32_lit 1 0))) (f32_lit 5 (-1)) in let mult := Bdiv mode_NE (f32_lit 25 (-2)) v in
      quat_cast3 (F32 L) (M3 (V3 a00 a01 a02) (V3 a10 a11 a12) (V3 a20 a21 a22)) =
      match n with
      | O => Quat (Bmult mode_NE (Bminus mode_NE a12 a21) mult) (Bmult mode_NE (Bminus mode_NE a20 a02) mult) (Bmult mode_NE (Bminus mode_NE a01 a10) mult) v
      | S O => Quat v (Bmult mode_NE (Bplus mode_NE a01 a10) mult) (Bmult mode_NE (Bplus mode_NE a20 a02) mult) (Bmult mode_NE (Bminus mode_NE a12 a21) mult)
      | S (S O) => Quat (Bmult mode_NE (Bplus mode_NE a01 a10) mult) v (Bmult mode_NE (Bplus mode_NE a12 a21) mult) (Bmult mode_NE (Bminus mode_NE a20 a02) mult)
      | _ => Quat (Bmult mode_NE (Bplus mode_NE a20 a02) mult) (Bmult mode_NE (Bplus mode_NE a12 a21) mult) v (Bmult mode_NE (Bminus mode_NE a01 a10) mult)
      end).
    { set (c1 := Bltb W X). set (y1 := if c1 then X else W). set (c2 := Bltb y1 Y). set (y2 := if c2 then Y else y1). set (c3 := Bltb y2 Z). set (y3 := if c3 then Z else y2).
      set (n := if c3 then 3%nat else if c2 then 2%nat else if c1 then 1%nat else 0%nat).
      assert (E1 : c1 = Rlt_bool (b2r W) (b2r X)) by (apply bltb_b2r; [apply WW|apply WX]).
      assert (P1 : within 126 y1 /\ b2r W <= b2r y1 /\ b2r X <= b2r y1). { unfold y1. rewrite E1. destruct (Rlt_bool_spec (b2r W) (b2r X)); ands; trivial; lra. }
      assert (E2 : c2 = Rlt_bool (b2r y1) (b2r Y)) by (apply bltb_b2r; [apply P1|apply WY]).
      assert (P2 : within 126 y2 /\ b2r y1 <= b2r y2 /\ b2r Y <= b2r y2). { unfold y2. rewrite E2. destruct (Rlt_bool_spec (b2r y1) (b2r Y)); ands; trivial; try apply P1; lra. }
      assert (E3 : c3 = Rlt_bool (b2r y2) (b2r Z)) by (apply bltb_b2r; [apply P2|apply WZ]).
      assert (P3 : within 126 y3 /\ b2r y2 <= b2r y3 /\ b2r Z <= b2r y3). { unfold y3. rewrite E3. destruct (Rlt_bool_spec (b2r y2) (b2r Z)); ands; trivial; try apply P2; lra. }
      exists y3, n. ands; [apply P3| |].
      - destruct (Rlt_or_le (b2r X) 0) as [x|x]; [|lra]. destruct (Rlt_or_le (b2r Y) 0) as [y|y]; [|lra]. destruct (Rlt_or_le (b2r Z) 0) as [z|z]; [|lra]. specialize (SG x y z). lra.
      - clear. unfold n, y3, c3, y2, c2, y1, c1. cbv -[Bplus Bmult Bminus Bdiv Bsqrt Bltb f32_lit].
        repeat (match goal with |- context [Bltb ?a ?b] => lazymatch a with context [Bltb] => fail | _ => destruct (Bltb a b) end end; cbn iota); reflexivity. }
    destruct CC as (y & n & Wy & Py & E). cbv zeta in E. rewrite E. clear E. destruct (qc_scale y Wy Py) as (Wv & Gv & Wm).
    assert (Ms : forall x z, within 124 x -> within 124 z -> finite (Bmult mode_NE (Bminus mode_NE x z) (Bdiv mode_NE (f32_lit 25 (-2)) (Bmult mode_NE (Bsqrt mode_NE (Bplus mode_NE y (f32_lit 1 0))) (f32_lit 5 (-1)))))).
    { intros x z X' Z'. destruct (w_sub 124 124 125 x z) as [U _]; try wi. now apply (w_mul 125 (-1) 124). }
    assert (Ma : forall x z, within 124 x -> within 124 z -> finite (Bmult mode_NE (Bplus mode_NE x z) (Bdiv mode_NE (f32_lit 25 (-2)) (Bmult mode_NE (Bsqrt mode_NE (Bplus mode_NE y (f32_lit 1 0))) (f32_lit 5 (-1)))))).
    { intros x z X' Z'. destruct (w_add 124 124 125 x z) as [U _]; try wi. now apply (w_mul 125 (-1) 124). }
    destruct n as [|[|[|n]]]; cbn [lq qx qy qz qw]; split; try (repeat apply Forall_cons; try apply Forall_nil; first [apply Wv|apply Ms; assumption|apply Ma; assumption]).
    - do 3 apply Exists_cons_tl. now apply Exists_cons_hd.
    - now apply Exists_cons_hd.
    - apply Exists_cons_tl. now apply Exists_cons_hd.
    - do 2 apply Exists_cons_tl. now apply Exists_cons_hd. }
  split.
  - intros m F B. apply A. now apply within_all.
  - intros [[a00 a01 a02 a03] [a10 a11 a12 a13] [a20 a21 a22 a23] c3] F B. apply A. apply within_all in B; [|lia|exact F]. cbn in B |- *.
    repeat match goal with H : Forall _ (_ :: _) |- _ => apply Forall_cons_iff in H as [? H] end. repeat apply Forall_cons; trivial; apply Forall_nil.
Qed.

Ltac norml H := cbv [l2 l3 l4 lq app x2 y2 x3 y3 z3 x4 y4 z4 w4 qx qy qz qw] in H.
Ltac comps H := try unfold all_finite in H; repeat match type of H with Forall _ (_ :: _) => let K := fresh "W" in apply Forall_cons_iff in H as [K H] end.
Ltac fins := repeat apply Forall_cons; try apply Forall_nil.
(** axis(q) is finite for every finite q (up to 2^114), normalized or not. *)
Lemma C83_axis_pf : forall (L : Libm) (q : quat f32), all_finite (lq q) -> bounded_by (IZR (2 ^ 114)) (l3 (V3 (qx q) (qy q) (qz q))) ->
  all_finite (l3 (axis (F32 L) q)).
Proof.
  intros L [x y z w] F B. norml F. comps F. norml B. rename W2 into Fw.
  apply within_all in B; [|lia|fins; assumption].
  norml B. comps B.
  change (all_finite (l3 (if Bleb (Bminus mode_NE (f32_lit 1 0) (Bmult mode_NE w w)) (f32_lit 0 0) then V3 (f32_ofZ 0) (f32_ofZ 0) (f32_ofZ 1) else
    let t := Bdiv mode_NE (f32_lit 1 0) (Bsqrt mode_NE (Bminus mode_NE (f32_lit 1 0) (Bmult mode_NE w w))) in V3 (Bmult mode_NE x t) (Bmult mode_NE y t) (Bmult mode_NE z t)))).
  destruct (Bleb (Bminus mode_NE (f32_lit 1 0) (Bmult mode_NE w w)) (f32_lit 0 0)) eqn:E; [cbn; fins; reflexivity|].
  destruct (nn_sq w (finite_nn w Fw)) as [[N P] _]. set (s := Bmult mode_NE w w) in *. clearbody s.
  destruct (nn_inf s (conj N P)) as [Fs| ->]; [|vm_compute in E; discriminate E]. rewrite (xr_finite s Fs) in P.
  destruct (minus_xr (f32_lit 1 0) s fin_lit1 Fs) as [X Nt]. set (t := Bminus mode_NE (f32_lit 1 0) s) in *. rewrite b2r_lit1 in X.
  rewrite Bleb_xr in E by (trivial; reflexivity). change (xr (f32_lit 0 0)) with 0 in E.
  destruct (Rle_bool_spec (xr t) 0) as [|G]; [discriminate E|]. clear E.
  assert (S1 : b2r s < 1). { destruct (Rlt_or_le (b2r s) 1) as [K|K]; [exact K|]. exfalso. rewrite X in G. assert (rnd (1 - b2r s) <= 0) by (rewrite <- rnd_0; apply rnd_mono; lra).
    assert (clip (rnd (1 - b2r s)) <= 0) by (apply clip_le; [assumption|rewrite Rabs_R0; apply big_pos]). lra. }
  pose proof (below_one s S1) as S2.
  assert (Ws : within 0 s) by (split; [exact Fs|]; rewrite Rabs_pos_eq; cbn; lra).
  destruct (w_sub 0 0 1 _ s w_1 Ws) as [Wt Et]; try lia. fold t in Wt, Et. rewrite b2r_lit1 in Et.
  assert (At : above (-24) t) by (split; [apply Wt|]; rewrite Et; apply rnd_ge_fmt; [apply fmt_bpow; lia|lra]).
  pose proof (above_sqrt (-24) (-12) t At ltac:(lia) ltac:(lia)) as Aq.
  destruct (w_div 0 12 12 (f32_lit 1 0) (Bsqrt mode_NE t) w_1) as [Wd _]; try lia; [apply Aq|destruct Aq as [_ Aq]; pose proof (bpow_gt_0 radix2 (-12)); rewrite Rabs_pos_eq by lra; exact Aq|].
  cbv zeta. unfold l3; cbn [x3 y3 z3]. fold t. fins; eapply w_fin; wk.
Qed.

(** refract is finite for all finite arguments up to 2^19, however the vectors are scaled: the square root is only taken of numbers that are not negative. *)
Lemma C83_refract_pf : forall L : Libm,
  (forall i n eta, all_finite [i; n; eta] -> bounded_by (IZR (2 ^ 19)) [i; n; eta] -> finite (refract_f (F32 L) i n eta)) /\
  (forall i n eta, all_finite (l2 i ++ l2 n ++ [eta]) -> bounded_by (IZR (2 ^ 19)) (l2 i ++ l2 n ++ [eta]) -> all_finite (l2 (refract2 (F32 L) i n eta))) /\
  (forall i n eta, all_finite (l3 i ++ l3 n ++ [eta]) -> bounded_by (IZR (2 ^ 19)) (l3 i ++ l3 n ++ [eta]) -> all_finite (l3 (refract3 (F32 L) i n eta))) /\
  (forall i n eta, all_finite (l4 i ++ l4 n ++ [eta]) -> bounded_by (IZR (2 ^ 19)) (l4 i ++ l4 n ++ [eta]) -> all_finite (l4 (refract4 (F32 L) i n eta))).
Proof.
  assert (A : forall d eta : f32, within 41 d -> within 19 eta -> let k := Bminus mode_NE (f32_lit 1 0) (Bmult mode_NE (Bmult mode_NE eta eta) (Bminus mode_NE (f32_lit 1 0) (Bmult mode_NE d d))) in
    Bltb k (f32_lit 0 0) = false -> within 64 (Bplus mode_NE (Bmult mode_NE eta d) (Bsqrt mode_NE k))).
  { intros d eta Wd We k H. assert (Wk : within 126 k) by (unfold k; eapply w_weak; [|wk]; vm_compute; discriminate).
    rewrite bltb_b2r in H by (reflexivity || apply Wk). change (b2r (f32_lit 0 0)) with 0 in H. destruct (Rlt_bool_spec (b2r k) 0); [discriminate H|].
    destruct (w_sqrt 126 63 k Wk) as [Wq _]; [assumption|lia|lia|]. eapply w_weak; [|wk]. vm_compute. discriminate. }
  intros L. split; [|split; [|split]].
  - intros i n eta F B. apply within_all in B; [|lia|exact F]. comps B. specialize (A (Bmult mode_NE n i) eta ltac:(eapply w_weak; [|wk]; vm_compute; discriminate) ltac:(assumption)). cbv zeta in A.
    fs. destruct Bltb; [reflexivity|]. specialize (A eq_refl). eapply w_fin; wk.
  - intros [i0 i1] [n0 n1] eta F B. apply within_all in B; [|lia|exact F]. norml B. comps B.
    specialize (A (Bplus mode_NE (Bmult mode_NE n0 i0) (Bmult mode_NE n1 i1)) eta ltac:(eapply w_weak; [|wk]; vm_compute; discriminate) ltac:(assumption)). cbv zeta in A.
    fs. destruct Bltb; [fins; reflexivity|]. specialize (A eq_refl). fins; eapply w_fin; wk.
  - intros [i0 i1 i2] [n0 n1 n2] eta F B. apply within_all in B; [|lia|exact F]. norml B. comps B.
    specialize (A (Bplus mode_NE (Bplus mode_NE (Bmult mode_NE n0 i0) (Bmult mode_NE n1 i1)) (Bmult mode_NE n2 i2)) eta ltac:(eapply w_weak; [|wk]; vm_compute; discriminate) ltac:(assumption)). cbv zeta in A.
    fs. destruct Bltb; [fins; reflexivity|]. specialize (A eq_refl). fins; eapply w_fin; wk.
  - intros [i0 i1 i2 i3] [n0 n1 n2 n3] eta F B. apply within_all in B; [|lia|exact F]. norml B. comps B.
    fs. match goal with |- context [Bltb (Bminus mode_NE _ (Bmult mode_NE _ (Bminus mode_NE _ (Bmult mode_NE ?d ?d)))) _] =>
      assert (Wd : within 41 d) by (eapply w_weak; [|wk]; vm_compute; discriminate); specialize (A d eta Wd) end. specialize (A ltac:(assumption)). cbv zeta in A.
    destruct Bltb; [fins; reflexivity|]. specialize (A eq_refl). fins; eapply w_fin; wk.
Qed.

(** slerp never returns NaN or an infinity: for all finite quaternions (normalized or not) and all finite t up to 2^60, acos is only called on
    [0, 1 - 2^-23] and the divisor sin(angle) is never small. *)
Lemma C83_slerp_pf : forall (L : Libm) (x y : quat f32) (t : f32), slerp_libm L ->
  all_finite (t :: lq x ++ lq y) -> bounded_by (IZR (2 ^ 60)) (t :: lq x ++ lq y) -> all_finite (lq (slerp (F32 L) x y t)).
Proof.
  intros L [x0 x1 x2 x3] [y0 y1 y2 y3] t (Hs & Hs2 & Ha) F B. apply within_all in B; [|lia|exact F]. norml B. comps B. clear F.
  assert (Core : forall (z0 z1 z2 z3 c : f32), within 60 z0 -> within 60 z1 -> within 60 z2 -> within 60 z3 -> within 123 c -> 0 <= b2r c ->
    all_finite (lq (if Bltb (Bminus mode_NE (f32_lit 1 0) (c_epsilon (F32 L))) c
      then Quat (mix_f (F32 L) x0 z0 t) (mix_f (F32 L) x1 z1 t) (mix_f (F32 L) x2 z2 t) (mix_f (F32 L) x3 z3 t)
      else quat_div_sc (F32 L) (quat_add (F32 L) (sc_mul_quat (F32 L) (l_sin L (Bmult mode_NE (Bminus mode_NE (f32_lit 1 0) t) (l_acos L c))) (Quat x0 x1 x2 x3))
             (sc_mul_quat (F32 L) (l_sin L (Bmult mode_NE t (l_acos L c))) (Quat z0 z1 z2 z3))) (l_sin L (l_acos L c))))).
  { intros z0 z1 z2 z3 c Z0 Z1 Z2 Z3 Wc Pc. set (th := Bminus mode_NE (f32_lit 1 0) (c_epsilon (F32 L))).
    assert (Eth : b2r th = 1 - / IZR (2 ^ 23)).
    { assert (E : th = f32_lit 99999988079071044921875 (-23)) by (unfold th; apply f32_by_sf; vm_compute; reflexivity). rewrite E. unfold f32_lit; vm_compute; lra. }
    assert (Fth : finite th) by (unfold th; vm_compute; reflexivity).
    rewrite bltb_b2r by (exact Fth || apply Wc). destruct (Rlt_bool_spec (b2r th) (b2r c)) as [H|H].
    - unfold mix_f, lq. cbn [qx qy qz qw sadd ssub smul F32 car]. fins; eapply w_fin; wk.
    - rewrite Eth in H. pose proof (Ha c (conj (w_fin _ _ Wc) (conj Pc H))) as A. set (a := l_acos L c) in *.
      assert (Wa : within 1 a) by (apply (between_within _ _ _ _ A); [|cbn; lra]; assert (0 < / IZR (2 ^ 12)) by (apply Rinv_0_lt_compat; now apply IZR_lt); cbn; lra).
      destruct (Hs2 a A) as [Fs [Gs _]].
      set (s := l_sin L a) in *. set (u := l_sin L (Bmult mode_NE (Bminus mode_NE (f32_lit 1 0) t) a)). set (v := l_sin L (Bmult mode_NE t a)).
      assert (Wu : within 0 u) by (apply (between_within (-1) 1); [apply Hs; eapply w_fin; wk|cbn; lra|cbn; lra]).
      assert (Wv : within 0 v) by (apply (between_within (-1) 1); [apply Hs; eapply w_fin; wk|cbn; lra|cbn; lra]).
      assert (D : forall p, within 61 p -> finite (Bdiv mode_NE p s)).
      { intros p Wp. apply (w_div 61 13 74); trivial; try lia. rewrite Rabs_pos_eq; [exact Gs|]. apply Rle_trans with (2 := Gs). left. apply Rinv_0_lt_compat. now apply IZR_lt. }
      unfold quat_div_sc, quat_add, sc_mul_quat, quat_ctor, lq. cbn [qx qy qz qw sadd ssub smul sdiv F32 car].
      fins; apply D; eapply w_weak; [|wk| |wk| |wk| |wk]; vm_compute; discriminate. }
  set (c := dot_q (F32 L) (Quat x0 x1 x2 x3) (Quat y0 y1 y2 y3)).
  assert (Wc : within 123 c) by (unfold c, dot_q; cbn [qx qy qz qw sadd smul F32 car]; eapply w_weak; [|wk]; vm_compute; discriminate).
  change (slerp (F32 L) (Quat x0 x1 x2 x3) (Quat y0 y1 y2 y3) t) with
    (let '(z, cosTheta) := if Bltb c (f32_lit 0 0) then (Quat (Bopp y0) (Bopp y1) (Bopp y2) (Bopp y3) : quat f32, Bopp c) else (Quat y0 y1 y2 y3, c) in
     if Bltb (Bminus mode_NE (f32_lit 1 0) (c_epsilon (F32 L))) cosTheta
      then Quat (mix_f (F32 L) x0 (qx z) t) (mix_f (F32 L) x1 (qy z) t) (mix_f (F32 L) x2 (qz z) t) (mix_f (F32 L) x3 (qw z) t)
      else quat_div_sc (F32 L) (quat_add (F32 L) (sc_mul_quat (F32 L) (l_sin L (Bmult mode_NE (Bminus mode_NE (f32_lit 1 0) t) (l_acos L cosTheta))) (Quat x0 x1 x2 x3))
             (sc_mul_quat (F32 L) (l_sin L (Bmult mode_NE t (l_acos L cosTheta))) z)) (l_sin L (l_acos L cosTheta))).
  rewrite bltb_b2r by (apply Wc || reflexivity). change (b2r (f32_lit 0 0)) with 0. destruct (Rlt_bool_spec (b2r c) 0) as [H|H].
  - apply Core; try wk. rewrite Bopp_b2r. lra.
  - apply Core; try assumption.
Qed.

(** angle(normalize(q)) is a number: the argument of acos is in [-1, 1]. *)
Lemma C83_angle_pf : forall (L : Libm) (q : quat f32), acos_domain L -> finite (length2_q (F32 L) q) -> / IZR (2 ^ 126) <= b2r (length2_q (F32 L) q) ->
  between 0 8 (angle (F32 L) (normalize_q (F32 L) q)).
Proof.
  intros L q H F G. destruct (proj2 (proj2 (proj2 (C82_normalize_pf L))) q F G) as [A B].
  set (n := normalize_q (F32 L) q) in *. clearbody n. destruct n as [x y z w]. norml A. norml B. comps A. unfold bounded_by in B. comps B.
  assert (K : between 0 4 (l_acos L w)) by (apply H; split; [assumption|now apply Rabs_le_inv]). destruct K as [Fa Ga].
  assert (Wa : within 2 (l_acos L w)) by (split; [exact Fa|]; rewrite Rabs_pos_eq by lra; cbn; lra).
  destruct (w_mul 2 1 3 (l_acos L w) (f32_lit 2 0) Wa w_2) as [[Fm _] E]; try lia.
  change (between 0 8 (Bmult mode_NE (l_acos L w) (f32_lit 2 0))). split; [exact Fm|]. rewrite E, b2r_lit2.
  split; [apply rnd_pos; lra|]. apply rnd_le_fmt; [apply (fmt_Z 8); lia|lra].
Qed.
(** Without normalization it need not be: for q = normalize(2, 0, 1, 2) (w first), the real part of q * conjugate(q) exceeds 1, so angle(q * conjugate(q))
    calls acos outside its domain. *)
Lemma C83_angle_refuted_pf : forall L : Libm,
  let q := normalize_q (F32 L) (Quat (f32_lit 0 0) (f32_lit 1 0) (f32_lit 2 0) (f32_lit 2 0)) in let r := quat_mul (F32 L) q (conjugate (F32 L) q) in
  angle (F32 L) r = Bmult mode_NE (l_acos L (qw r)) (f32_lit 2 0) /\ finite (qw r) /\ 1 < b2r (qw r).
Proof.
  intros L q r. assert (E : qw r = f32_lit 10000001192092896 (-16)) by (apply f32_by_sf; vm_compute; reflexivity).
  split; [reflexivity|]. rewrite E. split; [reflexivity|]. unfold f32_lit. vm_compute. lra.
Qed.

Lemma inv_p2 k : (0 <= k)%Z -> / IZR (2 ^ k) = p2 (- k).
Proof. intros H. rewrite bpow_opp. f_equal. apply (IZR_Zpower radix2 k H). Qed.
Lemma sq_above l s k : includes l s -> finite s -> (0 <= k)%Z -> (-149 <= - k - k)%Z -> Exists (fun x => p2 (- k) <= Rabs (b2r x)) l -> p2 (- k - k) <= b2r s.
Proof.
  intros I F K1 K2 E. destruct (I F) as [_ A]. apply Exists_exists in E as (x & Hx & Gx). rewrite Forall_forall in A. eapply Rle_trans; [|exact (A x Hx)].
  apply rnd_ge_fmt; [apply fmt_bpow; lia|]. replace (b2r x * b2r x) with (Rabs (b2r x) * Rabs (b2r x)) by (rewrite <- Rabs_mult, Rabs_pos_eq by nra; reflexivity).
  replace (- k - k)%Z with (- k + - k)%Z by lia. rewrite bpow_plus. pose proof (bpow_gt_0 radix2 (- k)). nra.
Qed.
Lemma sized_within k l : (0 <= k)%Z -> sized k l -> Forall (within k) l /\ Exists (fun x => p2 (- k) <= Rabs (b2r x)) l.
Proof. intros K (F & B & E). split; [now apply within_all|]. rewrite (inv_p2 k K) in E. exact E. Qed.
Lemma unit_quat_of (L : Libm) (q : quat f32) k : Forall (within 50) (lq q) -> (0 <= k <= 63)%Z -> Exists (fun x => p2 (- k) <= Rabs (b2r x)) (lq q) ->
  all_finite (lq (normalize_q (F32 L) q)) /\ bounded_by 1 (lq (normalize_q (F32 L) q)).
Proof.
  intros W K E. destruct q as [x y z w]. assert (F : finite (length2_q (F32 L) (Quat x y z w))).
  { norml W. comps W. unfold length2_q, dot_q. cbn [qx qy qz qw sadd smul F32 car]. eapply w_fin. wk. }
  apply (proj2 (proj2 (proj2 (C82_normalize_pf L))) _ F). rewrite inv_p2 by lia.
  eapply Rle_trans; [|apply (sq_above (lq (Quat x y z w)) _ k (inc4 x y z w)); trivial; try lia]. apply bpow_le. lia.
Qed.
(** quat(u, v) is finite with components in [-1, 1] for all vectors with components up to 2^15, one of them at least 2^-15, opposite vectors included. *)
Lemma C83_between_pf : forall (L : Libm) (u v : vec3 f32), sized 15 (l3 u) -> sized 15 (l3 v) ->
  all_finite (lq (quat_from_to (F32 L) u v)) /\ bounded_by 1 (lq (quat_from_to (F32 L) u v)).
Proof.
  intros L [x y z] [a b c] Hu Hv. apply sized_within in Hu as [Wu Eu]; [|lia]. apply sized_within in Hv as [Wv Ev]; [|lia]. norml Wu. norml Wv. norml Eu. norml Ev. comps Wu. comps Wv.
  set (uu := Bplus mode_NE (Bplus mode_NE (Bmult mode_NE x x) (Bmult mode_NE y y)) (Bmult mode_NE z z)).
  set (vv := Bplus mode_NE (Bplus mode_NE (Bmult mode_NE a a) (Bmult mode_NE b b)) (Bmult mode_NE c c)).
  set (d := Bplus mode_NE (Bplus mode_NE (Bmult mode_NE x a) (Bmult mode_NE y b)) (Bmult mode_NE z c)).
  assert (Wuu : within 32 uu) by (unfold uu; eapply w_weak; [|wk]; vm_compute; discriminate). assert (Wvv : within 32 vv) by (unfold vv; eapply w_weak; [|wk]; vm_compute; discriminate).
  assert (Wd : within 32 d) by (unfold d; eapply w_weak; [|wk]; vm_compute; discriminate).
  assert (Gu : p2 (-30) <= b2r uu) by (apply (sq_above [x; y; z] uu 15 (inc3 x y z)); [apply Wuu|lia|lia|exact Eu]).
  assert (Gv : p2 (-30) <= b2r vv) by (apply (sq_above [a; b; c] vv 15 (inc3 a b c)); [apply Wvv|lia|lia|exact Ev]).
  destruct (w_mul 32 32 64 uu vv Wuu Wvv) as [Wm Em]; try lia.
  assert (Gm : above (-60) (Bmult mode_NE uu vv)).
  { split; [apply Wm|]. rewrite Em. apply rnd_ge_fmt; [apply fmt_bpow; lia|]. change (-60)%Z with (-30 + -30)%Z. rewrite bpow_plus. pose proof (bpow_gt_0 radix2 (-30)). nra. }
  set (n := Bsqrt mode_NE (Bmult mode_NE uu vv)).
  assert (Gn : above (-30) n) by (apply (above_sqrt (-60)); [exact Gm|lia|lia]). pose proof (bpow_gt_0 radix2 (-60)) as P60. pose proof (bpow_gt_0 radix2 (-30)) as P30.
  destruct (w_sqrt 64 32 (Bmult mode_NE uu vv) Wm) as (Wn & _ & _); [destruct Gm; lra|lia|lia|]. fold n in Wn.
  set (r := Bplus mode_NE n d). assert (Wr : within 33 r) by (unfold r; eapply w_weak; [|wk]; vm_compute; discriminate).
  assert (Wl : within (-19) (f32_lit 1 (-6)) /\ p2 (-20) <= b2r (f32_lit 1 (-6))).
  { split; [split; [reflexivity|]|]; unfold f32_lit; vm_compute; unfold Rabs; try destruct Rcase_abs; lra. }
  destruct Wl as [Wl Gl]. destruct (w_mul (-19) 32 13 _ n Wl Wn) as [Wt Et]; try lia. set (t := Bmult mode_NE (f32_lit 1 (-6)) n) in *.
  assert (Gt : p2 (-50) <= b2r t). { rewrite Et. apply rnd_ge_fmt; [apply fmt_bpow; lia|]. change (-50)%Z with (-20 + -30)%Z. rewrite bpow_plus. destruct Gn as [_ Gn]. pose proof (bpow_gt_0 radix2 (-20)). nra. }
  change (quat_from_to (F32 L) (V3 x y z) (V3 a b c)) with
    (let '(real_part, w_) := if Bltb r t then (f32_lit 0 0, if Bltb (Babs z) (Babs x) then V3 (Bopp y) x (f32_lit 0 0) else V3 (f32_lit 0 0) (Bopp z) y) else (r, cross (F32 L) (V3 x y z) (V3 a b c)) in
     normalize_q (F32 L) (Quat (x3 w_) (y3 w_) (z3 w_) real_part : quat f32)).
  assert (Wz : within 0 (f32_lit 0 0)) by apply w_0.
  rewrite bltb_b2r by (apply Wr || apply Wt). destruct (Rlt_bool_spec (b2r r) (b2r t)) as [H|H].
  - pose proof (w_abs _ _ W) as [Wax Ex]. pose proof (w_abs _ _ W1) as [Waz Ez]. rewrite bltb_b2r by (apply Wax || apply Waz). rewrite Ex, Ez.
    destruct (Rlt_bool_spec (Rabs (b2r z)) (Rabs (b2r x))) as [C|C]; cbv iota beta; cbn [x3 y3 z3]; apply (unit_quat_of L _ 15); try lia.
    + unfold lq; cbn [qx qy qz qw]. fins; (eapply w_weak; [|wk]; vm_compute; discriminate).
    + unfold lq; cbn [qx qy qz qw]. apply Exists_exists in Eu as (s & Hs & Gs). apply Exists_exists. cbn in Hs. destruct Hs as [<-|[<-|[<-|[]]]].
      * exists x. split; [cbn; tauto|exact Gs].
      * exists (Bopp y). split; [cbn; tauto|]. rewrite Bopp_b2r, Rabs_Ropp. exact Gs.
      * exists x. split; [cbn; tauto|lra].
    + unfold lq; cbn [qx qy qz qw]. fins; (eapply w_weak; [|wk]; vm_compute; discriminate).
    + unfold lq; cbn [qx qy qz qw]. apply Exists_exists in Eu as (s & Hs & Gs). apply Exists_exists. cbn in Hs. destruct Hs as [<-|[<-|[<-|[]]]].
      * exists (Bopp z). split; [cbn; tauto|]. rewrite Bopp_b2r, Rabs_Ropp. lra.
      * exists y. split; [cbn; tauto|exact Gs].
      * exists (Bopp z). split; [cbn; tauto|]. rewrite Bopp_b2r, Rabs_Ropp. exact Gs.
  - cbv iota beta. apply (unit_quat_of L _ 50); try lia.
    + unfold lq, cross. cbn [qx qy qz qw x3 y3 z3 ssub smul F32 car]. fins; (eapply w_weak; [|wk]; vm_compute; discriminate).
    + unfold lq. cbn [qx qy qz qw]. do 3 apply Exists_cons_tl. apply Exists_cons_hd. change (Z.opp 50) with (-50)%Z. pose proof (bpow_gt_0 radix2 (-50)). rewrite Rabs_pos_eq; lra.
Qed.

(** ** Octahedral encoding *)
Lemma one_b (x : f32) : Bmult mode_NE x (Bopp (f32_lit 1 0)) = Bopp x. Proof. now rewrite bmul_opp_r, bmul_one. Qed.
Lemma fold_range (p q : f32) : between (-1) 1 p -> between (-1) 1 q -> between (-1) 1 (Bmult mode_NE (Bminus mode_NE (f32_lit 1 0) (Babs p)) (if Bleb (f32_lit 0 0) q then f32_lit 1 0 else Bopp (f32_lit 1 0))).
Proof.
  intros [Fp Hp] [Fq _]. assert (Wp : within 0 p) by (split; [exact Fp|]; apply Rabs_le; cbn; lra).
  destruct (w_abs 0 p Wp) as [Wa Ea]. destruct (w_sub 0 0 1 _ _ w_1 Wa) as [[Fm _] Em]; try lia. rewrite b2r_lit1, Ea in Em. assert (A : 0 <= Rabs (b2r p) <= 1) by (split; [apply Rabs_pos|now apply Rabs_le]).
  assert (G : 0 <= b2r (Bminus mode_NE (f32_lit 1 0) (Babs p)) <= 1) by (rewrite Em; split; [apply rnd_pos; lra|apply rnd_le_fmt; [apply fmt_1|lra]]).
  destruct Bleb; [rewrite bmul_one|rewrite one_b].
  - split; [exact Fm|lra].
  - split; [now apply finite_opp|]. rewrite Bopp_b2r. lra.
Qed.
(** encode_octahedral lands in the square [-1, 1]^2 for every vector with components up to 2^60, one of them at least 2^-60. *)
Lemma C84_encode_pf : forall (L : Libm) (v : vec3 f32), sized 60 (l3 v) -> Forall (between (-1) 1) (l2 (encode_octahedral (F32 L) v)).
Proof.
  intros L [x y z] H. apply sized_within in H as [W E]; [|lia]. norml W. norml E. comps W. rename W0 into Wx, W1 into Wy, W2 into Wz.
  destruct (w_abs _ _ Wx) as [Ax Ex]. destruct (w_abs _ _ Wy) as [Ay Ey]. destruct (w_abs _ _ Wz) as [Az Ez].
  destruct (w_add 60 60 61 _ _ Ax Ay) as [W2 E2]; try lia. destruct (w_add 61 60 62 _ _ W2 Az) as [W3 E3]; try lia.
  set (s2 := Bplus mode_NE (Babs x) (Babs y)) in *. set (s := Bplus mode_NE s2 (Babs z)) in *. rewrite Ex, Ey in E2. rewrite Ez in E3.
  pose proof (Rabs_pos (b2r x)) as Px. pose proof (Rabs_pos (b2r y)) as Py. pose proof (Rabs_pos (b2r z)) as Pz.
  assert (FA : forall w : f32, fmt (Rabs (b2r w))) by (intros w; unfold fmt; apply generic_format_abs; apply fmt_b2r).
  assert (Lx2 : Rabs (b2r x) <= b2r s2) by (rewrite E2; apply rnd_ge_fmt; [apply FA|lra]). assert (Ly2 : Rabs (b2r y) <= b2r s2) by (rewrite E2; apply rnd_ge_fmt; [apply FA|lra]).
  assert (L2 : b2r s2 <= b2r s) by (rewrite E3; apply rnd_ge_fmt; [apply fmt_b2r|lra]). assert (Lz : Rabs (b2r z) <= b2r s) by (rewrite E3; apply rnd_ge_fmt; [apply FA|lra]).
  assert (G : p2 (-60) <= b2r s) by (apply Exists_exists in E as (w & Hw & Gw); change (Z.opp 60) with (-60)%Z in Gw; cbn in Hw; destruct Hw as [<-|[<-|[<-|[]]]]; lra).
  pose proof (bpow_gt_0 radix2 (-60)) as P. assert (U : b2r s <= p2 62) by (destruct W3 as [_ W3]; rewrite Rabs_pos_eq in W3 by lra; exact W3).
  destruct (w_div 0 60 60 (f32_lit 1 0) s w_1) as [Wr Er]; try lia; [apply W3|rewrite Rabs_pos_eq by lra; exact G|]. rewrite b2r_lit1 in Er. unfold Rdiv in Er. rewrite Rmult_1_l in Er.
  set (r := Bdiv mode_NE (f32_lit 1 0) s) in *.
  assert (Pr : forall w, within 60 w -> Rabs (b2r w) <= b2r s -> between (-1) 1 (Bmult mode_NE w r)).
  { intros w Ww Hw. destruct (w_mul 60 60 120 w r Ww Wr) as [[Fm _] Em]; try lia. split; [exact Fm|]. apply Rabs_le_inv. rewrite Em, Er. apply times_rcp; [exact Hw|].
    split; [eapply Rle_trans; [|exact G]; apply bpow_le; lia|eapply Rle_trans; [exact U|]; apply bpow_le; lia]. }
  assert (Qx := Pr x Wx ltac:(lra)). assert (Qy := Pr y Wy ltac:(lra)).
  change (encode_octahedral (F32 L) (V3 x y z)) with (if Bleb z (f32_lit 0 0) then
    V2 (Bmult mode_NE (Bminus mode_NE (f32_lit 1 0) (Babs (Bmult mode_NE y r))) (if Bleb (f32_lit 0 0) (Bmult mode_NE x r) then f32_lit 1 0 else Bopp (f32_lit 1 0)))
       (Bmult mode_NE (Bminus mode_NE (f32_lit 1 0) (Babs (Bmult mode_NE x r))) (if Bleb (f32_lit 0 0) (Bmult mode_NE y r) then f32_lit 1 0 else Bopp (f32_lit 1 0)))
    else V2 (Bmult mode_NE x r) (Bmult mode_NE y r) : vec2 f32).
  destruct (Bleb z (f32_lit 0 0)); unfold l2; cbn [x2 y2]; fins; trivial; now apply fold_range.
Qed.
Lemma unit_vec_of (L : Libm) (v : vec3 f32) : Forall (within 60) (l3 v) -> Exists (fun x => / 4 <= Rabs (b2r x)) (l3 v) -> Forall (between (-1) 1) (l3 (normalize3 (F32 L) v)).
Proof.
  intros W E. destruct v as [x y z]. assert (F : finite (length2_3 (F32 L) (V3 x y z))).
  { norml W. comps W. unfold length2_3, dot3. cbn [x3 y3 z3 sadd smul F32 car]. eapply w_fin. wk. }
  destruct (proj1 (proj2 (C82_normalize_pf L)) (V3 x y z) F) as [A B].
  { rewrite inv_p2 by lia. eapply Rle_trans; [|apply (sq_above (l3 (V3 x y z)) _ 2 (inc3 x y z)); trivial; try lia]. apply bpow_le. lia. }
  apply Forall_forall. intros w Hw. split; [apply (Forall_forall finite _) with (1 := A); exact Hw|]. apply Rabs_le_inv. apply (proj1 (Forall_forall (fun x => Rabs (b2r x) <= 1) _) B). exact Hw.
Qed.
Lemma sgn_mul (x c : f32) : Bmult mode_NE x (if Bleb (f32_lit 0 0) c then f32_lit 1 0 else Bopp (f32_lit 1 0)) = (if Bleb (f32_lit 0 0) c then x else Bopp x).
Proof. destruct Bleb; [apply bmul_one|apply one_b]. Qed.
(** decode_octahedral yields components in [-1, 1] for every point up to 2^30 in each coordinate, inside or outside the square: the vector it normalizes is never small. *)
Lemma C84_decode_pf : forall (L : Libm) (e : vec2 f32), all_finite (l2 e) -> bounded_by (IZR (2 ^ 30)) (l2 e) -> Forall (between (-1) 1) (l3 (decode_octahedral (F32 L) e)).
Proof.
  intros L [x y] F B. apply within_all in B; [|lia|exact F]. norml B. comps B. clear F. rename W into Wx, W0 into Wy.
  destruct (w_abs _ _ Wx) as [Ax Ex]. destruct (w_abs _ _ Wy) as [Ay Ey].
  destruct (w_sub 0 30 31 _ _ w_1 Ax) as [W1 E1]; try lia. destruct (w_sub 31 30 32 _ _ W1 Ay) as [W2 E2]; try lia. rewrite b2r_lit1, Ex in E1. rewrite Ey in E2.
  set (z := Bminus mode_NE (Bminus mode_NE (f32_lit 1 0) (Babs x)) (Babs y)) in *.
  set (x' := Bminus mode_NE (f32_lit 1 0) (if Bleb (f32_lit 0 0) x then Babs y else Bopp (Babs y))).
  set (y' := Bminus mode_NE (f32_lit 1 0) (if Bleb (f32_lit 0 0) y then Babs x' else Bopp (Babs x'))).
  assert (D : decode_octahedral (F32 L) (V2 x y) = normalize3 (F32 L) (if Bltb z (f32_lit 0 0) then V3 x' y' z else V3 x y z)).
  { unfold y'. rewrite <- (sgn_mul (Babs x') y). unfold x'. rewrite <- (sgn_mul (Babs y) x). cbv -[Bplus Bmult Bminus Bdiv Bsqrt Bltb Bleb Babs Bopp f32_lit]. destruct Bltb; reflexivity. }
  rewrite D. clear D. destruct (Bltb z (f32_lit 0 0)) eqn:Z; apply unit_vec_of; unfold l3; cbn [x3 y3 z3].
  - assert (Wx' : within 31 x') by (unfold x'; destruct (Bleb (f32_lit 0 0) x); eapply w_weak; [|wk| |wk]; vm_compute; discriminate).
    assert (Wy' : within 32 y') by (unfold y'; destruct (Bleb (f32_lit 0 0) y); eapply w_weak; [|wk| |wk]; vm_compute; discriminate).
    fins; (eapply w_weak; [|wk]; vm_compute; discriminate).
  - assert (Wx' : within 31 x') by (unfold x'; destruct (Bleb (f32_lit 0 0) x); eapply w_weak; [|wk| |wk]; vm_compute; discriminate).
    destruct (Rle_or_lt (/ 4) (Rabs (b2r x'))) as [C|C]; [now apply Exists_cons_hd|]. apply Exists_cons_tl, Exists_cons_hd. destruct (w_abs _ _ Wx') as [Ax' Ex'].
    pose proof (Rabs_pos (b2r x')). unfold y'. assert (Q : / 4 <= rnd (3 / 4)). { apply rnd_ge_fmt; [change (/ 4) with (p2 (-2)); apply fmt_bpow; lia|lra]. }
    destruct (Bleb (f32_lit 0 0) y).
    + destruct (w_sub 0 31 32 _ _ w_1 Ax') as [_ E]; try lia. rewrite E, b2r_lit1, Ex'. assert (rnd (3 / 4) <= rnd (1 - Rabs (b2r x'))) by (apply rnd_mono; lra). rewrite Rabs_pos_eq; lra.
    + destruct (w_sub 0 31 32 _ _ w_1 (w_opp _ _ Ax')) as [_ E]; try lia. rewrite E, b2r_lit1, Bopp_b2r, Ex'. assert (rnd (3 / 4) <= rnd (1 - - Rabs (b2r x'))) by (apply rnd_mono; lra). rewrite Rabs_pos_eq; lra.
  - fins; (eapply w_weak; [|wk]; vm_compute; discriminate).
  - destruct (Rle_or_lt (/ 4) (Rabs (b2r x))) as [C|C]; [now apply Exists_cons_hd|]. apply Exists_cons_tl. destruct (Rle_or_lt (/ 4) (Rabs (b2r y))) as [C'|C']; [now apply Exists_cons_hd|].
    apply Exists_cons_tl, Exists_cons_hd. rewrite E2, E1. assert (Q : / 2 <= rnd (1 - Rabs (b2r x))) by (apply rnd_ge_fmt; [change (/ 2) with (p2 (-1)); apply fmt_bpow; lia|lra]).
    assert (Q' : / 4 <= rnd (rnd (1 - Rabs (b2r x)) - Rabs (b2r y))) by (apply rnd_ge_fmt; [change (/ 4) with (p2 (-2)); apply fmt_bpow; lia|lra]). rewrite Rabs_pos_eq; lra.
Qed.

(** ** Colours *)
Lemma clamp01 (L : Libm) (x : f32) : is_nan x = false -> between 0 1 (clamp_f (F32 L) x (f32_ofZ 0) (f32_ofZ 1)).
Proof.
  intros N. assert (E0 : xr (f32_ofZ 0) = 0) by (vm_compute; reflexivity). assert (F1 : finite (f32_ofZ 1)) by reflexivity.
  assert (E1 : b2r (f32_ofZ 1) = 1) by (apply (ofZ_exact 1); reflexivity). assert (X1 : xr (f32_ofZ 1) = 1) by (rewrite xr_finite by exact F1; exact E1).
  change (between 0 1 (let m := if Bltb x (f32_ofZ 0) then f32_ofZ 0 else x in if Bltb (f32_ofZ 1) m then f32_ofZ 1 else m)). cbv zeta.
  rewrite (Bltb_xr x (f32_ofZ 0) N eq_refl), E0. destruct (Rlt_bool_spec (xr x) 0) as [H|H].
  - assert (Q : Bltb (f32_ofZ 1) (f32_ofZ 0) = false) by (vm_compute; reflexivity). rewrite Q. split; [reflexivity|]. change (b2r (f32_ofZ 0)) with 0. lra.
  - rewrite (Bltb_xr (f32_ofZ 1) x eq_refl N), X1. destruct (Rlt_bool_spec 1 (xr x)) as [K|K].
    + split; [exact F1|]. rewrite E1. lra.
    + assert (F : finite x). { apply finite_of_xr; [exact N|]. rewrite Rabs_pos_eq by lra. eapply Rle_lt_trans; [exact K|]. change 1 with (p2 0); apply big_p2; lia. }
      split; [exact F|]. rewrite (xr_finite x F) in H, K. exact (conj H K).
Qed.
(** convertLinearToSRGB(c, gamma) lies in [-0.0551, 1] for every colour without NaN, infinities included, whenever pow maps [0, 1] to [0, 1] for this gamma;
    the clamp keeps the base of pow in [0, 1]. *)
Lemma C84_srgb_pf : forall (L : Libm) (g : f32), pow_unit L g ->
  (forall c, no_nan (l3 c) -> Forall (between (- (551 / 10000)) 1) (l3 (linearToSRGB3_g (F32 L) c g))) /\
  (forall c, no_nan (l3 (rgb4 (F32 L) c)) -> Forall (between (- (551 / 10000)) 1) (l3 (rgb4 (F32 L) (linearToSRGB4_g (F32 L) c g))) /\ w4 (linearToSRGB4_g (F32 L) c g) = w4 c).
Proof.
  intros L g H.
  set (enc := fun x : f32 => let c := clamp_f (F32 L) x (f32_ofZ 0) (f32_ofZ 1) in if Bltb c (f32_lit 31308 (-7)) then Bmult mode_NE c (f32_lit 1292 (-2)) else Bminus mode_NE (Bmult mode_NE (l_pow L c g) (f32_lit 1055 (-3))) (f32_lit 55 (-3))).
  assert (A : forall x, is_nan x = false -> between (- (551 / 10000)) 1 (enc x)).
  { intros x N. unfold enc. cbv zeta. pose proof (clamp01 L x N) as [Fc Gc]. set (c := clamp_f (F32 L) x (f32_ofZ 0) (f32_ofZ 1)) in *. clearbody c.
    assert (Wc : within 0 c) by (split; [exact Fc|]; rewrite Rabs_pos_eq; cbn; lra).
    rewrite bltb_b2r by (exact Fc || reflexivity). destruct (Rlt_bool_spec (b2r c) (b2r (f32_lit 31308 (-7)))) as [K|K].
    - assert (W12 : within 4 (f32_lit 1292 (-2))) by (split; [reflexivity|]; unfold f32_lit; vm_compute; unfold Rabs; destruct Rcase_abs; lra).
      assert (K' : b2r (f32_lit 31308 (-7)) <= 4 / 1000) by (unfold f32_lit; vm_compute; lra).
      assert (K2 : 0 <= b2r (f32_lit 1292 (-2)) <= 16) by (unfold f32_lit; vm_compute; lra).
      destruct (w_mul 0 4 4 c _ Wc W12) as [[Fm _] Em]; try lia. split; [exact Fm|]. rewrite Em. assert (P : 0 <= rnd (b2r c * b2r (f32_lit 1292 (-2)))) by (apply rnd_pos; nra).
      split; [lra|]. apply rnd_le_fmt; [apply fmt_1|]. nra.
    - destruct (H c (conj Fc Gc)) as [Fp Gp]. set (p := l_pow L c g) in *. clearbody p. assert (Wp : within 0 p) by (split; [exact Fp|]; rewrite Rabs_pos_eq; cbn; lra).
      assert (Wa : within 1 (f32_lit 1055 (-3))) by (split; [reflexivity|]; unfold f32_lit; vm_compute; unfold Rabs; destruct Rcase_abs; lra).
      assert (Wb : within 0 (f32_lit 55 (-3))) by (split; [reflexivity|]; unfold f32_lit; vm_compute; unfold Rabs; destruct Rcase_abs; lra).
      destruct (w_mul 0 1 1 p _ Wp Wa) as [Wm Em]; try lia. destruct (w_sub 1 0 2 _ _ Wm Wb) as [[Fs _] Es]; try lia.
      split; [exact Fs|]. rewrite Es, Em.
      assert (Pa : 0 <= b2r (f32_lit 1055 (-3))) by (unfold f32_lit; vm_compute; lra).
      assert (R1 : 0 <= rnd (b2r p * b2r (f32_lit 1055 (-3))) <= b2r (f32_lit 1055 (-3))) by (split; [apply rnd_pos; nra|apply rnd_le_fmt; [apply fmt_b2r|nra]]).
      split.
      + apply Rle_trans with (rnd (0 - b2r (f32_lit 55 (-3)))); [|apply rnd_mono; lra]. rewrite Rminus_0_l, rnd_opp, rnd_b2r. unfold f32_lit; vm_compute; lra.
      + apply rnd_le_fmt; [apply fmt_1|]. apply Rle_trans with (b2r (f32_lit 1055 (-3)) - b2r (f32_lit 55 (-3))); [lra|]. unfold f32_lit; vm_compute; lra. }
  split.
  - intros [r gg b] N. norml N. unfold no_nan in N. comps N. change (Forall (between (- (551 / 10000)) 1) [enc r; enc gg; enc b]). fins; now apply A.
  - intros [r gg b a] N. unfold rgb4 in N. norml N. unfold no_nan in N. comps N. change (Forall (between (- (551 / 10000)) 1) [enc r; enc gg; enc b] /\ a = a). split; [|reflexivity]. fins; now apply A.
Qed.

(** The exact functions meet the requirements of slerp_libm. *)
Lemma C83_exact_functions_pf : forall x : R,
  (/ IZR (2 ^ 12) <= x <= 2 -> / IZR (2 ^ 13) <= sin x <= 1) /\ (0 <= x <= 1 - / IZR (2 ^ 23) -> / IZR (2 ^ 12) <= acos x <= 2).
Proof.
  intros x. pose proof PI_bounds as HP. split.
  - intros [H1 H2]. split; [|apply SIN_bound]. change (IZR (2 ^ 12)) with 4096 in H1. change (IZR (2 ^ 13)) with 8192. assert (0 < x) by lra.
    apply Rle_trans with (sin_lb x); [|apply SIN; lra]. unfold sin_lb, sin_approx, sin_term. cbn [sum_f_R0 Nat.mul Nat.add pow fact INR]. 
    match goal with |- _ <= ?e => replace e with (x - x * x * x / 6 + x * x * x * x * x / 120 - x * x * x * x * x * x * x / 5040) by (cbn; field) end.
    replace (x - x * x * x / 6 + x * x * x * x * x / 120 - x * x * x * x * x * x * x / 5040) with (x * (1 - (x * x) / 6 + (x * x) * (x * x) / 120 * (1 - (x * x) / 42))) by field.
    set (y := x * x).
    assert (0 <= y <= 4) by (unfold y; split; [apply Rmult_le_pos; lra|replace 4 with (2 * 2) by ring; apply Rmult_le_compat; lra]). assert (1 / 3 <= 1 - y / 6 + y * y / 120 * (1 - y / 42)) by nra.
    destruct (Rle_or_lt (1 / 2) x); [apply Rle_trans with (x * (1 / 3)); [lra|apply Rmult_le_compat_l; lra]|]. assert (y <= 1 / 4) by (unfold y; replace (1 / 4) with (/ 2 * / 2) by field; apply Rmult_le_compat; lra). assert (23 / 24 <= 1 - y / 6 + y * y / 120 * (1 - y / 42)) by nra. apply Rle_trans with (x * (23 / 24)); [lra|apply Rmult_le_compat_l; lra].
  - intros [H1 H2]. change (IZR (2 ^ 23)) with 8388608 in H2. change (IZR (2 ^ 12)) with 4096. pose proof (acos_bound x) as B.
    assert (C : cos (acos x) = x) by (apply cos_acos; lra). split.
    + destruct (Rle_or_lt (/ 4096) (acos x)) as [K|K]; [exact K|exfalso].
      assert (D : cos (/ 4096) < cos (acos x)) by (apply cos_decreasing_1; lra). rewrite C in D.
      replace (/ 4096) with (2 * / 8192) in D by field. rewrite cos_2a_sin in D. assert (0 < sin (/ 8192)) by (apply sin_gt_0; lra). assert (sin (/ 8192) < / 8192) by (apply sin_lt_x; lra). nra.
    + destruct (Rle_or_lt (acos x) 2) as [K|K]; [exact K|exfalso]. assert (D : cos (acos x) < cos (PI / 2)) by (apply cos_decreasing_1; lra). rewrite C, cos_PI2 in D. lra.
Qed.

(*PROPS
(** the hypotheses about the mathematical library can be met, and the exact functions meet them *)
Example C83_libm : let one := fun _ : f32 => f32_lit 1 0 in let one2 := fun _ _ : f32 => f32_lit 1 0 in
  let L := mkLibm one one one one one one one2 one one one one one one one2 one one one one in
  slerp_libm L /\ acos_domain L /\ pow_unit L (f32_lit 1 0).
Proof.
  assert (E : forall a b, a <= 1 <= b -> between a b (f32_lit 1 0)) by (intros a b H; split; [reflexivity|now rewrite b2r_lit1]).
  assert (I : forall n, (0 < n)%Z -> / IZR (2 ^ n) <= 1).
  { intros n H. rewrite <- Rinv_1. apply Rinv_le_contravar; [lra|]. apply IZR_le. pose proof (Z.pow_pos_nonneg 2 n). lia. }
  pose proof (I 12%Z eq_refl). pose proof (I 13%Z eq_refl). split; [split; [|split]|split]; intros x _; apply E; lra.
Qed.
(** the zero matrix, opposite vectors and vectors far from unit length are covered *)
Example C83_case : forall L : Libm, all_finite (lq (quat_cast3 (F32 L) (M3 (V3 (f32_lit 0 0) (f32_lit 0 0) (f32_lit 0 0)) (V3 (f32_lit 0 0) (f32_lit 0 0) (f32_lit 0 0)) (V3 (f32_lit 0 0) (f32_lit 0 0) (f32_lit 0 0))))) /\
  all_finite (lq (quat_from_to (F32 L) (V3 (f32_lit 3 0) (f32_lit 0 0) (f32_lit 0 0)) (V3 (f32_lit (-1000) 0) (f32_lit 0 0) (f32_lit 0 0)))).
Proof.
  intros L. assert (Z0 : b2r (f32_lit 0 0) = 0) by reflexivity. split.
  - refine (proj1 (proj1 (C83_quat_cast_pf L) _ _ _)).
    + change (all_finite (repeat (f32_lit 0 0) 9)). repeat (apply Forall_cons; [reflexivity|]). apply Forall_nil.
    + change (bounded_by (IZR (2 ^ 124)) (repeat (f32_lit 0 0) 9)). repeat (apply Forall_cons; [rewrite Z0, Rabs_R0; now apply IZR_le|]). apply Forall_nil.
  - assert (B : forall x : Z, (Z.abs x <= 2 ^ 15)%Z -> (1 <= Z.abs x)%Z -> sized 15 [f32_lit x 0; f32_lit 0 0; f32_lit 0 0]).
    { intros x Hx Gx. assert (E : b2r (f32_lit x 0) = IZR x) by (apply lit_exact; apply Z.leb_le; lia).
      split; [|split].
      - apply Forall_cons; [apply OvfLib.lit_finite; apply Z.leb_le; lia|]. repeat (apply Forall_cons; [reflexivity|]). apply Forall_nil.
      - apply Forall_cons; [rewrite E, <- abs_IZR; now apply IZR_le|]. repeat (apply Forall_cons; [rewrite Z0, Rabs_R0; now apply IZR_le|]). apply Forall_nil.
      - apply Exists_cons_hd. rewrite E, <- abs_IZR. apply Rle_trans with 1; [|now apply IZR_le]. cbn. lra. }
    apply C83_between_pf; apply B; lia.
Qed.
Example C84_case : sized 60 (l3 (V3 (f32_lit 0 0) (f32_lit (-7) 0) (f32_lit (-2) 0))) /\ no_nan (l3 (V3 (B754_infinity true : f32) (f32_lit 7 0) (B754_infinity false))).
Proof.
  split; [split; [|split]|].
  - repeat (apply Forall_cons; [reflexivity|]). apply Forall_nil.
  - unfold l3, bounded_by; cbn [x3 y3 z3]. repeat (apply Forall_cons; [rewrite lit_exact by reflexivity; rewrite <- abs_IZR; now apply IZR_le|]). apply Forall_nil.
  - apply Exists_cons_tl, Exists_cons_hd. cbn [y3]. rewrite (lit_exact (-7)) by reflexivity. rewrite <- abs_IZR. cbn. lra.
  - repeat (apply Forall_cons; [reflexivity|]). apply Forall_nil.
Qed.
PROPS*)
