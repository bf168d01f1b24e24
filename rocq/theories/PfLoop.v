(** * Proofs: values updated in a loop in binary32 *)
From Coq Require Import ZArith Bool Reals List Lra Lia.
From Flocq Require Import Core IEEE754.BinarySingleNaN.
From Verif Require Import Scalar IEEE32 RealInst Types Outcome Spec SpecR SpecMat SpecGeo SpecF32 SpecErr SpecOrd SpecDom SpecAcc SpecChain SpecLoop FloatBasics FloatOps
  ModelVec ModelCommon ErrLib OvfLib F32Tac RealTac.
Import ListNotations.
Local Open Scope R_scope.
(*HEADER END*)
From Coq Require Import Psatz.
From Verif Require Import FloatAlg LenLib DomLib OpLib PfErr PfOvf PfLen PfQuatAcc PfOctAcc MonoLib.

(** ** One component: smoothing *)
Definition mix1 (y t x : f32) : f32 := Bplus mode_NE x (Bmult mode_NE t (Bminus mode_NE y x)).
Lemma p2_IZR k : (0 <= k)%Z -> p2 k = IZR (2 ^ k).
Proof. intros H. rewrite (IZR_Zpower radix2) by exact H. reflexivity. Qed.
Lemma mix1_step (y t x : f32) : within 122 x -> within 120 y -> between 0 1 t ->
  finite (mix1 y t x) /\ Rabs (b2r (mix1 y t x) - b2r y) <= (1 - b2r t + 4 * u) * Rabs (b2r x - b2r y) + (u * Rabs (b2r y) + 2 * tiny).
Proof.
  intros Wx Wy [Ft Bt]. unfold mix1. assert (Wt : within 0 t) by (split; [exact Ft|]; rewrite Rabs_pos_eq by lra; cbn; lra).
  destruct (w_sub 120 122 123 y x Wy Wx) as [V1 E1]; try lia. destruct (w_mul 0 123 123 t _ Wt V1) as [V2 E2]; try lia.
  destruct (w_add 122 123 124 x _ Wx V2) as [V3 E3]; try lia. split; [apply V3|].
  destruct (rnd_plus_error x (Bmult mode_NE t (Bminus mode_NE y x))) as (e3 & He3 & K3). rewrite E3, K3, E2, E1. clear K3 E3 E2 V3 V2.
  assert (K1 : exists e1, Rabs e1 <= u32 /\ rnd (b2r y - b2r x) = (b2r y - b2r x) * (1 + e1)).
  { destruct (rnd_plus_error y (Bopp x)) as (e1 & He1 & K1). exists e1. split; [exact He1|]. rewrite Bopp_b2r in K1. exact K1. }
  destruct K1 as (e1 & He1 & K1). rewrite K1.
  destruct (rnd_error (b2r t * ((b2r y - b2r x) * (1 + e1)))) as (e2 & h & He2 & Hh & _ & K2). rewrite K2. rewrite u32_ulp in *. rewrite eta_tiny in *. pose proof u_val as U. pose proof tiny_small as T.
  set (X := b2r x) in *. set (Y := b2r y) in *. set (r := b2r t) in *. clearbody X Y r. clear - Bt He1 He2 He3 Hh U T.
  set (g := (1 + e1) * (1 + e2) - 1). assert (G : Rabs g <= 201/100 * u).
  { apply Rabs_le_inv in He1, He2. apply Rabs_le. unfold g. assert (A1 : - (u * u) <= e1 * e2 <= u * u) by nra. replace ((1 + e1) * (1 + e2) - 1) with (e1 + e2 + e1 * e2) by ring. nra. }
  replace ((X + (r * ((Y - X) * (1 + e1)) * (1 + e2) + h)) * (1 + e3) - Y)
    with ((X - Y) * ((1 - r - r * g) * (1 + e3)) + (Y * e3 + h * (1 + e3))) by (unfold g; ring).
  assert (P1 : Rabs ((1 - r - r * g) * (1 + e3)) <= 1 - r + 4 * u).
  { apply Rabs_le_inv in G, He3. apply Rabs_le. assert (A : - (201/100 * u) <= r * g <= 201/100 * u) by nra. assert (B : - u <= (1 - r) * e3 <= u) by nra. assert (C : - (3 * u * u) <= r * g * e3 <= 3 * u * u) by nra.
    replace ((1 - r - r * g) * (1 + e3)) with (1 - r + (1 - r) * e3 - r * g - r * g * e3) by ring. nra. }
  assert (P2 : Rabs (Y * e3 + h * (1 + e3)) <= u * Rabs Y + 2 * tiny).
  { eapply Rle_trans; [apply Rabs_triang|]. apply Rplus_le_compat; rewrite Rabs_mult; [rewrite Rmult_comm; apply Rmult_le_compat_r; [apply Rabs_pos|exact He3]|].
    apply Rle_trans with (tiny / 2 * 2); [|lra]. apply Rmult_le_compat; try apply Rabs_pos; [exact Hh|]. apply Rabs_le_inv in He3. apply Rabs_le. lra. }
  eapply Rle_trans; [apply Rabs_triang|]. apply Rplus_le_compat; [|exact P2]. rewrite Rabs_mult, Rmult_comm. apply Rmult_le_compat_r; [apply Rabs_pos|exact P1].
Qed.
Lemma iter_S {A} (f : A -> A) n x : Nat.iter (S n) f x = Nat.iter n f (f x).
Proof. induction n as [|n IH]; [reflexivity|]. change (Nat.iter (S (S n)) f x) with (f (Nat.iter (S n) f x)). now rewrite IH. Qed.
Lemma smooth1 (y t x : f32) n : finite x -> finite y -> Rabs (b2r x) <= IZR (2 ^ 120) -> Rabs (b2r y) <= IZR (2 ^ 120) -> between (/ IZR (2 ^ 20)) 1 t ->
  finite (Nat.iter n (mix1 y t) x) /\
  Rabs (b2r (Nat.iter n (mix1 y t) x) - b2r y) <= (1 - b2r t + 4 * u) ^ n * Rabs (b2r x - b2r y) + 2 * (u * Rabs (b2r y) + 2 * tiny) / b2r t.
Proof.
  intros Fx Fy Bx By [Ft Bt]. pose proof u_val as U. pose proof tiny_small as T.
  assert (T16 : 16 * u = / IZR (2 ^ 20)) by (rewrite uval; change (2 ^ 20)%Z with 1048576%Z; lra). rewrite <- T16 in Bt. clear T16.
  assert (Ht : between 0 1 t) by (split; [exact Ft|lra]).
  assert (B2 : p2 122 = 4 * IZR (2 ^ 120)). { rewrite p2_IZR by lia. rewrite <- mult_IZR. reflexivity. }
  assert (Wy : within 120 y) by (split; [exact Fy|]; rewrite p2_IZR by lia; exact By).
  set (B := IZR (2 ^ 120)) in *. assert (PB : 1 <= B) by (apply IZR_le; lia).
  set (c := u * Rabs (b2r y) + 2 * tiny). assert (Pc : 0 <= c) by (unfold c; pose proof (Rabs_pos (b2r y)) as PY; pose proof (Rmult_le_pos u _ ltac:(lra) PY); lra).
  set (rho := 1 - b2r t + 4 * u). assert (Rr : 0 <= rho <= 1 - 3/4 * b2r t) by (unfold rho; lra).
  set (D z := Rabs (b2r z - b2r y)).
  assert (cB : c <= 2 * u * B).
  { unfold c. pose proof (Rmult_le_compat_l u _ _ ltac:(lra) By). pose proof (Rmult_le_compat_l u _ _ ltac:(lra) PB). lra. }
  assert (G : forall n x, finite x -> D x <= 2 * B -> finite (Nat.iter n (mix1 y t) x) /\ D (Nat.iter n (mix1 y t) x) <= rho ^ n * D x + (1 - rho ^ n) * (c / (1 - rho))).
  { clear n x Fx Bx. induction n as [|n IH]; intros x Fx Hx; [split; [exact Fx|change (Nat.iter 0 (mix1 y t) x) with x; cbn [pow]; lra]|].
    assert (Wx : within 122 x). { split; [exact Fx|]. rewrite B2. unfold D in Hx. replace (b2r x) with ((b2r x - b2r y) + b2r y) by ring. eapply Rle_trans; [apply Rabs_triang|]. lra. }
    destruct (mix1_step y t x Wx Wy Ht) as [F1 K1]. fold rho in K1. fold c in K1. fold (D x) in K1. fold (D (mix1 y t x)) in K1.
    assert (P0 : 0 <= D x) by apply Rabs_pos.
    assert (H1 : D (mix1 y t x) <= 2 * B). { apply Rle_trans with (rho * (2 * B) + 2 * u * B); [|assert (rho * B <= (1 - 12 * u) * B) by (apply Rmult_le_compat_r; lra); nra]. apply Rle_trans with (rho * D x + c); [exact K1|]. apply Rplus_le_compat; [|exact cB]. apply Rmult_le_compat_l; lra. }
    rewrite iter_S. destruct (IH _ F1 H1) as [F2 K2]. split; [exact F2|]. eapply Rle_trans; [exact K2|]. cbn [pow].
    assert (PR : 0 <= rho ^ n) by (apply pow_le; lra). assert (CC : c = (1 - rho) * (c / (1 - rho))) by (field; lra). set (d := c / (1 - rho)) in *.
    assert (rho ^ n * D (mix1 y t x) <= rho ^ n * (rho * D x + (1 - rho) * d)) by (apply Rmult_le_compat_l; [exact PR|rewrite <- CC; exact K1]). lra. }
  destruct (G n x Fx) as [F K]. { unfold D. eapply Rle_trans; [apply Rabs_triang|]. rewrite Rabs_Ropp. lra. }
  split; [exact F|]. eapply Rle_trans; [exact K|]. apply Rplus_le_compat_l.
  assert (PR : 0 <= rho ^ n) by (apply pow_le; lra). assert (0 < / b2r t) by (apply Rinv_0_lt_compat; lra).
  assert (I : / (1 - rho) <= 2 * / b2r t). { apply Rle_trans with (/ (b2r t * / 2)); [apply Rinv_le_contravar; lra|]. rewrite Rinv_mult, Rinv_inv. lra. }
  assert (I0 : 0 < / (1 - rho)) by (apply Rinv_0_lt_compat; lra). unfold Rdiv.
  assert (c * / (1 - rho) <= c * (2 * / b2r t)) by (apply Rmult_le_compat_l; trivial). assert (0 <= c * / (1 - rho)) by (apply Rmult_le_pos; lra). nra.
Qed.
(** ** One component: damping *)
Lemma damp_step (k x : f32) : finite x -> between (-1) 1 k -> finite (Bmult mode_NE x k) /\ Rabs (b2r (Bmult mode_NE x k)) <= Rabs (b2r x) /\
  exists e h, Rabs e <= u /\ Rabs h <= tiny / 2 /\ b2r (Bmult mode_NE x k) = b2r x * b2r k * (1 + e) + h.
Proof.
  intros Fx [Fk Bk]. assert (R : Rabs (rnd (b2r x * b2r k)) <= Rabs (b2r x)).
  { apply rnd_abs_le; [apply generic_format_abs, generic_format_B2R|]. rewrite Rabs_mult. rewrite <- (Rmult_1_r (Rabs (b2r x))) at 2. apply Rmult_le_compat_l; [apply Rabs_pos|]. now apply Rabs_le. }
  destruct (mult_ok x k Fx Fk) as [F E]; [eapply Rle_lt_trans; [exact R|apply abs_B2R_lt_emax]|]. split; [exact F|]. split; [rewrite E; exact R|].
  destruct (rnd_error (b2r x * b2r k)) as (e & h & He & Hh & _ & K). exists e, h. rewrite u32_ulp in *. rewrite eta_tiny in *. split; [exact He|]. split; [exact Hh|]. rewrite E. exact K.
Qed.
Lemma damp1 (k x : f32) n : finite x -> between (-1) 1 k -> let r := Nat.iter n (fun x => Bmult mode_NE x k) x in
  finite r /\ Rabs (b2r r) <= Rabs (b2r x) /\ Rabs (b2r r - b2r k ^ n * b2r x) <= (growth 1 n - 1) * Rabs (b2r k ^ n * b2r x) + INR n * growth 1 n * tiny.
Proof.
  intros Fx Hk. cbn zeta. pose proof u_val as U. pose proof tiny_small as T. induction n as [|n (F & M & K)].
  - unfold growth. cbn [pow INR]. change (Nat.iter 0 (fun x => Bmult mode_NE x k) x) with x. split; [exact Fx|]. split; [apply Rle_refl|]. rewrite Rmult_1_l, (Rminus_diag_eq _ _ eq_refl), Rabs_R0. lra.
  - change (Nat.iter (S n) (fun x => Bmult mode_NE x k) x) with (Bmult mode_NE (Nat.iter n (fun x => Bmult mode_NE x k) x) k). set (z := Nat.iter n (fun x => Bmult mode_NE x k) x) in *.
    destruct (damp_step k z F Hk) as (F1 & M1 & e & h & He & Hh & E). split; [exact F1|]. split; [lra|]. rewrite E. clear E F1 M1. destruct Hk as [_ Bk].
    change (growth 1 (S n)) with ((1 + 1 * u) * growth 1 n). rewrite S_INR. cbn [pow]. assert (G1 : 1 <= growth 1 n) by (apply pow_R1_Rle; lra).
    set (g := growth 1 n) in *. set (a := b2r k) in *. set (b := a ^ n * b2r x) in *. replace (a * a ^ n * b2r x) with (a * b) by (unfold b; ring). set (Z := b2r z) in *.
    replace (Z * a * (1 + e) + h - a * b) with ((Z - b) * (a * (1 + e)) + (a * b * e + h)) by ring. assert (A : Rabs a <= 1) by (now apply Rabs_le).
    pose proof (Rabs_pos (Z - b)) as P0. pose proof (Rabs_pos a) as Pa. pose proof (Rabs_pos b) as Pb. pose proof (Rabs_pos e) as Pe.
    assert (E1 : Rabs (1 + e) <= 1 + u) by (apply Rabs_le_inv in He; apply Rabs_le; lra). pose proof (Rabs_pos (1 + e)) as Pe1. pose proof (pos_INR n) as PN.
    set (w := INR n * g * tiny) in *. assert (Pw : 0 <= w) by (unfold w; apply Rmult_le_pos; [apply Rmult_le_pos; lra|lra]).
    apply Rle_trans with (((g - 1) * Rabs b + w) * (Rabs a * (1 + u)) + (Rabs a * Rabs b * u + tiny / 2)).
    + eapply Rle_trans; [apply Rabs_triang|]. apply Rplus_le_compat.
      * rewrite !Rabs_mult. apply Rmult_le_compat; trivial; [apply Rmult_le_pos; lra|apply Rmult_le_compat_l; lra].
      * eapply Rle_trans; [apply Rabs_triang|]. apply Rplus_le_compat; [|exact Hh]. rewrite !Rabs_mult. apply Rmult_le_compat_l; [apply Rmult_le_pos; lra|exact He].
    + rewrite Rabs_mult. replace ((INR n + 1) * ((1 + 1 * u) * g) * tiny) with (w * (1 + u) + (1 + u) * g * tiny) by (unfold w; ring).
      assert (w * (1 + u) * Rabs a <= w * (1 + u) * 1) by (apply Rmult_le_compat_l; [apply Rmult_le_pos; lra|exact A]).
      assert (tiny <= g * tiny) by nra. assert (0 <= u * (g * tiny)) by (apply Rmult_le_pos; nra).
      replace (((g - 1) * Rabs b + w) * (Rabs a * (1 + u)) + (Rabs a * Rabs b * u + tiny / 2)) with (((1 + 1 * u) * g - 1) * (Rabs a * Rabs b) + w * (1 + u) * Rabs a + tiny / 2) by ring. lra.
Qed.
(** ** Vectors *)
Lemma iter2 (f g : f32 -> f32) n v : Nat.iter n (fun v => V2 (f (x2 v)) (g (y2 v))) v = V2 (Nat.iter n f (x2 v)) (Nat.iter n g (y2 v)).
Proof. induction n as [|n IH]; [now destruct v|]. cbn [Nat.iter nat_rect] in *. unfold Nat.iter in *. rewrite IH. reflexivity. Qed.
Lemma iter3 (f g h : f32 -> f32) n v : Nat.iter n (fun v => V3 (f (x3 v)) (g (y3 v)) (h (z3 v))) v = V3 (Nat.iter n f (x3 v)) (Nat.iter n g (y3 v)) (Nat.iter n h (z3 v)).
Proof. induction n as [|n IH]; [now destruct v|]. unfold Nat.iter in *. cbn [nat_rect]. rewrite IH. reflexivity. Qed.
Lemma iter4 (f g h k : f32 -> f32) n v : Nat.iter n (fun v => V4 (f (x4 v)) (g (y4 v)) (h (z4 v)) (k (w4 v))) v =
  V4 (Nat.iter n f (x4 v)) (Nat.iter n g (y4 v)) (Nat.iter n h (z4 v)) (Nat.iter n k (w4 v)).
Proof. induction n as [|n IH]; [now destruct v|]. unfold Nat.iter in *. cbn [nat_rect]. rewrite IH. reflexivity. Qed.

(** Exponential smoothing x := mix(x, y, t), any number of times, for float, vec2, vec3 and vec4. *)
Lemma C105_smoothing_pf : forall L : Libm,
  smoothing_ok (fun x : f32 => [x]) (mix_f (F32 L)) /\ smoothing_ok (@l2 f32) (mix2_sc (F32 L)) /\ smoothing_ok (@l3 f32) (mix3_sc (F32 L)) /\ smoothing_ok (@l4 f32) (mix4_sc (F32 L)).
Proof.
  intros L. split; [|split; [|split]]; intros x y t n Fx Fy Bx By Ht r.
  - unfold all_finite, bounded_by in *. inversion Fx as [|? ? Fx0 _]; subst. inversion Fy as [|? ? Fy0 _]; subst. inversion Bx as [|? ? Bx0 _]; subst. inversion By as [|? ? By0 _]; subst.
    destruct (smooth1 y t x n Fx0 Fy0 Bx0 By0 Ht) as [F K]. split; [constructor; [exact F|constructor]|].
    intros [|i] Hi; [exact K|cbn in Hi; lia].
  - destruct x as [x0 x1], y as [y0 y1].
    assert (E : r = V2 (Nat.iter n (mix1 y0 t) x0) (Nat.iter n (mix1 y1 t) x1)) by exact (iter2 (mix1 y0 t) (mix1 y1 t) n (V2 x0 x1)). clearbody r. subst r.
    unfold all_finite, bounded_by, l2 in *. cbn [x2 y2] in *.
    repeat match goal with H : Forall _ (_ :: _) |- _ => apply Forall_cons_iff in H; destruct H end.
    destruct (smooth1 y0 t x0 n) as [F0 K0]; trivial. destruct (smooth1 y1 t x1 n) as [F1 K1]; trivial.
    split; [repeat (constructor; trivial)|]. intros [|[|i]] Hi; [exact K0|exact K1|cbn in Hi; lia].
  - destruct x as [x0 x1 x2], y as [y0 y1 y2].
    assert (E : r = V3 (Nat.iter n (mix1 y0 t) x0) (Nat.iter n (mix1 y1 t) x1) (Nat.iter n (mix1 y2 t) x2)) by exact (iter3 (mix1 y0 t) (mix1 y1 t) (mix1 y2 t) n (V3 x0 x1 x2)). clearbody r. subst r.
    unfold all_finite, bounded_by, l3 in *. cbn [x3 y3 z3] in *.
    repeat match goal with H : Forall _ (_ :: _) |- _ => apply Forall_cons_iff in H; destruct H end.
    destruct (smooth1 y0 t x0 n) as [F0 K0]; trivial. destruct (smooth1 y1 t x1 n) as [F1 K1]; trivial. destruct (smooth1 y2 t x2 n) as [F2 K2]; trivial.
    split; [repeat (constructor; trivial)|]. intros [|[|[|i]]] Hi; [exact K0|exact K1|exact K2|cbn in Hi; lia].
  - destruct x as [x0 x1 x2 x3], y as [y0 y1 y2 y3].
    assert (E : r = V4 (Nat.iter n (mix1 y0 t) x0) (Nat.iter n (mix1 y1 t) x1) (Nat.iter n (mix1 y2 t) x2) (Nat.iter n (mix1 y3 t) x3)) by exact (iter4 (mix1 y0 t) (mix1 y1 t) (mix1 y2 t) (mix1 y3 t) n (V4 x0 x1 x2 x3)). clearbody r. subst r.
    unfold all_finite, bounded_by, l4 in *. cbn [x4 y4 z4 w4] in *.
    repeat match goal with H : Forall _ (_ :: _) |- _ => apply Forall_cons_iff in H; destruct H end.
    destruct (smooth1 y0 t x0 n) as [F0 K0]; trivial. destruct (smooth1 y1 t x1 n) as [F1 K1]; trivial. destruct (smooth1 y2 t x2 n) as [F2 K2]; trivial. destruct (smooth1 y3 t x3 n) as [F3 K3]; trivial.
    split; [repeat (constructor; trivial)|]. intros [|[|[|[|i]]]] Hi; [exact K0|exact K1|exact K2|exact K3|cbn in Hi; lia].
Qed.
(** Damping v := v * k with |k| <= 1, any number of times: no component grows, no overflow, and the result is k^n v up to (1+u)^n - 1
    relative and n (1+u)^n smallest subnormals. *)
Lemma C105_damping_pf : forall L : Libm, damping_ok (@l2 f32) (vec2_mul_sc (F32 L)) /\ damping_ok (@l3 f32) (vec3_mul_sc (F32 L)) /\ damping_ok (@l4 f32) (vec4_mul_sc (F32 L)).
Proof.
  intros L. set (m k := fun x : f32 => Bmult mode_NE x k). split; [|split]; intros v k n Fv Hk r.
  - destruct v as [x0 x1]. assert (E : r = V2 (Nat.iter n (m k) x0) (Nat.iter n (m k) x1)) by exact (iter2 (m k) (m k) n (V2 x0 x1)). clearbody r. subst r.
    unfold all_finite, l2 in *. cbn [x2 y2] in *. repeat match goal with H : Forall _ (_ :: _) |- _ => apply Forall_cons_iff in H; destruct H end.
    destruct (damp1 k x0 n) as [F0 K0]; trivial. destruct (damp1 k x1 n) as [F1 K1]; trivial.
    split; [repeat (constructor; trivial)|]. intros [|[|i]] Hi; [exact K0|exact K1|cbn in Hi; lia].
  - destruct v as [x0 x1 x2]. assert (E : r = V3 (Nat.iter n (m k) x0) (Nat.iter n (m k) x1) (Nat.iter n (m k) x2)) by exact (iter3 (m k) (m k) (m k) n (V3 x0 x1 x2)). clearbody r. subst r.
    unfold all_finite, l3 in *. cbn [x3 y3 z3] in *. repeat match goal with H : Forall _ (_ :: _) |- _ => apply Forall_cons_iff in H; destruct H end.
    destruct (damp1 k x0 n) as [F0 K0]; trivial. destruct (damp1 k x1 n) as [F1 K1]; trivial. destruct (damp1 k x2 n) as [F2 K2]; trivial.
    split; [repeat (constructor; trivial)|]. intros [|[|[|i]]] Hi; [exact K0|exact K1|exact K2|cbn in Hi; lia].
  - destruct v as [x0 x1 x2 x3]. assert (E : r = V4 (Nat.iter n (m k) x0) (Nat.iter n (m k) x1) (Nat.iter n (m k) x2) (Nat.iter n (m k) x3)) by exact (iter4 (m k) (m k) (m k) (m k) n (V4 x0 x1 x2 x3)). clearbody r. subst r.
    unfold all_finite, l4 in *. cbn [x4 y4 z4 w4] in *. repeat match goal with H : Forall _ (_ :: _) |- _ => apply Forall_cons_iff in H; destruct H end.
    destruct (damp1 k x0 n) as [F0 K0]; trivial. destruct (damp1 k x1 n) as [F1 K1]; trivial. destruct (damp1 k x2 n) as [F2 K2]; trivial. destruct (damp1 k x3 n) as [F3 K3]; trivial.
    split; [repeat (constructor; trivial)|]. intros [|[|[|[|i]]]] Hi; [exact K0|exact K1|exact K2|exact K3|cbn in Hi; lia].
Qed.
Lemma iter_fix {A} (f : A -> A) x n : f x = x -> Nat.iter n f x = x.
Proof. intros E. induction n as [|n IH]; [reflexivity|]. unfold Nat.iter in *. cbn [nat_rect]. now rewrite IH. Qed.
(** The loops can come to rest away from where exact arithmetic leads: smoothing with t = 1/8 from the predecessor of 1 never reaches 1;
    damping by 0.9 never takes 2^-149 to 0; a clock at 2^24 advanced by 1 stands still. *)
Lemma C105_rest_refuted_pf : forall (L : Libm) (n : nat),
  (let x := pred_one in Nat.iter n (fun v => mix_f (F32 L) v (f32_lit 1 0) (f32_lit 125 (-3))) x = x /\ b2r x < 1) /\
  (let v := V3 smallest smallest smallest in Nat.iter n (fun v => vec3_mul_sc (F32 L) v (f32_lit 9 (-1))) v = v /\ 0 < b2r smallest) /\
  (let v := V3 two24 two24 two24 in let d := f32_lit 1 0 in Nat.iter n (fun v => vec3_add (F32 L) v (V3 d d d)) v = v).
Proof.
  intros L n. split; [|split]; cbn zeta.
  - split; [|vm_compute; lra]. apply iter_fix. change (mix1 (f32_lit 1 0) (f32_lit 125 (-3)) pred_one = pred_one). apply B2SF_inj. vm_compute. reflexivity.
  - split; [|unfold b2r, smallest, B2R; apply F2R_gt_0; reflexivity]. apply iter_fix.
    assert (E : Bmult mode_NE smallest (f32_lit 9 (-1)) = smallest) by (apply B2SF_inj; vm_compute; reflexivity).
    change (V3 (Bmult mode_NE smallest (f32_lit 9 (-1))) (Bmult mode_NE smallest (f32_lit 9 (-1))) (Bmult mode_NE smallest (f32_lit 9 (-1))) = V3 smallest smallest smallest). now rewrite E.
  - apply iter_fix. assert (E : Bplus mode_NE two24 (f32_lit 1 0) = two24) by (apply B2SF_inj; vm_compute; reflexivity).
    change (V3 (Bplus mode_NE two24 (f32_lit 1 0)) (Bplus mode_NE two24 (f32_lit 1 0)) (Bplus mode_NE two24 (f32_lit 1 0)) = V3 two24 two24 two24). now rewrite E.
Qed.
(*PROPS
(** The hypotheses are met: smoothing from (0, 1, 2) to (1, 1, 1) with t = 1/8, damping by 0.9. *)
Example C105_case : let x := V3 (f32_lit 0 0) (f32_lit 1 0) (f32_lit 2 0) in let y := V3 (f32_lit 1 0) (f32_lit 1 0) (f32_lit 1 0) in
  all_finite (l3 x) /\ all_finite (l3 y) /\ bounded_by (IZR (2 ^ 120)) (l3 x) /\ bounded_by (IZR (2 ^ 120)) (l3 y) /\ between (/ IZR (2 ^ 20)) 1 (f32_lit 125 (-3)) /\
  between (-1) 1 (f32_lit 9 (-1)).
Proof.
  intros x y. assert (E0 : b2r (f32_lit 0 0) = 0) by reflexivity. assert (E1 : b2r (f32_lit 1 0) = 1) by (vm_compute; lra). assert (E2 : b2r (f32_lit 2 0) = 2) by (vm_compute; lra).
  assert (B : 2 <= IZR (2 ^ 120)) by (apply IZR_le; now vm_compute).
  split; [repeat constructor|]. split; [repeat constructor|].
  split; [unfold x, bounded_by, l3; cbn [x3 y3 z3]; repeat constructor; rewrite ?E0, ?E1, ?E2, ?Rabs_R0, ?Rabs_pos_eq; lra|].
  split; [unfold y, bounded_by, l3; cbn [x3 y3 z3]; repeat constructor; rewrite ?E1, ?Rabs_pos_eq; lra|].
  split; (split; [reflexivity|]); [assert (Et : b2r (f32_lit 125 (-3)) = / 8) by (vm_compute; lra); rewrite Et; change (2 ^ 20)%Z with 1048576%Z; lra|].
  assert (Et : b2r (f32_lit 9 (-1)) = 15099494 / 16777216) by (vm_compute; lra). rewrite Et. lra.
Qed.
PROPS*)
