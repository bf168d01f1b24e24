(** * Proofs: world points seen through a camera, in binary32 *)
From Coq Require Import ZArith Bool Reals List Lra Lia.
From Flocq Require Import Core IEEE754.BinarySingleNaN.
From Verif Require Import Scalar IEEE32 RealInst Types Outcome Spec SpecR SpecMat SpecGeo SpecF32 SpecErr SpecProj SpecLook SpecDepth SpecCamera FloatBasics FloatOps
  ModelVec ModelMat ModelTransform ErrLib LenLib RealTac.
Import ListNotations.
Local Open Scope R_scope.
(*HEADER END*)
From Coq Require Import Psatz.
From Verif Require Import OvfLib LenLib RelLib DomLib NumLib PfErr PfOvf PfLen PfQuatAcc PfOctAcc VecErrLib PfProj PfDepth PfLook.

Lemma sum_abs x y z : Rabs x + Rabs y + Rabs z <= 17321 / 10000 * norm [x; y; z].
Proof.
  assert (H := norm_sq [x; y; z]). assert (P := norm_nn [x; y; z]). set (N := norm _) in *. unfold ip in H. cbn in H.
  pose proof (Rabs_pos x). pose proof (Rabs_pos y). pose proof (Rabs_pos z).
  assert (X : Rabs x * Rabs x = x * x) by (rewrite <- Rabs_mult; apply Rabs_pos_eq, Rle_0_sqr).
  assert (Y : Rabs y * Rabs y = y * y) by (rewrite <- Rabs_mult; apply Rabs_pos_eq, Rle_0_sqr).
  assert (Z : Rabs z * Rabs z = z * z) by (rewrite <- Rabs_mult; apply Rabs_pos_eq, Rle_0_sqr).
  set (a := Rabs x) in *. set (b := Rabs y) in *. set (c := Rabs z) in *.
  apply Rsqr_incr_0_var; [|lra]. unfold Rsqr.
  assert (HN : N * N = a * a + b * b + c * c) by lra.
  assert (0 <= (a - b) * (a - b)) by apply Rle_0_sqr. assert (0 <= (a - c) * (a - c)) by apply Rle_0_sqr. assert (0 <= (b - c) * (b - c)) by apply Rle_0_sqr.
  assert (0 <= N * N) by apply Rle_0_sqr. nra.
Qed.
Lemma abs_ip A B C x y z : Rabs A * Rabs x + Rabs B * Rabs y + Rabs C * Rabs z <= norm [A; B; C] * norm [x; y; z].
Proof.
  rewrite <- (norm_abs [A; B; C]), <- (norm_abs [x; y; z]). pose proof (ip_norm (map Rabs [A; B; C]) (map Rabs [x; y; z]) eq_refl eq_refl) as H.
  apply Rabs_le_inv in H. unfold ip in H. cbn [map combine fold_right fst snd zip] in H. cbn in *. lra.
Qed.
Lemma row_real r a b c t x y z A B C T e g G : Rabs (a - A) <= e -> Rabs (b - B) <= e -> Rabs (c - C) <= e -> Rabs (t - T) <= g ->
  norm [A; B; C] <= 1 -> 0 <= G -> Rabs (r - (a * x + b * y + c * z + t)) <= G * (Rabs a * Rabs x + Rabs b * Rabs y + Rabs c * Rabs z + Rabs t) + 4 * tiny ->
  let N := norm [x; y; z] in let S := 17321 / 10000 * N in
  Rabs (r - (A * x + B * y + C * z + T)) <= G * (N + e * S + Rabs T + g) + 4 * tiny + e * S + g.
Proof.
  intros Ha Hb Hc Ht HN HG H N S. assert (PN : 0 <= N) by apply norm_nn. pose proof (sum_abs x y z) as HS. fold N S in HS.
  pose proof (abs_ip A B C x y z) as HI. fold N in HI.
  assert (HI' : Rabs A * Rabs x + Rabs B * Rabs y + Rabs C * Rabs z <= N) by (eapply Rle_trans; [exact HI|]; rewrite <- (Rmult_1_l N) at 2; now apply Rmult_le_compat_r).
  assert (E0 : 0 <= e) by (pose proof (Rabs_pos (a - A)); lra).
  pose proof (Rabs_pos x). pose proof (Rabs_pos y). pose proof (Rabs_pos z).
  assert (D : forall p P q, Rabs (p - P) <= e -> Rabs p * Rabs q <= Rabs P * Rabs q + e * Rabs q).
  { intros p P q Hp. replace (Rabs P * Rabs q + e * Rabs q) with ((Rabs P + e) * Rabs q) by ring. apply Rmult_le_compat_r; [apply Rabs_pos|]. pose proof (Rabs_triang_inv p P). lra. }
  assert (D' : forall p P q, Rabs (p - P) <= e -> Rabs ((p - P) * q) <= e * Rabs q).
  { intros p P q Hp. rewrite Rabs_mult. apply Rmult_le_compat_r; [apply Rabs_pos|exact Hp]. }
  pose proof (D _ _ x Ha). pose proof (D _ _ y Hb). pose proof (D _ _ z Hc). pose proof (D' _ _ x Ha) as K1. pose proof (D' _ _ y Hb) as K2. pose proof (D' _ _ z Hc) as K3.
  pose proof (Rabs_triang_inv t T) as HT.
  assert (ES : e * (Rabs x + Rabs y + Rabs z) <= e * S) by now apply Rmult_le_compat_l.
  assert (M : Rabs a * Rabs x + Rabs b * Rabs y + Rabs c * Rabs z + Rabs t <= N + e * S + Rabs T + g) by lra.
  pose proof (Rmult_le_compat_l G _ _ HG M) as GM.
  apply Rabs_le_inv in H. apply Rabs_le_inv in K1. apply Rabs_le_inv in K2. apply Rabs_le_inv in K3. apply Rabs_le_inv in Ht. apply Rabs_le. split; lra.
Qed.
Lemma place_final s e g N NE G T : / 1000 <= s -> s <= 1 -> e = (25 / s + 20) * u -> g = (25 / s + 24) * u * NE + 3 * tiny -> 0 <= N -> 0 <= NE ->
  0 <= G <= (3 + / 1000000) * u -> Rabs T <= NE ->
  G * (N + e * (17321 / 10000 * N) + Rabs T + g) + 4 * tiny + e * (17321 / 10000 * N) + g <= (44 / s + 38) * u * (N + NE) + 8 * tiny.
Proof.
  intros H1 H2 -> -> HN HE HG HT. pose proof u_val as U. pose proof tiny_u as [T0 _].
  assert (Is : 1 <= / s <= 1000) by (split; [rewrite <- Rinv_1; apply Rinv_le_contravar; lra|rewrite <- (Rinv_inv 1000); apply Rinv_le_contravar; lra]).
  unfold Rdiv. set (i := / s) in *. 
  assert (Q : 0 <= (25 * i + 24) * u <= / 600) by (split; nra).
  assert (Q' : 0 <= (25 * i + 20) * u <= / 600) by (split; nra).
  assert (K : N + (25 * i + 20) * u * (17321 * / 10000 * N) + Rabs T + ((25 * i + 24) * u * NE + 3 * tiny) <= 1003 / 1000 * N + 1003 / 1000 * NE + 3 * tiny).
  { assert ((25 * i + 20) * u * N <= / 600 * N) by (apply Rmult_le_compat_r; lra). assert ((25 * i + 24) * u * NE <= / 600 * NE) by (apply Rmult_le_compat_r; lra). lra. }
  set (KK := N + (25 * i + 20) * u * (17321 * / 10000 * N) + Rabs T + ((25 * i + 24) * u * NE + 3 * tiny)) in *.
  assert (PK : 0 <= 1003 / 1000 * N + 1003 / 1000 * NE + 3 * tiny) by lra.
  assert (GK : G * KK <= (3 + / 1000000) * u * (1003 / 1000 * N + 1003 / 1000 * NE + 3 * tiny)).
  { eapply Rle_trans; [apply Rmult_le_compat_l; [lra|exact K]|]. apply Rmult_le_compat_r; lra. }
  assert (UT : u * tiny <= tiny / 100) by nra.
  assert (iN : 0 <= u * N) by (apply Rmult_le_pos; lra). assert (iE : 0 <= u * NE) by (apply Rmult_le_pos; lra).
  assert (iiN : 0 <= i * (u * N)) by (apply Rmult_le_pos; lra). assert (iiE : 0 <= i * (u * NE)) by (apply Rmult_le_pos; lra).
  nra.
Qed.
Lemma view_explicit X0 X1 X2 Y0 Y1 Y2 W0 W1 W2 t0 t1 t2 : affine (build_mat 3 (fun i j => nth j (nth i [[X0; X1; X2]; [Y0; Y1; Y2]; [W0; W1; W2]] []) 0)) [t0; t1; t2] =
  [X0; Y0; W0; 0; X1; Y1; W1; 0; X2; Y2; W2; 0; t0; t1; t2; 1].
Proof. reflexivity. Qed.
Lemma one_row (a b c t : f32) x y z : finite a -> b2r a = 0 -> finite b -> b2r b = 0 -> finite c -> b2r c = 0 -> finite t -> b2r t = 1 -> finite x -> finite y -> finite z ->
  let w := Bplus mode_NE (Bplus mode_NE (Bmult mode_NE a x) (Bmult mode_NE b y)) (Bplus mode_NE (Bmult mode_NE c z) (Bmult mode_NE t (f32_lit 1 0))) in
  finite w /\ b2r w = 1.
Proof.
  intros Fa Ea Fb Eb Fc Ec Ft Et Fx Fy Fz w. destruct (zero_mult a x Fa Ea Fx) as [F1 E1]. destruct (zero_mult b y Fb Eb Fy) as [F2 E2]. destruct (zero_mult c z Fc Ec Fz) as [F3 E3].
  destruct (mult_one t Ft) as [F4 E4]. destruct (zero_plus _ _ F1 E1 F2) as [F5 E5]. rewrite E2 in E5. destruct (zero_plus _ _ F3 E3 F4) as [F6 E6]. rewrite E4, Et in E6.
  destruct (zero_plus _ _ F5 E5 F6) as [F7 E7]. rewrite E6 in E7. now split.
Qed.
Lemma eye_near L (m : mat4 f32) (p : vec3 f32) s (X Y W E : list R) : length X = 3%nat -> length Y = 3%nat -> length W = 3%nat -> length E = 3%nat ->
  norm X <= 1 -> norm Y <= 1 -> norm W <= 1 -> norm E <= IZR (2 ^ 61) -> / 1000 <= s -> s <= 1 -> all_finite (l3 p) -> norm (vals (l3 p)) <= IZR (2 ^ 61) ->
  close_each (view_tolerance ((25 / s + 20) * ulp_half) ((25 / s + 24) * ulp_half * norm E + 3 * tiny)) (lm4 m)
    (affine (build_mat 3 (fun i j => nth j (nth i [X; Y; W] []) 0)) [- ip X E; - ip Y E; - ip W E]) ->
  let dl := (44 / s + 38) * ulp_half * (norm (vals (l3 p)) + norm E) + 8 * tiny in
  Forall2 (fun c r => finite c /\ Rabs (b2r c - r) <= dl) [x4 (eye_space L m p); y4 (eye_space L m p); z4 (eye_space L m p)]
    (map (fun A => ip A (vsub (vals (l3 p)) E)) [X; Y; W]) /\ finite (w4 (eye_space L m p)) /\ b2r (w4 (eye_space L m p)) = 1.
Proof.
  intros LX LY LW LE NX NY NW NE S1 S2 Fp Np H dl. pose proof u_val as U. pose proof tiny_u as [T0 T1]. change ulp_half with u in *.
  assert (IX := ip_norm X E LX LE). assert (IY := ip_norm Y E LY LE). assert (IW := ip_norm W E LW LE). assert (PE := norm_nn E).
  assert (BX : Rabs (ip X E) <= norm E) by (eapply Rle_trans; [exact IX|]; rewrite <- (Rmult_1_l (norm E)) at 2; now apply Rmult_le_compat_r).
  assert (BY : Rabs (ip Y E) <= norm E) by (eapply Rle_trans; [exact IY|]; rewrite <- (Rmult_1_l (norm E)) at 2; now apply Rmult_le_compat_r).
  assert (BW : Rabs (ip W E) <= norm E) by (eapply Rle_trans; [exact IW|]; rewrite <- (Rmult_1_l (norm E)) at 2; now apply Rmult_le_compat_r).
  clear IX IY IW.
  destruct p as [x y z]. destruct m as [[a0 a1 a2 a3] [b0 b1 b2 b3] [c0 c1 c2 c3] [t0 t1 t2 t3]].
  list3 X. list3 Y. list3 W. list3 E. rename a into X0, a4 into X1, a5 into X2, a6 into Y0, a7 into Y1, a8 into Y2, a9 into W0, a10 into W1, a11 into W2, a12 into E0, a13 into E1, a14 into E2.
  rewrite view_explicit in H. set (EE := [E0; E1; E2]) in *. set (e := (25 / s + 20) * u) in *. set (g := (25 / s + 24) * u * norm EE + 3 * tiny) in *.
  unfold close_each, view_tolerance in H. cbn [combine lm4 app l4 x4 y4 z4 w4 m4c0 m4c1 m4c2 m4c3] in H. cbn in H.
  apply Forall2_cons_iff in H as [[Fa0 Ka0] H]. cbn [fst snd] in Ka0.
  apply Forall2_cons_iff in H as [[Fa1 Ka1] H]. cbn [fst snd] in Ka1.
  apply Forall2_cons_iff in H as [[Fa2 Ka2] H]. cbn [fst snd] in Ka2.
  apply Forall2_cons_iff in H as [[Fa3 Ka3] H]. cbn [fst snd] in Ka3.
  apply Forall2_cons_iff in H as [[Fb0 Kb0] H]. cbn [fst snd] in Kb0.
  apply Forall2_cons_iff in H as [[Fb1 Kb1] H]. cbn [fst snd] in Kb1.
  apply Forall2_cons_iff in H as [[Fb2 Kb2] H]. cbn [fst snd] in Kb2.
  apply Forall2_cons_iff in H as [[Fb3 Kb3] H]. cbn [fst snd] in Kb3.
  apply Forall2_cons_iff in H as [[Fc0 Kc0] H]. cbn [fst snd] in Kc0.
  apply Forall2_cons_iff in H as [[Fc1 Kc1] H]. cbn [fst snd] in Kc1.
  apply Forall2_cons_iff in H as [[Fc2 Kc2] H]. cbn [fst snd] in Kc2.
  apply Forall2_cons_iff in H as [[Fc3 Kc3] H]. cbn [fst snd] in Kc3.
  apply Forall2_cons_iff in H as [[Ft0 Kt0] H]. cbn [fst snd] in Kt0.
  apply Forall2_cons_iff in H as [[Ft1 Kt1] H]. cbn [fst snd] in Kt1.
  apply Forall2_cons_iff in H as [[Ft2 Kt2] H]. cbn [fst snd] in Kt2.
  apply Forall2_cons_iff in H as [[Ft3 Kt3] H]. cbn [fst snd] in Kt3.
  clear H. unfold all_finite, l3 in Fp. cbn [x3 y3 z3] in Fp. apply Forall_cons_iff in Fp as [Fx Fp]. apply Forall_cons_iff in Fp as [Fy Fp]. apply Forall_cons_iff in Fp as [Fz _].
  change (vals (l3 (V3 x y z))) with [b2r x; b2r y; b2r z] in *. set (N := norm [b2r x; b2r y; b2r z]) in *. assert (PN : 0 <= N) by apply norm_nn.
  assert (Is : 1 <= / s <= 1000) by (split; [rewrite <- Rinv_1; apply Rinv_le_contravar; lra|rewrite <- (Rinv_inv 1000); apply Rinv_le_contravar; lra]).
  assert (He : 0 <= e <= / 600) by (unfold e, Rdiv; split; nra).
  assert (Hg : g <= / 600 * norm EE + 3 * tiny).
  { unfold g. apply Rplus_le_compat_r, Rmult_le_compat_r; [exact PE|]. unfold Rdiv. nra. }
  assert (M61 : 4 <= IZR (2 ^ 61)) by now apply IZR_le.
  assert (K62 : IZR (2 ^ 62) = 2 * IZR (2 ^ 61)) by (rewrite <- mult_IZR; reflexivity).
  assert (T3 : 3 * tiny <= 1) by (pose proof small60; nra).
  assert (EN : forall (c : f32) A l, In A l -> length l = 3%nat -> norm l <= 1 -> Rabs (b2r c - A) <= e -> Rabs (b2r c) <= IZR (2 ^ 62)).
  { intros c A l HI HL HN HK. pose proof (comp_norm l A HL HI). pose proof (Rabs_triang_inv (b2r c) A). lra. }
  assert (TN : forall (c : f32) T, Rabs T <= norm EE -> Rabs (b2r c - T) <= g -> Rabs (b2r c) <= IZR (2 ^ 62)).
  { intros c T HT HK. pose proof (Rabs_triang_inv (b2r c) T). lra. }
  assert (CN : forall c r, Rabs r <= 1 -> Rabs (b2r c - r) <= 0 -> Rabs (b2r c) <= IZR (2 ^ 62)).
  { intros c r Hr HK. pose proof (Rabs_triang_inv (b2r c) r). lra. }
  assert (R0 : Rabs 0 <= 1) by (rewrite Rabs_R0; lra). assert (R1 : Rabs 1 <= 1) by (rewrite Rabs_R1; lra).
  rewrite <- Rabs_Ropp in BX, BY, BW.
  assert (PX : forall a, In a [b2r x; b2r y; b2r z] -> Rabs a <= IZR (2 ^ 62)) by (intros a Ha; pose proof (comp_norm [b2r x; b2r y; b2r z] a eq_refl Ha) as Hc; fold N in Hc; lra).
  set (m := M4 (V4 a0 a1 a2 a3) (V4 b0 b1 b2 b3) (V4 c0 c1 c2 c3) (V4 t0 t1 t2 t3)) in *. set (v := V4 x y z (f32_lit 1 0)) in *.
  assert (FA : all_finite (lm4 m ++ l4 v)).
  { unfold all_finite. repeat (apply Forall_cons; [first [assumption|exact fin_lit1]|]). apply Forall_nil. }
  assert (BA : bounded_by (IZR (2 ^ 62)) (lm4 m ++ l4 v)).
  { unfold bounded_by.
    apply Forall_cons; [apply (EN a0 X0 [X0; X1; X2]); [cbn; tauto|reflexivity|assumption|assumption]|].
    apply Forall_cons; [apply (EN a1 Y0 [Y0; Y1; Y2]); [cbn; tauto|reflexivity|assumption|assumption]|].
    apply Forall_cons; [apply (EN a2 W0 [W0; W1; W2]); [cbn; tauto|reflexivity|assumption|assumption]|].
    apply Forall_cons; [apply (CN a3 0); assumption|].
    apply Forall_cons; [apply (EN b0 X1 [X0; X1; X2]); [cbn; tauto|reflexivity|assumption|assumption]|].
    apply Forall_cons; [apply (EN b1 Y1 [Y0; Y1; Y2]); [cbn; tauto|reflexivity|assumption|assumption]|].
    apply Forall_cons; [apply (EN b2 W1 [W0; W1; W2]); [cbn; tauto|reflexivity|assumption|assumption]|].
    apply Forall_cons; [apply (CN b3 0); assumption|].
    apply Forall_cons; [apply (EN c0 X2 [X0; X1; X2]); [cbn; tauto|reflexivity|assumption|assumption]|].
    apply Forall_cons; [apply (EN c1 Y2 [Y0; Y1; Y2]); [cbn; tauto|reflexivity|assumption|assumption]|].
    apply Forall_cons; [apply (EN c2 W2 [W0; W1; W2]); [cbn; tauto|reflexivity|assumption|assumption]|].
    apply Forall_cons; [apply (CN c3 0); assumption|].
    apply Forall_cons; [apply (TN t0 (- ip [X0; X1; X2] EE)); assumption|].
    apply Forall_cons; [apply (TN t1 (- ip [Y0; Y1; Y2] EE)); assumption|].
    apply Forall_cons; [apply (TN t2 (- ip [W0; W1; W2] EE)); assumption|].
    apply Forall_cons; [apply (CN t3 1); assumption|].
    apply Forall_cons; [apply PX; cbn; tauto|]. apply Forall_cons; [apply PX; cbn; tauto|]. apply Forall_cons; [apply PX; cbn; tauto|].
    apply Forall_cons; [change (Rabs (b2r (f32_lit 1 0)) <= IZR (2 ^ 62)); rewrite b2r_lit1, Rabs_R1; lra|]. apply Forall_nil. }
  assert (BIG : 4 * IZR (2 ^ 62) ^ 2 < IZR (2 ^ 127)).
  { replace (4 * IZR (2 ^ 62) ^ 2) with (IZR (4 * (2 ^ 62) ^ 2)); [now apply IZR_lt|]. rewrite mult_IZR, (pow_IZR (2 ^ 62) 2). reflexivity. }
  destruct (C71_products_pf L) as (_ & _ & _ & _ & _ & _ & _ & _ & _ & _ & OV).
  assert (FR : all_finite (l4 (mat4_mul_vec (F32 L) m v))).
  { pose proof (OV m v (IZR (2 ^ 62)) ltac:(lra) FA BA BIG) as F. unfold all_finite in *. apply Forall_app in F. apply F. }
  destruct (C65_matrix_products_pf L) as (_ & _ & (_ & ER & _)). pose proof (ER m v FR) as NR. fold (eye_space L m (V3 x y z)) in FR. change (mat4_mul_vec (F32 L) m v) with (eye_space L m (V3 x y z)) in FR, NR.
  destruct (one_row a3 b3 c3 t3 x y z) as [FW EW]; trivial;
    try (match goal with K : Rabs (b2r ?c - _) <= 0 |- b2r ?c = _ => apply Rabs_le_inv in K; lra end).
  set (r := eye_space L m (V3 x y z) : vec4 f32) in *.
  split; [|split; [exact FW|exact EW]].
  unfold all_finite, l4 in FR. apply Forall_cons_iff in FR as [Fr0 FR]. apply Forall_cons_iff in FR as [Fr1 FR]. apply Forall_cons_iff in FR as [Fr2 FR].
  destruct NR as (R_0 & R_1 & R_2 & _).
  assert (GM := gam_small 3 ltac:(lia)). cbn [INR] in GM. replace (1 + 1 + 1 + / 1000000) with (3 + / 1000000) in GM by lra. change ulp_half with u in GM.
  assert (L1 : b2r (f32_lit 1 0) = 1) by apply b2r_lit1.
  assert (FIN : forall (c a b cc t : f32) A0 A1 A2 T, near 3 (INR 4 * tiny) c (b2r a * b2r x + (b2r b * b2r y + (b2r cc * b2r z + (b2r t * b2r (f32_lit 1 0) + 0))))
      (Rabs (b2r a) * Rabs (b2r x) + (Rabs (b2r b) * Rabs (b2r y) + (Rabs (b2r cc) * Rabs (b2r z) + (Rabs (b2r t) * Rabs (b2r (f32_lit 1 0)) + 0)))) ->
      Rabs (b2r a - A0) <= e -> Rabs (b2r b - A1) <= e -> Rabs (b2r cc - A2) <= e -> Rabs (b2r t - T) <= g -> Rabs T <= norm EE -> norm [A0; A1; A2] <= 1 -> T = - ip [A0; A1; A2] EE ->
      Rabs (b2r c - ip [A0; A1; A2] (vsub [b2r x; b2r y; b2r z] EE)) <= dl).
  { intros c a b cc t A0 A1 A2 T HR H0 H1 H2 HT BT NA ET. unfold near in HR. rewrite L1, Rabs_R1 in HR.
    replace (ip [A0; A1; A2] (vsub [b2r x; b2r y; b2r z] EE)) with (A0 * b2r x + A1 * b2r y + A2 * b2r z + T) by (rewrite ET; unfold EE, ip, vsub; cbn; ring).
    eapply Rle_trans; [apply (row_real (b2r c) (b2r a) (b2r b) (b2r cc) (b2r t) (b2r x) (b2r y) (b2r z) A0 A1 A2 T e g (gam 3) H0 H1 H2 HT NA (proj1 GM))|].
    - eapply Rle_trans; [|eapply Rle_trans; [exact HR|]].
      + right. f_equal. ring.
      + right. cbn [INR]. ring.
    - fold N. apply (place_final s e g N (norm EE) (gam 3) T); trivial; reflexivity. }
  cbn [map]. apply Forall2_cons; [split; [exact Fr0|]|apply Forall2_cons; [split; [exact Fr1|]|apply Forall2_cons; [split; [exact Fr2|]|apply Forall2_nil]]].
  - now apply (FIN (x4 r) a0 b0 c0 t0 X0 X1 X2 (- ip [X0; X1; X2] EE)).
  - now apply (FIN (y4 r) a1 b1 c1 t1 Y0 Y1 Y2 (- ip [Y0; Y1; Y2] EE)).
  - now apply (FIN (z4 r) a2 b2 c2 t2 W0 W1 W2 (- ip [W0; W1; W2] EE)).
Qed.
Lemma camera_s eye center up s : camera eye center up s -> s <= 1 /\ norm (sight eye center) = 1 /\ 0 < norm (cross_l (sight eye center) (vals (l3 up))).
Proof.
  intros (Fe & Fc & Fu & Hd & Hu & He & Hs & HC). cbv zeta in *. set (U := vals (l3 up)) in *. set (d := vsub (vals (l3 center)) (vals (l3 eye))) in *.
  assert (Ld : length d = 3%nat) by reflexivity. assert (PU : 0 < norm U) by (eapply Rlt_le_trans; [|apply Hu]; apply Rinv_0_lt_compat; now apply (IZR_lt 0)).
  assert (Pd : 0 < norm d) by (eapply Rlt_le_trans; [|apply Hd]; apply Rinv_0_lt_compat; now apply (IZR_lt 0)).
  assert (Nf : norm (sight eye center) = 1) by (apply unit_norm; assumption).
  split; [|split; [exact Nf|]].
  - apply Rmult_le_reg_r with (norm U); [exact PU|]. eapply Rle_trans; [exact HC|]. eapply Rle_trans; [apply cross_norm; reflexivity|]. rewrite Nf. lra.
  - assert (0 < s * norm U) by (apply Rmult_lt_0_compat; lra). lra.
Qed.
(** The computed coordinates of a world point in the frame of the camera, for lookAtRH and lookAtLH: each within
    (44/s + 38) half-ulps of the sum of the distances of point and eye from the origin; the fourth is exactly 1. *)
Lemma C102_place_pf : forall (L : Libm) (eye center up p : vec3 f32) (s : R), camera eye center up s -> all_finite (l3 p) -> norm (vals (l3 p)) <= IZR (2 ^ 61) ->
  let frame W := map (fun A => ip A (vsub (vals (l3 p)) (vals (l3 eye)))) [axis_x W (vals (l3 up)); axis_y W (vals (l3 up)); W] in
  let near (q : vec4 f32) r := Forall2 (fun c x => finite c /\ Rabs (b2r c - x) <= place_error s eye p) [x4 q; y4 q; z4 q] r /\ finite (w4 q) /\ b2r (w4 q) = 1 in
  near (eye_space L (lookAtRH (F32 L) eye center up) p) (frame (vscale (-1) (sight eye center))) /\
  near (eye_space L (lookAtLH (F32 L) eye center up) p) (frame (sight eye center)).
Proof.
  intros L eye center up p s HC Fp Np frame near. destruct (camera_s _ _ _ _ HC) as (S1 & NF & PC).
  destruct HC as (Fe & Fc & Fu & Hd & Hu & He & Hs & HC). cbv zeta in *.
  destruct (C89_lookAt_pf L eye center up s Fe Fc Fu Hd Hu He Hs HC) as [KR KL].
  set (F := sight eye center) in *. set (U := vals (l3 up)) in *. assert (LF : length F = 3%nat) by reflexivity.
  assert (PC' : 0 < norm (cross_l U F)) by (rewrite (cross_swap F U), norm_scale3, Rabs_left by (reflexivity || lra); lra).
  assert (G : forall W, length W = 3%nat -> norm W = 1 -> 0 < norm (cross_l U W) -> norm (axis_x W U) <= 1 /\ norm (axis_y W U) <= 1).
  { intros W LW NW P. assert (NX : norm (axis_x W U) = 1) by (apply unit_norm; [reflexivity|exact P]). split; [lra|].
    unfold axis_y. eapply Rle_trans; [apply cross_norm; [exact LW|unfold axis_x, unit_of; now rewrite vscale_len]|]. rewrite NX, NW. lra. }
  assert (NM : norm (vscale (-1) F) = 1) by (rewrite norm_scale3, NF, Rabs_left by lra; lra).
  assert (PM : 0 < norm (cross_l U (vscale (-1) F))).
  { rewrite cross_neg by (reflexivity || assumption). exact PC. }
  destruct (G (vscale (-1) F) eq_refl NM PM) as [R1 R2]. destruct (G F LF NF PC') as [L1 L2].
  split; unfold near, frame, place_error; apply eye_near; trivial; try reflexivity; try lra.
Qed.

Lemma depth01_shift n f d d' : 0 < n -> n < f -> 0 < d -> 0 < d' -> depth01 n f d' - depth01 n f d = 1 * (f / (f - n)) * (n / d' * ((d' - d) / d)).
Proof. intros. unfold depth01. field. lra. Qed.
Lemma depth11_shift n f d d' : 0 < n -> n < f -> 0 < d -> 0 < d' -> depth11 n f d' - depth11 n f d = 2 * (f / (f - n)) * (n / d' * ((d' - d) / d)).
Proof. intros. unfold depth11. field. lra. Qed.
Lemma world_depth L view matrix sg width depth : sg = 1 \/ sg = -1 -> 0 < width ->
  (forall n f d d', 0 < n -> n < f -> 0 < d -> 0 < d' -> depth n f d' - depth n f d = width * (f / (f - n)) * (n / d' * ((d' - d) / d))) ->
  (forall eye center up p s, camera eye center up s -> all_finite (l3 p) -> norm (vals (l3 p)) <= IZR (2 ^ 61) -> let q := eye_space L (view eye center up) p in
     all_finite [x4 q; y4 q; z4 q] /\ Rabs (sg * b2r (z4 q) - ahead eye center p) <= place_error s eye p) ->
  depth_accurate L matrix sg width depth -> world_depth_accurate L view matrix width depth.
Proof.
  intros SG WD HD HV HA eye center up p s fovy aspect n f m HC Fp Np HM DR D dl HR q.
  destruct (HV eye center up p s HC Fp Np) as [FQ KQ]. fold dl D in KQ. set (e := eye_space L (view eye center up) p : vec4 f32) in *.
  assert (K := Rabs_le_inv _ _ KQ). assert (P0 : 0 <= dl) by (pose proof (Rabs_pos (sg * b2r (z4 e) - D)); lra).
  destruct (HA fovy aspect n f (x4 e) (y4 e) (z4 e) m HM DR FQ ltac:(lra)) as (F & W1 & KA). change (device L m (x4 e) (y4 e) (z4 e)) with q in F, W1, KA.
  split; [exact F|]. split; [exact W1|]. destruct DR as (_ & Pn & Hf & _). set (d' := sg * b2r (z4 e)) in *. set (nn := b2r n) in *. set (ff := b2r f) in *.
  assert (PD : 0 < D) by lra. assert (PD' : 0 < d') by lra. pose proof (HD nn ff D d' Pn ltac:(lra) PD PD') as E.
  assert (PF : 0 < ff / (ff - nn)) by (apply Rdiv_lt_0_compat; lra).
  assert (X : Rabs (nn / d' * ((d' - D) / D)) <= dl / D).
  { rewrite Rabs_mult. unfold Rdiv at 2. rewrite Rabs_mult, (Rabs_pos_eq (/ D)) by (left; now apply Rinv_0_lt_compat).
    rewrite (Rabs_pos_eq (nn / d')) by (left; apply Rdiv_lt_0_compat; lra).
    assert (Q : nn / d' <= 1) by (apply Rmult_le_reg_r with d'; [exact PD'|]; unfold Rdiv; rewrite Rmult_assoc, Rinv_l by lra; lra).
    assert (ID : 0 < / D) by now apply Rinv_0_lt_compat.
    assert (Z : Rabs (d' - D) * / D <= dl / D) by (apply Rmult_le_compat_r; lra). assert (0 <= Rabs (d' - D) * / D) by (apply Rmult_le_pos; [apply Rabs_pos|lra]). nra. }
  assert (Y : Rabs (depth nn ff d' - depth nn ff D) <= width * (ff / (ff - nn)) * (dl / D)).
  { rewrite E, Rabs_mult, (Rabs_pos_eq (width * (ff / (ff - nn)))) by (left; now apply Rmult_lt_0_compat). apply Rmult_le_compat_l; [left; now apply Rmult_lt_0_compat|exact X]. }
  apply Rabs_le_inv in Y. apply Rabs_le_inv in KA. apply Rabs_le. lra.
Qed.
Lemma world_order L view matrix sg : (forall eye center up p s, camera eye center up s -> all_finite (l3 p) -> norm (vals (l3 p)) <= IZR (2 ^ 61) -> let q := eye_space L (view eye center up) p in
     all_finite [x4 q; y4 q; z4 q] /\ Rabs (sg * b2r (z4 q) - ahead eye center p) <= place_error s eye p) ->
  depth_ordered L matrix sg -> world_depth_ordered L view matrix.
Proof.
  intros HV HA eye center up p p' s fovy aspect n f m HC Fp Fp' Np Np' HM DR D dl D' dl' HR HR' HO.
  destruct (HV eye center up p s HC Fp Np) as [FQ KQ]. fold dl D in KQ. destruct (HV eye center up p' s HC Fp' Np') as [FQ' KQ']. fold dl' D' in KQ'.
  unfold seen. set (e := eye_space L (view eye center up) p : vec4 f32) in *. set (e' := eye_space L (view eye center up) p' : vec4 f32) in *.
  assert (P0 : 0 <= dl) by (pose proof (Rabs_pos (sg * b2r (z4 e) - D)); lra). assert (P0' : 0 <= dl') by (pose proof (Rabs_pos (sg * b2r (z4 e') - D')); lra).
  apply Rabs_le_inv in KQ. apply Rabs_le_inv in KQ'. assert (Pn : 0 < b2r n) by apply DR.
  apply (HA fovy aspect n f (x4 e) (y4 e) (z4 e) (x4 e') (y4 e') (z4 e') m HM DR); [apply (proj2 (Forall_app finite [x4 e; y4 e; z4 e] [x4 e'; y4 e'; z4 e']) (conj FQ FQ'))|cbv zeta; lra|cbv zeta; lra|].
  eapply Rlt_le_trans; [exact HO|]. apply Rmult_le_compat_l; [lra|]. apply Rplus_le_compat; [apply Rinv_le_contravar; lra|]. apply Ropp_le_contravar, Rinv_le_contravar; lra.
Qed.
Lemma place_z L : (forall eye center up p s, camera eye center up s -> all_finite (l3 p) -> norm (vals (l3 p)) <= IZR (2 ^ 61) -> let q := eye_space L (lookAtRH (F32 L) eye center up) p in
     all_finite [x4 q; y4 q; z4 q] /\ Rabs (-1 * b2r (z4 q) - ahead eye center p) <= place_error s eye p) /\
  (forall eye center up p s, camera eye center up s -> all_finite (l3 p) -> norm (vals (l3 p)) <= IZR (2 ^ 61) -> let q := eye_space L (lookAtLH (F32 L) eye center up) p in
     all_finite [x4 q; y4 q; z4 q] /\ Rabs (1 * b2r (z4 q) - ahead eye center p) <= place_error s eye p).
Proof.
  assert (G : forall (q : vec4 f32) a b c dl sg r, sg = 1 \/ sg = -1 -> Forall2 (fun c x => finite c /\ Rabs (b2r c - x) <= dl) [x4 q; y4 q; z4 q] [a; b; c] -> c = sg * r -> all_finite [x4 q; y4 q; z4 q] /\ Rabs (sg * b2r (z4 q) - r) <= dl).
  { intros q a b c dl sg r SG H E. apply Forall2_cons_iff in H as [[F0 _] H]. apply Forall2_cons_iff in H as [[F1 _] H]. apply Forall2_cons_iff in H as [[F2 K] _].
    split; [repeat (apply Forall_cons; [assumption|]); apply Forall_nil|]. rewrite E in K. destruct SG as [->| ->]; [now rewrite !Rmult_1_l in *|].
    replace (-1 * b2r (z4 q) - r) with (- (b2r (z4 q) - -1 * r)) by ring. now rewrite Rabs_Ropp. }
  split; intros eye center up p s HC Fp Np q; destruct (C102_place_pf L eye center up p s HC Fp Np) as [[R _] [K _]]; cbn [map] in R, K.
  - refine (G q _ _ _ _ (-1) _ (or_intror eq_refl) R _). unfold ahead. destruct p, eye. unfold ip, vscale, sight, unit_of, vscale, vsub. cbn. ring.
  - refine (G q _ _ _ _ 1 _ (or_introl eq_refl) K _). now rewrite Rmult_1_l.
Qed.
(** Depth of a world point through lookAt and a perspective matrix of the same handedness. *)
Lemma C102_depth_pf : forall (L : Libm) (b : build),
  world_depth_accurate L (lookAtRH (F32 L)) (perspectiveRH_ZO (F32 L) b) 1 depth01 /\
  world_depth_accurate L (lookAtLH (F32 L)) (perspectiveLH_ZO (F32 L) b) 1 depth01 /\
  world_depth_accurate L (lookAtRH (F32 L)) (perspectiveRH_NO (F32 L) b) 2 depth11 /\
  world_depth_accurate L (lookAtLH (F32 L)) (perspectiveLH_NO (F32 L) b) 2 depth11.
Proof.
  intros L b. destruct (C99_depth_pf L b) as (A & B & C & D). destruct (place_z L) as [PR PL].
  split; [|split; [|split]].
  - apply (world_depth L _ _ (-1)); trivial; [now right|lra|exact depth01_shift].
  - apply (world_depth L _ _ 1); trivial; [now left|lra|exact depth01_shift].
  - apply (world_depth L _ _ (-1)); trivial; [now right|lra|exact depth11_shift].
  - apply (world_depth L _ _ 1); trivial; [now left|lra|exact depth11_shift].
Qed.
(** The depth test on world points. *)
Lemma C102_order_pf : forall (L : Libm) (b : build),
  world_depth_ordered L (lookAtRH (F32 L)) (perspectiveRH_ZO (F32 L) b) /\ world_depth_ordered L (lookAtLH (F32 L)) (perspectiveLH_ZO (F32 L) b) /\
  world_depth_ordered L (lookAtRH (F32 L)) (perspectiveRH_NO (F32 L) b) /\ world_depth_ordered L (lookAtLH (F32 L)) (perspectiveLH_NO (F32 L) b).
Proof.
  intros L b. destruct (C99_order_pf L b) as (A & B & C & D). destruct (place_z L) as [PR PL].
  split; [|split; [|split]].
  - apply (world_order L _ _ (-1)); trivial.
  - apply (world_order L _ _ 1); trivial.
  - apply (world_order L _ _ (-1)); trivial.
  - apply (world_order L _ _ 1); trivial.
Qed.
(*PROPS
(** A camera at (3, 0, 4) looking at the origin with y up, planes at 1 and 100: the origin and the point (-3, 0, -4) behind
    it meet the hypotheses of C102_order, with s = 1. *)
Example C102_case : let eye := V3 (f32_ofZ 3) (f32_ofZ 0) (f32_ofZ 4) in let center := V3 (f32_ofZ 0) (f32_ofZ 0) (f32_ofZ 0) in
  let up := V3 (f32_ofZ 0) (f32_ofZ 1) (f32_ofZ 0) in let p' := V3 (f32_ofZ (-3)) (f32_ofZ 0) (f32_ofZ (-4)) in
  camera eye center up 1 /\ ahead eye center center = 5 /\ ahead eye center p' = 10 /\
  let dl := place_error 1 eye center in let dl' := place_error 1 eye p' in
  1 + dl <= 5 <= 100 - dl /\ 1 + dl' <= 10 <= 100 - dl' /\ 32 * ulp_half < 1 * (/ (5 + dl) - / (10 - dl')).
Proof.
  cbv zeta. assert (H0 : b2r (f32_ofZ 0) = 0) by reflexivity. assert (H1 := ofZ_exact 1 eq_refl). assert (H3 := ofZ_exact 3 eq_refl).
  assert (H4 := ofZ_exact 4 eq_refl). assert (H3' := ofZ_exact (-3) eq_refl). assert (H4' := ofZ_exact (-4) eq_refl).
  assert (FF : forall a b c : f32, finite a -> finite b -> finite c -> all_finite (l3 (V3 a b c))) by (intros; repeat (apply Forall_cons; [assumption|]); apply Forall_nil).
  assert (V : forall a b c : f32, vals (l3 (V3 a b c)) = [b2r a; b2r b; b2r c]) by reflexivity.
  assert (N5 : norm [0 - 3; 0 - 0; 0 - 4] = 5) by (unfold norm, ip; cbn; transitivity (sqrt (5 * 5)); [f_equal; lra|apply sqrt_square; lra]).
  assert (N5' : norm [3; 0; 4] = 5) by (unfold norm, ip; cbn; transitivity (sqrt (5 * 5)); [f_equal; lra|apply sqrt_square; lra]).
  assert (N5'' : norm [-3; 0; -4] = 5) by (unfold norm, ip; cbn; transitivity (sqrt (5 * 5)); [f_equal; lra|apply sqrt_square; lra]).
  assert (N0 : norm [0; 0; 0] = 0) by (unfold norm, ip; cbn; transitivity (sqrt 0); [f_equal; lra|apply sqrt_0]).
  assert (N1 : norm [0; 1; 0] = 1) by (unfold norm, ip; cbn; transitivity (sqrt 1); [f_equal; lra|apply sqrt_1]).
  assert (F : sight (V3 (f32_ofZ 3) (f32_ofZ 0) (f32_ofZ 4)) (V3 (f32_ofZ 0) (f32_ofZ 0) (f32_ofZ 0)) = [- (3 / 5); 0; - (4 / 5)]).
  { unfold sight. rewrite !V, H0, H3, H4. unfold vsub. cbn [zip]. unfold unit_of. rewrite N5. unfold vscale. cbn. apply f_equal2; [lra|]. apply f_equal2; [lra|]. apply f_equal2; [lra|reflexivity]. }
  unfold camera, ahead, place_error. rewrite !F, !V, H0, H1, H3, H4, H3', H4'. unfold vsub. cbn [zip]. rewrite N5, N5', N5'', N0, N1, uval.
  assert (T : 0 < tiny <= / 1000000) by (unfold tiny; split; [apply Rinv_0_lt_compat; now apply (IZR_lt 0)|apply Rinv_le_contravar; [lra|now apply (IZR_le 1000000)]]).
  split; [|split; [unfold ip; cbn; lra|split; [unfold ip; cbn; lra|]]].
  - repeat split; try (now apply FF); try (now apply (IZR_le 5)); try (now apply (IZR_le 1)); try lra.
    all: try (apply Rle_trans with (/ 1); [apply Rinv_le_contravar; [lra|now apply (IZR_le 1)]|lra]).
    unfold norm, ip, cross_l. cbn. apply Rle_trans with (sqrt 1); [rewrite sqrt_1; lra|]. apply sqrt_le_1_alt. lra.
  - split; [lra|split; [lra|]]. set (a := (44 / 1 + 38) * / 16777216 * (0 + 5) + 8 * tiny). set (c := (44 / 1 + 38) * / 16777216 * (5 + 5) + 8 * tiny).
    assert (A : 0 <= a <= / 10) by (unfold a; lra). assert (C : 0 <= c <= / 10) by (unfold c; lra).
    assert (/ (51 / 10) <= / (5 + a)) by (apply Rinv_le_contravar; lra). assert (/ (10 - c) <= / (99 / 10)) by (apply Rinv_le_contravar; lra). lra.
Qed.
PROPS*)
