(** * Proofs: matrix inverses in binary32 *)
From Coq Require Import ZArith Bool Reals List Lra Lia.
From Flocq Require Import Core IEEE754.BinarySingleNaN.
From Verif Require Import Scalar IEEE32 RealInst Types Outcome Spec SpecR SpecMat SpecGeo SpecF32 SpecErr SpecInv FloatBasics FloatOps
  ModelVec ModelMat ModelMatrix ErrExpr ErrLib.
Import ListNotations.
Local Open Scope R_scope.
(*HEADER END*)
From Verif Require Import LenLib OvfLib PfErr PfOvf.

Lemma quot_core A ea E D e d th T : Rabs ea <= E -> Rabs e <= d -> d < Rabs D -> Rabs th <= T ->
  Rabs ((A + ea) * (1 + th) / (D + e) - A / D) <= (Rabs A * (T + d / Rabs D) + (1 + T) * E) / (Rabs D - d).
Proof.
  intros He Hd Hlt Hth. assert (PD : 0 < Rabs D) by (pose proof (Rabs_pos e); lra).
  assert (ND : D <> 0) by (intros ->; rewrite Rabs_R0 in PD; lra).
  assert (LB : Rabs D - d <= Rabs (D + e)).
  { pose proof (Rabs_triang (D + e) (- e)) as H. replace (D + e + - e) with D in H by ring. rewrite Rabs_Ropp in H. lra. }
  assert (NDE : D + e <> 0) by (intros Z; rewrite Z, Rabs_R0 in LB; lra).
  replace ((A + ea) * (1 + th) / (D + e) - A / D) with ((A * (th - e / D) + (1 + th) * ea) / (D + e)) by (field; auto).
  unfold Rdiv at 1. rewrite Rabs_mult, Rabs_inv. unfold Rdiv at 2.
  apply Rmult_le_compat; [apply Rabs_pos|left; apply Rinv_0_lt_compat; lra| |apply Rinv_le_contravar; lra].
  eapply Rle_trans; [apply Rabs_triang|]. rewrite !Rabs_mult.
  apply Rplus_le_compat.
  - apply Rmult_le_compat_l; [apply Rabs_pos|]. unfold Rminus. eapply Rle_trans; [apply Rabs_triang|]. rewrite Rabs_Ropp.
    apply Rplus_le_compat; [exact Hth|]. unfold Rdiv. rewrite Rabs_mult, Rabs_inv. apply Rmult_le_compat_r; [left; now apply Rinv_0_lt_compat|exact Hd].
  - apply Rmult_le_compat; try apply Rabs_pos; [|exact He]. eapply Rle_trans; [apply Rabs_triang|]. rewrite Rabs_R1. lra.
Qed.

Lemma div_inv (x y : f32) : finite x -> finite y -> b2r y <> 0 -> finite (Bdiv mode_NE x y) -> b2r (Bdiv mode_NE x y) = rnd (b2r x / b2r y).
Proof.
  intros Fx Fy N F. pose proof (Bdiv_correct 24 128 eq_refl eq_refl mode_NE x y N) as H.
  destruct (Rlt_bool _ _) eqn:E in H.
  - exact (proj1 H).
  - exfalso. unfold finite in F. change (B2SF (Bdiv mode_NE x y) = binary_overflow 24 128 mode_NE (xorb (Bsign x) (Bsign y))) in H.
    revert F. rewrite <- is_finite_SF_B2SF. rewrite H. destruct (xorb _ _); discriminate.
Qed.
Lemma div_num (x y : f32) : finite y -> finite (Bdiv mode_NE x y) -> finite x.
Proof. intros Fy F. destruct x as [|[]| |], y as [|[]| |]; try discriminate F; try discriminate Fy; reflexivity. Qed.

(** one entry: cofactor times reciprocal of the determinant, or divided by it *)
Definition rcp_r : R := 2 + / 1000000.
Lemma entry_rcp (x det : f32) A E D d : finite det -> Rabs (b2r x - A) <= E -> Rabs (b2r det - D) <= d -> d < Rabs D <= IZR (2 ^ 125) ->
  finite (Bmult mode_NE x (Bdiv mode_NE (f32_lit 1 0) det)) ->
  Rabs (b2r (Bmult mode_NE x (Bdiv mode_NE (f32_lit 1 0) det)) - A / D) <= (Rabs A * (rcp_r * ulp_half + d / Rabs D) + (1 + rcp_r * ulp_half) * E) / (Rabs D - d) + tiny.
Proof.
  intros Fd HA HD [Hlt Hle] F. destruct (mult_inv _ _ F) as [Fx [Fr Er]]. rewrite Er.
  assert (PD : 0 < Rabs D) by (pose proof (Rabs_pos (b2r det - D)); lra).
  assert (ND : D <> 0) by (intros ->; rewrite Rabs_R0 in PD; lra).
  set (e := b2r det - D) in *. assert (Ed : b2r det = D + e) by (unfold e; ring).
  assert (LB : Rabs D - d <= Rabs (D + e)).
  { pose proof (Rabs_triang (D + e) (- e)) as H. replace (D + e + - e) with D in H by ring. rewrite Rabs_Ropp in H. lra. }
  assert (NDE : D + e <> 0) by (intros Z; rewrite Z, Rabs_R0 in LB; lra).
  rewrite (div_inv _ _ fin_lit1 Fd) by (trivial; rewrite Ed; exact NDE). rewrite b2r_lit1, Ed.
  destruct (rnd_rel (1 / (D + e))) as [e1 [He1 E1]].
  { unfold Rdiv. rewrite Rmult_1_l, Rabs_inv. change (bpow radix2 (-126)) with (/ IZR (2 * 2 ^ 125)). apply Rinv_le_contravar; [now apply Rabs_pos_lt|].
    rewrite mult_IZR. pose proof (Rabs_triang D e). lra. }
  rewrite E1. destruct (rnd_error (b2r x * (1 / (D + e) * (1 + e1)))) as [e2 [eta [He2 [Heta [_ E2]]]]]. rewrite E2.
  set (ea := b2r x - A) in *. assert (Ex : b2r x = A + ea) by (unfold ea; ring). rewrite Ex.
  set (th := e1 + e2 + e1 * e2).
  replace ((A + ea) * (1 / (D + e) * (1 + e1)) * (1 + e2) + eta - A / D) with (((A + ea) * (1 + th) / (D + e) - A / D) + eta) by (unfold th; field; auto).
  eapply Rle_trans; [apply Rabs_triang|]. apply Rplus_le_compat.
  - apply (quot_core A ea E D e d th); trivial. unfold th, rcp_r. rewrite u32_ulp, uval in *.
    eapply Rle_trans; [apply Rabs_triang|]. pose proof (Rabs_triang e1 e2). rewrite Rabs_mult.
    pose proof (Rmult_le_compat _ _ _ _ (Rabs_pos e1) (Rabs_pos e2) He1 He2). lra.
  - rewrite eta_tiny in Heta. pose proof tiny_pos. lra.
Qed.
Lemma entry_div (x det : f32) A E D d : finite det -> Rabs (b2r x - A) <= E -> Rabs (b2r det - D) <= d -> d < Rabs D <= IZR (2 ^ 125) ->
  finite (Bdiv mode_NE x det) ->
  Rabs (b2r (Bdiv mode_NE x det) - A / D) <= (Rabs A * (1 * ulp_half + d / Rabs D) + (1 + 1 * ulp_half) * E) / (Rabs D - d) + tiny.
Proof.
  intros Fd HA HD [Hlt Hle] F. pose proof (div_num _ _ Fd F) as Fx.
  assert (PD : 0 < Rabs D) by (pose proof (Rabs_pos (b2r det - D)); lra).
  assert (ND : D <> 0) by (intros ->; rewrite Rabs_R0 in PD; lra).
  set (e := b2r det - D) in *. assert (Ed : b2r det = D + e) by (unfold e; ring).
  assert (LB : Rabs D - d <= Rabs (D + e)).
  { pose proof (Rabs_triang (D + e) (- e)) as H. replace (D + e + - e) with D in H by ring. rewrite Rabs_Ropp in H. lra. }
  assert (NDE : D + e <> 0) by (intros Z; rewrite Z, Rabs_R0 in LB; lra).
  rewrite (div_inv _ _ Fx Fd) by (trivial; rewrite Ed; exact NDE). rewrite Ed.
  set (ea := b2r x - A) in *. assert (Ex : b2r x = A + ea) by (unfold ea; ring). rewrite Ex.
  destruct (rnd_error ((A + ea) / (D + e))) as [e2 [eta [He2 [Heta [_ E2]]]]]. rewrite E2.
  replace ((A + ea) / (D + e) * (1 + e2) + eta - A / D) with (((A + ea) * (1 + e2) / (D + e) - A / D) + eta) by (field; auto).
  eapply Rle_trans; [apply Rabs_triang|]. apply Rplus_le_compat.
  - apply (quot_core A ea E D e d e2); trivial. rewrite u32_ulp in He2. lra.
  - rewrite eta_tiny in Heta. pose proof tiny_pos. lra.
Qed.

(** the whole matrix *)
Lemma matrix_quot {M} n c cd kd wd dd ka wa da r (comps : M -> list f32) cof mag (det : M -> f32) (adj f : M -> M) (op : f32 -> f32 -> f32) :
  c <= cd -> (1 <= n)%nat ->
  (forall x dt A E D d, finite dt -> Rabs (b2r x - A) <= E -> Rabs (b2r dt - D) <= d -> d < Rabs D <= IZR (2 ^ 125) -> finite (op x dt) ->
    Rabs (b2r (op x dt) - A / D) <= (Rabs A * (r * ulp_half + d / Rabs D) + (1 + r * ulp_half) * E) / (Rabs D - d) + tiny) ->
  (forall x dt, finite dt -> finite (op x dt) -> finite x) ->
  (forall a, no_overflow c n (comps a) [det a]) ->
  determinant_error_ok n kd wd dd comps det -> cofactor_error_ok ka wa da comps cof mag adj ->
  (forall a, comps (f a) = map (fun x => op x (det a)) (comps (adj a))) ->
  inverse_error_ok n cd kd wd dd ka wa da r comps cof mag f.
Proof.
  intros Hc Hn Hop Hfin Hov Hdet Hcof Hf a B HB Fa Ba Hov' D d HD Ff.
  assert (Fd : finite (det a)).
  { pose proof (Hov a B HB Fa Ba) as G. assert (H : c * B ^ n < IZR (2 ^ 127)).
    { eapply Rle_lt_trans; [|exact Hov']. apply Rmult_le_compat_r; [|exact Hc]. apply pow_le; lra. }
    specialize (G H). now apply Forall_cons_iff in G as [G _]. }
  pose proof (Hdet a B Fd HB Ba) as ND. fold D d in ND. unfold near in ND.
  assert (Fadj : all_finite (comps (adj a))).
  { rewrite Hf in Ff. unfold all_finite in *. rewrite Forall_map in Ff. eapply Forall_impl; [|exact Ff]. intros x Hx. exact (Hfin _ _ Fd Hx). }
  pose proof (Hcof a B Fadj HB Ba) as NC. rewrite Hf in *.
  unfold all_finite in Ff. rewrite Forall_map in Ff. revert NC Ff. generalize (comps (adj a)), (cof (vals (comps a))), (mag (mags (comps a))).
  intros l. induction l as [|x l IH]; intros [|A As] [|P Ps] NC Ff; try contradiction; [exact I|].
  destruct NC as [N1 N2]. apply Forall_cons_iff in Ff as [F1 F2]. split; [|now apply IH].
  now apply Hop.
Qed.

(** the determinants computed inside *)
Section DETS.
  Variable S : Scalar.
  Local Open Scope scalar_scope.
  Definition det3_rows (m : mat3 S) : S :=
    at3 m 0 0 * (at3 m 1 1 * at3 m 2 2 - at3 m 1 2 * at3 m 2 1)
    - at3 m 0 1 * (at3 m 1 0 * at3 m 2 2 - at3 m 1 2 * at3 m 2 0)
    + at3 m 0 2 * (at3 m 1 0 * at3 m 2 1 - at3 m 1 1 * at3 m 2 0).
  Definition det4_cols (m : mat4 S) : S :=
    let inverse := adjugate4 S m in
    let Dot0 := vec4_mul S (col4 m 0) (V4 (at4 inverse 0 0) (at4 inverse 1 0) (at4 inverse 2 0) (at4 inverse 3 0)) in
    (x4 Dot0 + y4 Dot0) + (z4 Dot0 + w4 Dot0).
  Definition det4_rows (m : mat4 S) : S :=
    let Inverse := adjugateTranspose4 S m in
    at4 m 0 0 * at4 Inverse 0 0 + at4 m 0 1 * at4 Inverse 0 1 + at4 m 0 2 * at4 Inverse 0 2 + at4 m 0 3 * at4 Inverse 0 3.
End DETS.
Lemma det_errors : forall (L : Libm),
  determinant_error_ok 3 5 9 1 lm3 (det3_rows (F32 L)) /\
  determinant_error_ok 4 9 44 2 lm4 (det4_cols (F32 L)) /\
  determinant_error_ok 4 9 40 2 lm4 (det4_rows (F32 L)).
Proof.
  intros L.
  split; [|split].
  - intros [[a0 a1 a2] [a3 a4 a5] [a6 a7 a8]] B F B1 HB. pose proof (bounded_env B _ ltac:(lra) HB) as HB1.
    deg1 L [a0; a1; a2; a3; a4; a5; a6; a7; a8] (det3_rows ES (vm3 0)) 5%nat 9%Z 1%nat B B1 HB1 F.
  - intros [[a0 a1 a2 a3] [a4 a5 a6 a7] [a8 a9 a10 a11] [a12 a13 a14 a15]] B F B1 HB. pose proof (bounded_env B _ ltac:(lra) HB) as HB1.
    deg1 L [a0; a1; a2; a3; a4; a5; a6; a7; a8; a9; a10; a11; a12; a13; a14; a15] (det4_cols ES (vm4 0)) 9%nat 44%Z 2%nat B B1 HB1 F.
  - intros [[a0 a1 a2 a3] [a4 a5 a6 a7] [a8 a9 a10 a11] [a12 a13 a14 a15]] B F B1 HB. pose proof (bounded_env B _ ltac:(lra) HB) as HB1.
    deg1 L [a0; a1; a2; a3; a4; a5; a6; a7; a8; a9; a10; a11; a12; a13; a14; a15] (det4_rows ES (vm4 0)) 9%nat 40%Z 2%nat B B1 HB1 F.
Qed.
Lemma det_overflow : forall L : Libm,
  (forall m, no_overflow 6 3 (lm3 m) [det3_rows (F32 L) m]) /\
  (forall m, no_overflow 24 4 (lm4 m) [det4_cols (F32 L) m]) /\
  (forall m, no_overflow 24 4 (lm4 m) [det4_rows (F32 L) m]).
Proof.
  intros L.
  split; [intros [[a0 a1 a2] [a3 a4 a5] [a6 a7 a8]]; safe L [a0; a1; a2; a3; a4; a5; a6; a7; a8] [det3_rows ES (vm3 0)] 6%Z 3%nat|].
  split; intros [[a0 a1 a2 a3] [a4 a5 a6 a7] [a8 a9 a10 a11] [a12 a13 a14 a15]].
  - safe L [a0; a1; a2; a3; a4; a5; a6; a7; a8; a9; a10; a11; a12; a13; a14; a15] [det4_cols ES (vm4 0)] 24%Z 4%nat.
  - safe L [a0; a1; a2; a3; a4; a5; a6; a7; a8; a9; a10; a11; a12; a13; a14; a15] [det4_rows ES (vm4 0)] 24%Z 4%nat.
Qed.
(** adjugateTranspose of mat3 and mat4: every entry is a cofactor, not transposed, with the same bounds as adjugate *)
Lemma C75_adjugate_transpose_pf : forall L : Libm,
  cofactor_error_ok 2 2 0 lm3 (fun m => mtransp 3 (cofactors_t 3 m)) (fun m => mtransp 3 (cofactors_t_mag 3 m)) (adjugateTranspose3 (F32 L)) /\
  cofactor_error_ok 6 10 1 lm4 (fun m => mtransp 4 (cofactors_t 4 m)) (fun m => mtransp 4 (cofactors_t_mag 4 m)) (adjugateTranspose4 (F32 L)).
Proof.
  intros L.
  split.
  - intros [[a0 a1 a2] [a3 a4 a5] [a6 a7 a8]] B F B1 HB. pose proof (bounded_env B _ ltac:(lra) HB) as HB1.
    degs L [a0; a1; a2; a3; a4; a5; a6; a7; a8] (lm3 (adjugateTranspose3 ES (vm3 0))) 2%nat 2%Z 0%nat B B1 HB1 F.
  - intros [[a0 a1 a2 a3] [a4 a5 a6 a7] [a8 a9 a10 a11] [a12 a13 a14 a15]] B F B1 HB. pose proof (bounded_env B _ ltac:(lra) HB) as HB1.
    degs L [a0; a1; a2; a3; a4; a5; a6; a7; a8; a9; a10; a11; a12; a13; a14; a15] (lm4 (adjugateTranspose4 ES (vm4 0))) 6%nat 10%Z 1%nat B B1 HB1 F.
Qed.

Definition bmul_rcp (x d : f32) : f32 := Bmult mode_NE x (Bdiv mode_NE (f32_lit 1 0) d).
Lemma inverse4_eq S m : inverse4 S m = mat4_mul_sc S (adjugate4 S m) (sdiv (slit 1 0) (det4_cols S m)).
Proof. reflexivity. Qed.
Lemma inverseTranspose4_eq S m : inverseTranspose4 S m = mat4_div_sc S (adjugateTranspose4 S m) (det4_rows S m).
Proof. reflexivity. Qed.
(** inverse of mat2, mat3 and mat4 against the exact inverse *)
Lemma C75_inverse_pf : forall L : Libm,
  inverse_error_ok 2 2 2 2 0 0 0 0 (2 + / 1000000) lm2 (cofactors_t 2) (cofactors_t_mag 2) (inverse2 (F32 L)) /\
  inverse_error_ok 3 6 5 9 1 2 2 0 (2 + / 1000000) lm3 (cofactors_t 3) (cofactors_t_mag 3) (inverse3 (F32 L)) /\
  inverse_error_ok 4 24 9 44 2 6 10 1 (2 + / 1000000) lm4 (cofactors_t 4) (cofactors_t_mag 4) (inverse4 (F32 L)).
Proof.
  intros L. destruct (C65_adjugate_pf L) as [A2 [A3 A4]]. destruct (C65_determinant_pf L) as [D2 [D3 _]]. destruct (det_errors L) as [_ [D4 _]].
  destruct (C71_determinants_pf L) as [O2 [O3 _]]. destruct (det_overflow L) as [_ [O4 _]].
  assert (R : forall x dt, finite dt -> finite (bmul_rcp x dt) -> finite x) by (intros x dt _ F; now apply mult_inv in F).
  split; [|split].
  - apply (matrix_quot 2 2 2 2 2 0 0 0 0 _ lm2 _ _ (determinant2 (F32 L)) (adjugate2 (F32 L)) (inverse2 (F32 L)) bmul_rcp); [lra|lia|exact entry_rcp|exact R|exact O2|exact D2|exact A2|].
    intros [[a0 a1] [a2 a3]]. reflexivity.
  - apply (matrix_quot 3 6 6 5 9 1 2 2 0 _ lm3 _ _ (determinant3 (F32 L)) (adjugate3 (F32 L)) (inverse3 (F32 L)) bmul_rcp); [lra|lia|exact entry_rcp|exact R|exact O3|exact D3|exact A3|].
    intros [[a0 a1 a2] [a3 a4 a5] [a6 a7 a8]]. cbv -[Bplus Bmult Bminus Bopp Bdiv f32_lit f32_ofZ]. reflexivity.
  - apply (matrix_quot 4 24 24 9 44 2 6 10 1 _ lm4 _ _ (det4_cols (F32 L)) (adjugate4 (F32 L)) (inverse4 (F32 L)) bmul_rcp); [lra|lia|exact entry_rcp|exact R|exact O4|exact D4|exact A4|].
    intros a. rewrite inverse4_eq. generalize (det4_cols (F32 L) a). destruct (adjugate4 (F32 L) a) as [[? ? ? ?] [? ? ? ?] [? ? ? ?] [? ? ? ?]]. reflexivity.
Qed.
(** inverseTranspose of mat3 and mat4 against the exact transposed inverse *)
Lemma C75_inverse_transpose_pf : forall L : Libm,
  inverse_error_ok 3 6 5 9 1 2 2 0 1 lm3 (fun m => mtransp 3 (cofactors_t 3 m)) (fun m => mtransp 3 (cofactors_t_mag 3 m)) (inverseTranspose3 (F32 L)) /\
  inverse_error_ok 4 24 9 40 2 6 10 1 1 lm4 (fun m => mtransp 4 (cofactors_t 4 m)) (fun m => mtransp 4 (cofactors_t_mag 4 m)) (inverseTranspose4 (F32 L)).
Proof.
  intros L. destruct (C75_adjugate_transpose_pf L) as [A3 A4]. destruct (det_errors L) as [D3 [_ D4]]. destruct (det_overflow L) as [O3 [_ O4]].
  split.
  - apply (matrix_quot 3 6 6 5 9 1 2 2 0 _ lm3 _ _ (det3_rows (F32 L)) (adjugateTranspose3 (F32 L)) (inverseTranspose3 (F32 L)) (Bdiv mode_NE)); [lra|lia|exact entry_div|exact div_num|exact O3|exact D3|exact A3|].
    intros [[a0 a1 a2] [a3 a4 a5] [a6 a7 a8]]. cbv -[Bplus Bmult Bminus Bopp Bdiv f32_lit f32_ofZ]. reflexivity.
  - apply (matrix_quot 4 24 24 9 40 2 6 10 1 _ lm4 _ _ (det4_rows (F32 L)) (adjugateTranspose4 (F32 L)) (inverseTranspose4 (F32 L)) (Bdiv mode_NE)); [lra|lia|exact entry_div|exact div_num|exact O4|exact D4|exact A4|].
    intros a. rewrite inverseTranspose4_eq. generalize (det4_rows (F32 L) a). destruct (adjugateTranspose4 (F32 L) a) as [[? ? ? ?] [? ? ? ?] [? ? ? ?] [? ? ? ?]]. reflexivity.
Qed.
(*PROPS
(** a matrix with determinant 1 meets the hypotheses *)
Definition inv_case : mat3 f32 := M3 (V3 (f32_ofZ 2) (f32_ofZ 1) (f32_ofZ 0)) (V3 (f32_ofZ 1) (f32_ofZ 1) (f32_ofZ 0)) (V3 (f32_ofZ 3) (f32_ofZ 0) (f32_ofZ 1)).
Example C75_case : let D := leibniz 3 (vals (lm3 inv_case)) in
  all_finite (lm3 inv_case) /\ bounded_by 3 (lm3 inv_case) /\ 6 * 3 ^ 3 < IZR (2 ^ 127) /\ D = 1 /\
  gam 5 * permanent 3 (mags (lm3 inv_case)) + 9 * 3 ^ 1 * tiny < Rabs D <= IZR (2 ^ 125) /\
  all_finite (lm3 (inverse3 (F32 L0) inv_case)).
Proof.
  cbv zeta.
  assert (V : vals (lm3 inv_case) = [2; 1; 0; 1; 1; 0; 3; 0; 1]).
  { change (vals (lm3 inv_case)) with (map (fun z => b2r (f32_ofZ z)) [2; 1; 0; 1; 1; 0; 3; 0; 1]%Z). cbn [map]. rewrite !ofZ_exact by reflexivity. reflexivity. }
  assert (W : mags (lm3 inv_case) = [2; 1; 0; 1; 1; 0; 3; 0; 1]).
  { change (mags (lm3 inv_case)) with (map Rabs (vals (lm3 inv_case))). rewrite V. cbn [map]. rewrite !Rabs_pos_eq by lra. reflexivity. }
  assert (D : leibniz 3 [2; 1; 0; 1; 1; 0; 3; 0; 1] = 1) by (cbv -[Rplus Rmult Ropp IZR]; lra).
  assert (P : permanent 3 [2; 1; 0; 1; 1; 0; 3; 0; 1] = 3) by (cbv -[Rplus Rmult Ropp IZR]; lra).
  split; [repeat apply Forall_cons; try apply Forall_nil; vm_compute; reflexivity|].
  split; [change (lm3 inv_case) with (map f32_ofZ [2; 1; 0; 1; 1; 0; 3; 0; 1]%Z); cbn [map]; repeat apply Forall_cons; try apply Forall_nil; rewrite ofZ_exact by reflexivity; rewrite Rabs_pos_eq; lra|].
  split; [replace (6 * 3 ^ 3) with 162 by (cbn; lra); now apply (IZR_lt 162)|].
  split; [now rewrite V|].
  split; [rewrite V, W, D, P; split; [|rewrite Rabs_R1; now apply (IZR_le 1)]|].
  - assert (T : tiny <= / 1000000) by (apply Rinv_le_contravar; [lra|now apply IZR_le]).
    assert (G : gam 5 <= / 100). { unfold gam. change ulp_half with (/ 16777216). cbn [INR]. lra. }
    rewrite Rabs_R1. cbn [pow]. lra.
  - repeat apply Forall_cons; try apply Forall_nil; vm_compute; reflexivity.
Qed.
PROPS*)
