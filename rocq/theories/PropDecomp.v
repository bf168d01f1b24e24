(** * Properties: decompose_orthogonal in binary32 *)

From Coq Require Import ZArith Bool Reals List Lra Lia.
From Flocq Require Import Core IEEE754.BinarySingleNaN.
From Verif Require Import Scalar IEEE32 RealInst Types Outcome Spec SpecR SpecMat SpecGeo SpecF32 SpecErr SpecOrd SpecDom SpecAcc SpecDecomp FloatBasics FloatOps
  ModelVec ModelCommon ModelExp ModelGeom ModelMat ModelMatrix ModelQuat ModelQuaternion ModelTransform ErrLib OvfLib F32Tac RealTac.
From Verif Require Import PfDecomp.
Import ListNotations.
Local Open Scope R_scope.


(** For a matrix whose three columns are those of a rotation times factors s0, s1, s2 (all positive, or all negated: any other
    pattern of signs is one of these two for another rotation), up to a relative error e, the scale returned is within 2 e plus four half-ulps
    of the factors and the quaternion within 10 e plus thirty half-ulps of the one of the rotation, up to sign. *)
Theorem C96_decompose : forall (L : Libm) (m : mat4 f32) (p : quat R) (s0 s1 s2 e g : R),
  unit_quat p -> 0 <= e <= / 4000 -> Forall scale_range [s0; s1; s2] -> g = 1 \/ g = -1 ->
  let r := rotation_entries (-1) (qx p) (qy p) (qz p) (qw p) in
  column_near e (m4c0 m) (g * s0) (column_of 0 r) -> column_near e (m4c1 m) (g * s1) (column_of 1 r) -> column_near e (m4c2 m) (g * s2) (column_of 2 r) ->
  let '(sc, o, t) := decompose_orthogonal (F32 L) m in
  scales_close (2 * e + 4 * ulp_half) (l3 sc) [g * s0; g * s1; g * s2] /\ all_close_sign (10 * e + 30 * ulp_half) (lq o) (lq p).
Proof. exact C96_decompose_pf. Qed.
Print Assumptions C96_decompose.

(** Whatever the matrix, the translation is the last column, bit for bit, and the scale factors are, with a common sign, the computed lengths
    of the first three columns: within three half-ulps of the exact ones whenever the columns are finite and not longer than 2^62. *)
Theorem C96_parts : forall (L : Libm) (m : mat4 f32),
  let '(sc, o, t) := decompose_orthogonal (F32 L) m in
  l3 t = firstn 3 (l4 (m4c3 m)) /\
  let cols := map (fun c => firstn 3 (l4 c)) [m4c0 m; m4c1 m; m4c2 m] in
  (Forall all_finite cols -> Forall (fun c => norm (vals c) <= IZR (2 ^ 62)) cols ->
   exists g, (g = 1 \/ g = -1) /\
     Forall2 (fun c k => finite k /\ Rabs (b2r k - g * norm (vals c)) <= 3 * ulp_half * norm (vals c) + / IZR (2 ^ 73)) cols (l3 sc)).
Proof. exact C96_parts_pf. Qed.
Print Assumptions C96_parts.

(** The columns (0,-2,0), (3,0,0), (0,0,-4) are those of the quarter turn about z scaled by -2, -3 and -4. *)
Example C96_case : forall L : Libm, let z := f32_ofZ in let h := sqrt (/ 2) in
  let '(sc, o, t) := decompose_orthogonal (F32 L) (M4 (V4 (z 0) (z (-2)) (z 0) (z 0)) (V4 (z 3) (z 0) (z 0) (z 0)) (V4 (z 0) (z 0) (z (-4)) (z 0)) (V4 (z 5) (z 6) (z 7) (z 1)))%Z in
  scales_close (4 * ulp_half) (l3 sc) [-2; -3; -4] /\ all_close_sign (30 * ulp_half) (lq o) [0; 0; h; h] /\ l3 t = [z 5; z 6; z 7]%Z.
Proof.
  intros L z h. assert (Hh : h * h = / 2) by (apply sqrt_sqrt; lra).
  set (m := M4 _ _ _ _). pose proof (C96_decompose L m (Quat 0 0 h h) 2 3 4 0 (-1)) as D. pose proof (C96_parts L m) as P.
  destruct (decompose_orthogonal (F32 L) m) as [[sc o] t]. destruct P as [P _].
  assert (SR : forall n, 1 <= n <= 4 -> scale_range n).
  { intros n Hn. split; [apply Rle_trans with 1; [rewrite <- Rinv_1; apply Rinv_le_contravar; [lra|]; now apply IZR_le|lra]|]. apply Rle_trans with 4; [lra|]. now apply IZR_le. }
  assert (CL : forall (c : Z) r, (Z.abs c <= 2 ^ 24)%Z -> IZR c = r -> finite (f32_ofZ c) /\ Rabs (b2r (f32_ofZ c) - r) <= 0).
  { intros c r Hc%Z.leb_le <-. assert (E := ofZ_exact c Hc). split; [rewrite ofZ_lit; exact (lit_finite c Hc)|]. rewrite E, Rminus_diag_eq, Rabs_R0 by reflexivity. lra. }
  assert (G : forall (c0 c1 c2 c3 : Z) s (r : list R), Forall (fun c => (Z.abs c <= 2 ^ 24)%Z) [c0; c1; c2] -> map IZR [c0; c1; c2] = map (Rmult s) r -> column_near 0 (V4 (z c0) (z c1) (z c2) (z c3)) s r).
  { intros c0 c1 c2 c3 s r Hc E. unfold column_near, all_close. rewrite <- E, Rmult_0_l. cbn [map x4 y4 z4]. inversion Hc as [|? ? H0 Hc1]; subst. inversion Hc1 as [|? ? H1 Hc2]; subst. inversion Hc2 as [|? ? H2 _]; subst.
    repeat (apply Forall2_cons; [now apply CL|]). apply Forall2_nil. }
  assert (R : rotation_entries (-1) 0 0 h h = [0; 1; 0; -1; 0; 0; 0; 0; 1]).
  { unfold rotation_entries. repeat (apply f_equal2; [lra|]). reflexivity. }
  cbv zeta in D. cbn [qx qy qz qw] in D. rewrite R in D. destruct D as [D1 D2].
  - unfold unit_quat, norm, ip. cbn. replace (0 * 0 + (0 * 0 + (h * h + (h * h + 0)))) with 1 by lra. apply sqrt_1.
  - lra.
  - repeat (apply Forall_cons; [apply SR; lra|]). apply Forall_nil.
  - now right.
  - apply G; [repeat (apply Forall_cons; [cbn; lia|]); apply Forall_nil|]. cbn. repeat (apply f_equal2; [lra|]). reflexivity.
  - apply G; [repeat (apply Forall_cons; [cbn; lia|]); apply Forall_nil|]. cbn. repeat (apply f_equal2; [lra|]). reflexivity.
  - apply G; [repeat (apply Forall_cons; [cbn; lia|]); apply Forall_nil|]. cbn. repeat (apply f_equal2; [lra|]). reflexivity.
  - rewrite !Rmult_0_r, !Rplus_0_l in *. split; [|split].
    + replace (-2) with (-1 * 2) by ring. replace (-3) with (-1 * 3) by ring. replace (-4) with (-1 * 4) by ring. exact D1.
    + exact D2.
    + exact P.
Qed.

(** A column of zeros leaves a scale factor of 0, which is right, and an orientation that is not a number: diag(0,1,1). *)
Theorem C96_zero_column_refuted : forall L : Libm, exists m : mat4 f32,
  let '(sc, o, t) := decompose_orthogonal (F32 L) m in
  all_finite (l4 (m4c0 m) ++ l4 (m4c1 m) ++ l4 (m4c2 m) ++ l4 (m4c3 m)) /\ l3 sc = [f32_ofZ 0; f32_ofZ 1; f32_ofZ 1] /\ Forall (fun c => is_nan c = true) (lq o).
Proof. exact C96_zero_column_refuted_pf. Qed.
Print Assumptions C96_zero_column_refuted.
