(** * Properties: guarded operations never leave their domain *)

From Coq Require Import ZArith Bool Reals List Lra Lia.
From Flocq Require Import Core IEEE754.BinarySingleNaN.
From Verif Require Import Scalar IEEE32 RealInst Types Outcome Spec SpecR SpecMat SpecGeo SpecF32 SpecErr SpecOrd SpecDom FloatBasics FloatOps
  ModelVec ModelCommon ModelExp ModelGeom ModelMat ModelMatrix ModelQuat ModelQuaternion ModelColor ModelTrig ModelConst ErrLib OvfLib F32Tac.
From Verif Require Import PfDomain.
Import ListNotations.
Local Open Scope R_scope.


(** quat_cast produces a finite quaternion with a component at least 1/2 from every finite matrix (rotation or not, entries up to 2^124):
    the square root is never taken of a negative number and the division never has a small divisor. *)
Theorem C83_quat_cast : forall L : Libm,
  (forall m, all_finite (lm3 m) -> bounded_by (IZR (2 ^ 124)) (lm3 m) -> all_finite (lq (quat_cast3 (F32 L) m)) /\ Exists (fun x => / 2 <= b2r x) (lq (quat_cast3 (F32 L) m))) /\
  (forall m, all_finite (lm4 m) -> bounded_by (IZR (2 ^ 124)) (lm4 m) -> all_finite (lq (quat_cast4 (F32 L) m)) /\ Exists (fun x => / 2 <= b2r x) (lq (quat_cast4 (F32 L) m))).
Proof. exact C83_quat_cast_pf. Qed.
Print Assumptions C83_quat_cast.

(** axis(q) is finite for every finite q (up to 2^114), normalized or not. *)
Theorem C83_axis : forall (L : Libm) (q : quat f32), all_finite (lq q) -> bounded_by (IZR (2 ^ 114)) (l3 (V3 (qx q) (qy q) (qz q))) ->
  all_finite (l3 (axis (F32 L) q)).
Proof. exact C83_axis_pf. Qed.
Print Assumptions C83_axis.

(** refract is finite for all finite arguments up to 2^19, however the vectors are scaled: the square root is only taken of numbers that are not negative. *)
Theorem C83_refract : forall L : Libm,
  (forall i n eta, all_finite [i; n; eta] -> bounded_by (IZR (2 ^ 19)) [i; n; eta] -> finite (refract_f (F32 L) i n eta)) /\
  (forall i n eta, all_finite (l2 i ++ l2 n ++ [eta]) -> bounded_by (IZR (2 ^ 19)) (l2 i ++ l2 n ++ [eta]) -> all_finite (l2 (refract2 (F32 L) i n eta))) /\
  (forall i n eta, all_finite (l3 i ++ l3 n ++ [eta]) -> bounded_by (IZR (2 ^ 19)) (l3 i ++ l3 n ++ [eta]) -> all_finite (l3 (refract3 (F32 L) i n eta))) /\
  (forall i n eta, all_finite (l4 i ++ l4 n ++ [eta]) -> bounded_by (IZR (2 ^ 19)) (l4 i ++ l4 n ++ [eta]) -> all_finite (l4 (refract4 (F32 L) i n eta))).
Proof. exact C83_refract_pf. Qed.
Print Assumptions C83_refract.

(** slerp never returns NaN or an infinity: for all finite quaternions (normalized or not) and all finite t up to 2^60, acos is only called on
    [0, 1 - 2^-23] and the divisor sin(angle) is never small. *)
Theorem C83_slerp : forall (L : Libm) (x y : quat f32) (t : f32), slerp_libm L ->
  all_finite (t :: lq x ++ lq y) -> bounded_by (IZR (2 ^ 60)) (t :: lq x ++ lq y) -> all_finite (lq (slerp (F32 L) x y t)).
Proof. exact C83_slerp_pf. Qed.
Print Assumptions C83_slerp.

(** angle(normalize(q)) is a number: the argument of acos is in [-1, 1]. *)
Theorem C83_angle : forall (L : Libm) (q : quat f32), acos_domain L -> finite (length2_q (F32 L) q) -> / IZR (2 ^ 126) <= b2r (length2_q (F32 L) q) ->
  between 0 8 (angle (F32 L) (normalize_q (F32 L) q)).
Proof. exact C83_angle_pf. Qed.
Print Assumptions C83_angle.

(** Without normalization it need not be: for q = normalize(2, 0, 1, 2) (w first), the real part of q * conjugate(q) exceeds 1, so angle(q * conjugate(q))
    calls acos outside its domain. *)
Theorem C83_angle_refuted : forall L : Libm,
  let q := normalize_q (F32 L) (Quat (f32_lit 0 0) (f32_lit 1 0) (f32_lit 2 0) (f32_lit 2 0)) in let r := quat_mul (F32 L) q (conjugate (F32 L) q) in
  angle (F32 L) r = Bmult mode_NE (l_acos L (qw r)) (f32_lit 2 0) /\ finite (qw r) /\ 1 < b2r (qw r).
Proof. exact C83_angle_refuted_pf. Qed.
Print Assumptions C83_angle_refuted.

(** quat(u, v) is finite with components in [-1, 1] for all vectors with components up to 2^15, one of them at least 2^-15, opposite vectors included. *)
Theorem C83_between : forall (L : Libm) (u v : vec3 f32), sized 15 (l3 u) -> sized 15 (l3 v) ->
  all_finite (lq (quat_from_to (F32 L) u v)) /\ bounded_by 1 (lq (quat_from_to (F32 L) u v)).
Proof. exact C83_between_pf. Qed.
Print Assumptions C83_between.

(** encode_octahedral lands in the square [-1, 1]^2 for every vector with components up to 2^60, one of them at least 2^-60. *)
Theorem C84_encode : forall (L : Libm) (v : vec3 f32), sized 60 (l3 v) -> Forall (between (-1) 1) (l2 (encode_octahedral (F32 L) v)).
Proof. exact C84_encode_pf. Qed.
Print Assumptions C84_encode.

(** decode_octahedral yields components in [-1, 1] for every point up to 2^30 in each coordinate, inside or outside the square: the vector it normalizes is never small. *)
Theorem C84_decode : forall (L : Libm) (e : vec2 f32), all_finite (l2 e) -> bounded_by (IZR (2 ^ 30)) (l2 e) -> Forall (between (-1) 1) (l3 (decode_octahedral (F32 L) e)).
Proof. exact C84_decode_pf. Qed.
Print Assumptions C84_decode.

(** convertLinearToSRGB(c, gamma) lies in [-0.0551, 1] for every colour without NaN, infinities included, whenever pow maps [0, 1] to [0, 1] for this gamma;
    the clamp keeps the base of pow in [0, 1]. *)
Theorem C84_srgb : forall (L : Libm) (g : f32), pow_unit L g ->
  (forall c, no_nan (l3 c) -> Forall (between (- (551 / 10000)) 1) (l3 (linearToSRGB3_g (F32 L) c g))) /\
  (forall c, no_nan (l3 (rgb4 (F32 L) c)) -> Forall (between (- (551 / 10000)) 1) (l3 (rgb4 (F32 L) (linearToSRGB4_g (F32 L) c g))) /\ w4 (linearToSRGB4_g (F32 L) c g) = w4 c).
Proof. exact C84_srgb_pf. Qed.
Print Assumptions C84_srgb.

(** The exact functions meet the requirements of slerp_libm. *)
Theorem C83_exact_functions : forall x : R,
  (/ IZR (2 ^ 12) <= x <= 2 -> / IZR (2 ^ 13) <= sin x <= 1) /\ (0 <= x <= 1 - / IZR (2 ^ 23) -> / IZR (2 ^ 12) <= acos x <= 2).
Proof. exact C83_exact_functions_pf. Qed.
Print Assumptions C83_exact_functions.

(** the hypotheses about the mathematical library can be met, and the exact functions meet them *)
Example C83_libm : let one := fun _ : f32 => f32_lit 1 0 in let one2 := fun _ _ : f32 => f32_lit 1 0 in
  let L := mkLibm one one one one one one one2 one one one one one one one2 one one one one in
  slerp_libm L /\ acos_domain L /\ pow_unit L (f32_lit 1 0).
Proof.
  assert (E : forall a b, a <= 1 <= b -> between a b (f32_lit 1 0)) by (intros a b H; split; [reflexivity|now rewrite b2r_lit1]).
  assert (I : forall n, (0 < n)%Z -> / IZR (2 ^ n) <= 1).
  { intros n H. rewrite <- Rinv_1. apply Rinv_le_contravar; [lra|]. apply IZR_le. pose proof (Z.pow_pos_nonneg 2 n). lia. }
  pose proof (I 12%Z eq_refl). pose proof (I 13%Z eq_refl). split; [split; [|split]|split]; intros x _; apply E; lra.
Qed.
(** the zero matrix, opposite vectors and vectors far from unit length are covered *)
Example C83_case : forall L : Libm, all_finite (lq (quat_cast3 (F32 L) (M3 (V3 (f32_lit 0 0) (f32_lit 0 0) (f32_lit 0 0)) (V3 (f32_lit 0 0) (f32_lit 0 0) (f32_lit 0 0)) (V3 (f32_lit 0 0) (f32_lit 0 0) (f32_lit 0 0))))) /\
  all_finite (lq (quat_from_to (F32 L) (V3 (f32_lit 3 0) (f32_lit 0 0) (f32_lit 0 0)) (V3 (f32_lit (-1000) 0) (f32_lit 0 0) (f32_lit 0 0)))).
Proof.
  intros L. assert (Z0 : b2r (f32_lit 0 0) = 0) by reflexivity. split.
  - refine (proj1 (proj1 (C83_quat_cast_pf L) _ _ _)).
    + change (all_finite (repeat (f32_lit 0 0) 9)). repeat (apply Forall_cons; [reflexivity|]). apply Forall_nil.
    + change (bounded_by (IZR (2 ^ 124)) (repeat (f32_lit 0 0) 9)). repeat (apply Forall_cons; [rewrite Z0, Rabs_R0; now apply IZR_le|]). apply Forall_nil.
  - assert (B : forall x : Z, (Z.abs x <= 2 ^ 15)%Z -> (1 <= Z.abs x)%Z -> sized 15 [f32_lit x 0; f32_lit 0 0; f32_lit 0 0]).
    { intros x Hx Gx. assert (E : b2r (f32_lit x 0) = IZR x) by (apply lit_exact; apply Z.leb_le; lia).
      split; [|split].
      - apply Forall_cons; [apply OvfLib.lit_finite; apply Z.leb_le; lia|]. repeat (apply Forall_cons; [reflexivity|]). apply Forall_nil.
      - apply Forall_cons; [rewrite E, <- abs_IZR; now apply IZR_le|]. repeat (apply Forall_cons; [rewrite Z0, Rabs_R0; now apply IZR_le|]). apply Forall_nil.
      - apply Exists_cons_hd. rewrite E, <- abs_IZR. apply Rle_trans with 1; [|now apply IZR_le]. cbn. lra. }
    apply C83_between_pf; apply B; lia.
Qed.
Example C84_case : sized 60 (l3 (V3 (f32_lit 0 0) (f32_lit (-7) 0) (f32_lit (-2) 0))) /\ no_nan (l3 (V3 (B754_infinity true : f32) (f32_lit 7 0) (B754_infinity false))).
Proof.
  split; [split; [|split]|].
  - repeat (apply Forall_cons; [reflexivity|]). apply Forall_nil.
  - unfold l3, bounded_by; cbn [x3 y3 z3]. repeat (apply Forall_cons; [rewrite lit_exact by reflexivity; rewrite <- abs_IZR; now apply IZR_le|]). apply Forall_nil.
  - apply Exists_cons_tl, Exists_cons_hd. cbn [y3]. rewrite (lit_exact (-7)) by reflexivity. rewrite <- abs_IZR. cbn. lra.
  - repeat (apply Forall_cons; [reflexivity|]). apply Forall_nil.
Qed.
