(** * Properties: diffuse lighting in binary32 *)

From Coq Require Import ZArith Bool Reals List Lra Lia.
From Flocq Require Import Core IEEE754.BinarySingleNaN.
From Verif Require Import Scalar IEEE32 RealInst Types Outcome Spec SpecR SpecMat SpecGeo SpecF32 SpecErr SpecAcc SpecLight FloatBasics FloatOps
  ModelVec ModelCommon ModelGeom ModelQuat ModelQuaternion ErrLib LenLib RealTac VecErrLib.
From Verif Require Import PfLight.
Import ListNotations.
Local Open Scope R_scope.


(** The diffuse term clamp(dot(normalize(n), normalize(l)), 0, 1) is a number in [0, 1] within 19 half-ulps of the cosine of the angle between n and l, or of 0
    where that is negative; a face turned away by more than that is exactly dark and one turned towards the light by more than that is lit. *)
Theorem C109_diffuse : forall (L : Libm) (n l : vec3 f32), lit_range (/ IZR (2 ^ 48)) (IZR (2 ^ 62)) n -> lit_range (/ IZR (2 ^ 48)) (IZR (2 ^ 62)) l ->
  let c := diffuse L n l in let k := cosine (vals (l3 n)) (vals (l3 l)) in let w := 19 * ulp_half in
  finite c /\ 0 <= b2r c <= 1 /\ Rabs (b2r c - Rmax 0 k) <= w /\ (k < - w -> b2r c = 0) /\ (w < k -> 0 < b2r c).
Proof. exact C109_diffuse_pf. Qed.
Print Assumptions C109_diffuse.

(** Lighting does not depend on the frame: turning normal and light by the same normalized quaternion changes the result by at most 342 half-ulps. *)
Theorem C109_turned : forall (L : Libm) (q : quat f32) (n l : vec3 f32), all_finite (lq q) -> Rabs (norm (vals (lq q)) - 1) <= 9 * ulp_half ->
  lit_range (/ IZR (2 ^ 40)) (IZR (2 ^ 40)) n -> lit_range (/ IZR (2 ^ 40)) (IZR (2 ^ 40)) l ->
  let c := diffuse L (quat_mul_vec (F32 L) q n) (quat_mul_vec (F32 L) q l) in let k := cosine (vals (l3 n)) (vals (l3 l)) in
  finite c /\ 0 <= b2r c <= 1 /\ Rabs (b2r c - Rmax 0 k) <= 323 * ulp_half /\ Rabs (b2r c - b2r (diffuse L n l)) <= 342 * ulp_half.
Proof. exact C109_turned_pf. Qed.
Print Assumptions C109_turned.

(** the normal (0, 0, 2) lit from (3, 0, 4): the cosine is 4/5 *)
Example C109_case : let n := V3 (f32_ofZ 0) (f32_ofZ 0) (f32_ofZ 2) in let l := V3 (f32_ofZ 3) (f32_ofZ 0) (f32_ofZ 4) in
  lit_range (/ IZR (2 ^ 40)) (IZR (2 ^ 40)) n /\ lit_range (/ IZR (2 ^ 40)) (IZR (2 ^ 40)) l /\ cosine (vals (l3 n)) (vals (l3 l)) = 4 / 5.
Proof.
  cbv zeta. assert (H0 : b2r (f32_ofZ 0) = 0) by reflexivity. assert (H2 := ofZ_exact 2 eq_refl). assert (H3 := ofZ_exact 3 eq_refl). assert (H4 := ofZ_exact 4 eq_refl).
  assert (V : forall a b c : f32, vals (l3 (V3 a b c)) = [b2r a; b2r b; b2r c]) by reflexivity.
  assert (FF : forall a b c : f32, finite a -> finite b -> finite c -> all_finite (l3 (V3 a b c))) by (intros; repeat (apply Forall_cons; [assumption|]); apply Forall_nil).
  assert (N2 : norm [0; 0; 2] = 2) by (unfold norm, ip; cbn; transitivity (sqrt (2 * 2)); [f_equal; lra|apply sqrt_square; lra]).
  assert (N5 : norm [3; 0; 4] = 5) by (unfold norm, ip; cbn; transitivity (sqrt (5 * 5)); [f_equal; lra|apply sqrt_square; lra]).
  assert (B : 5 <= IZR (2 ^ 40)) by now apply (IZR_le 5). assert (B' : / IZR (2 ^ 40) <= 1) by (rewrite <- Rinv_1; apply Rinv_le_contravar; lra).
  unfold lit_range, cosine. rewrite !V, H0, H2, H3, H4, N2, N5. split; [split; [now apply FF|lra]|]. split; [split; [now apply FF|lra]|]. unfold ip. cbn. field.
Qed.
