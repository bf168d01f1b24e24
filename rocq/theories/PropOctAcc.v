(** * Properties: accuracy of the octahedral encoding *)

From Coq Require Import ZArith Bool Reals List Lra Lia.
From Flocq Require Import Core IEEE754.BinarySingleNaN.
From Verif Require Import Scalar IEEE32 RealInst Types Outcome Spec SpecR SpecMat SpecGeo SpecF32 SpecErr SpecOrd SpecDom SpecAcc SpecProj SpecOct FloatBasics FloatOps
  ModelVec ModelCommon ModelExp ModelGeom ModelConst F32Tac RealTac.
From Verif Require Import PfOctAcc.
Import ListNotations.
Local Open Scope R_scope.


(** encode_octahedral in binary32 is within 5.1 half-ulps of the exact point, on both hemispheres. On the lower one the
    coordinates x and y must not be so small that their projection underflows. *)
Theorem C90_encode : forall (L : Libm) (v : vec3 f32), sized 60 (l3 v) -> (0 < b2r (z3 v) \/ zero_or_above 60 (x3 v) /\ zero_or_above 60 (y3 v)) ->
  all_close (51/10 * ulp_half) (l2 (encode_octahedral (F32 L) v)) (octahedral (vals (l3 v))).
Proof. exact C90_encode_pf. Qed.
Print Assumptions C90_encode.

(** decode_octahedral in binary32 is within 15 half-ulps of the exact direction, on the closed diamond |x| + |y| <= 1 of the upper hemisphere. *)
Theorem C90_decode : forall (L : Libm) (e : vec2 f32), all_finite (l2 e) -> let x := b2r (x2 e) in let y := b2r (y2 e) in Rabs x + Rabs y <= 1 ->
  all_close (15 * ulp_half) (l3 (decode_octahedral (F32 L) e)) (unit_of [x; y; 1 - Rabs x - Rabs y]).
Proof. exact C90_decode_pf. Qed.
Print Assumptions C90_decode.

(** On the upper hemisphere, except within 5 half-ulps of the equator, decoding the encoded direction gives it back to 35 half-ulps. *)
Theorem C90_roundtrip : forall (L : Libm) (v : vec3 f32), sized 60 (l3 v) -> 5 * ulp_half * taxicab (vals (l3 v)) <= b2r (z3 v) ->
  all_close (35 * ulp_half) (l3 (decode_octahedral (F32 L) (encode_octahedral (F32 L) v))) (unit_of (vals (l3 v))).
Proof. exact C90_roundtrip_pf. Qed.
Print Assumptions C90_roundtrip.

(** Closer to the equator it need not: (-2, 1, 2^-24), in the upper hemisphere, decodes to a direction with x and y of the opposite signs,
    because 1 - |x| - |y| rounds to a negative number. *)
Theorem C90_equator_refuted : forall L : Libm, exists v : vec3 f32, sized 60 (l3 v) /\ 0 < b2r (z3 v) /\
  let d := decode_octahedral (F32 L) (encode_octahedral (F32 L) v) in all_finite (l3 d) /\ b2r (x3 v) < 0 < b2r (x3 d) /\ b2r (y3 d) < 0 < b2r (y3 v).
Proof. exact C90_equator_refuted_pf. Qed.
Print Assumptions C90_equator_refuted.

(** the hypotheses are met by (2, -1, 3) and, for the encoding on the lower hemisphere, by (0, -7, -2) *)
Example C90_case : sized 60 (l3 (V3 (f32_lit 2 0) (f32_lit (-1) 0) (f32_lit 3 0))) /\
  5 * ulp_half * taxicab (vals (l3 (V3 (f32_lit 2 0) (f32_lit (-1) 0) (f32_lit 3 0)))) <= b2r (z3 (V3 (f32_lit 2 0) (f32_lit (-1) 0) (f32_lit 3 0))) /\
  sized 60 (l3 (V3 (f32_lit 0 0) (f32_lit (-7) 0) (f32_lit (-2) 0))) /\ zero_or_above 60 (f32_lit 0 0) /\ zero_or_above 60 (f32_lit (-7) 0).
Proof.
  assert (A : b2r (f32_lit 2 0) = 2) by (unfold f32_lit; vm_compute; lra). assert (B : b2r (f32_lit (-1) 0) = -1) by (unfold f32_lit; vm_compute; lra).
  assert (C : b2r (f32_lit 3 0) = 3) by (unfold f32_lit; vm_compute; lra). assert (D : b2r (f32_lit 0 0) = 0) by reflexivity.
  assert (E : b2r (f32_lit (-7) 0) = -7) by (unfold f32_lit; vm_compute; lra). assert (F : b2r (f32_lit (-2) 0) = -2) by (unfold f32_lit; vm_compute; lra).
  assert (M : 7 <= IZR (2 ^ 60)) by (now apply (IZR_le 7)). assert (I : / IZR (2 ^ 60) <= 1) by (rewrite <- Rinv_1; apply Rinv_le_contravar; lra).
  assert (G : forall r, -7 <= r <= 7 -> Rabs r <= IZR (2 ^ 60)) by (intros r Hr; apply Rabs_le; lra).
  unfold l3. cbn [x3 y3 z3]. split; [|split; [|split; [|split]]].
  - split; [repeat (apply Forall_cons; [reflexivity|]); apply Forall_nil|]. split; [repeat (apply Forall_cons; [apply G; lra|]); apply Forall_nil|]. apply Exists_cons_hd. rewrite A, Rabs_pos_eq; lra.
  - unfold taxicab, vals. cbn [map fold_right]. rewrite A, B, C. rewrite (Rabs_pos_eq 2), (Rabs_left (-1)), (Rabs_pos_eq 3) by lra. unfold ulp_half. change (2 ^ 24)%Z with 16777216%Z. lra.
  - split; [repeat (apply Forall_cons; [reflexivity|]); apply Forall_nil|]. split; [repeat (apply Forall_cons; [apply G; lra|]); apply Forall_nil|]. apply Exists_cons_tl, Exists_cons_hd. rewrite E, Rabs_left; lra.
  - left. exact D.
  - right. rewrite E, Rabs_left; lra.
Qed.
