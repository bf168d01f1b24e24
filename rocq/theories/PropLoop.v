(** * Properties: values updated in a loop in binary32 *)

From Coq Require Import ZArith Bool Reals List Lra Lia.
From Flocq Require Import Core IEEE754.BinarySingleNaN.
From Verif Require Import Scalar IEEE32 RealInst Types Outcome Spec SpecR SpecMat SpecGeo SpecF32 SpecErr SpecOrd SpecDom SpecAcc SpecChain SpecLoop FloatBasics FloatOps
  ModelVec ModelCommon ErrLib OvfLib F32Tac RealTac.
From Verif Require Import PfLoop.
Import ListNotations.
Local Open Scope R_scope.


(** Exponential smoothing x := mix(x, y, t), any number of times, for float, vec2, vec3 and vec4. *)
Theorem C105_smoothing : forall L : Libm,
  smoothing_ok (fun x : f32 => [x]) (mix_f (F32 L)) /\ smoothing_ok (@l2 f32) (mix2_sc (F32 L)) /\ smoothing_ok (@l3 f32) (mix3_sc (F32 L)) /\ smoothing_ok (@l4 f32) (mix4_sc (F32 L)).
Proof. exact C105_smoothing_pf. Qed.
Print Assumptions C105_smoothing.

(** Damping v := v * k with |k| <= 1, any number of times: no component grows, no overflow, and the result is k^n v up to (1+u)^n - 1
    relative and n (1+u)^n smallest subnormals. *)
Theorem C105_damping : forall L : Libm, damping_ok (@l2 f32) (vec2_mul_sc (F32 L)) /\ damping_ok (@l3 f32) (vec3_mul_sc (F32 L)) /\ damping_ok (@l4 f32) (vec4_mul_sc (F32 L)).
Proof. exact C105_damping_pf. Qed.
Print Assumptions C105_damping.

(** The loops can come to rest away from where exact arithmetic leads: smoothing with t = 1/8 from the predecessor of 1 never reaches 1;
    damping by 0.9 never takes 2^-149 to 0; a clock at 2^24 advanced by 1 stands still. *)
Theorem C105_rest_refuted : forall (L : Libm) (n : nat),
  (let x := pred_one in Nat.iter n (fun v => mix_f (F32 L) v (f32_lit 1 0) (f32_lit 125 (-3))) x = x /\ b2r x < 1) /\
  (let v := V3 smallest smallest smallest in Nat.iter n (fun v => vec3_mul_sc (F32 L) v (f32_lit 9 (-1))) v = v /\ 0 < b2r smallest) /\
  (let v := V3 two24 two24 two24 in let d := f32_lit 1 0 in Nat.iter n (fun v => vec3_add (F32 L) v (V3 d d d)) v = v).
Proof. exact C105_rest_refuted_pf. Qed.
Print Assumptions C105_rest_refuted.

(** The hypotheses are met: smoothing from (0, 1, 2) to (1, 1, 1) with t = 1/8, damping by 0.9. *)
Example C105_case : let x := V3 (f32_lit 0 0) (f32_lit 1 0) (f32_lit 2 0) in let y := V3 (f32_lit 1 0) (f32_lit 1 0) (f32_lit 1 0) in
  all_finite (l3 x) /\ all_finite (l3 y) /\ bounded_by (IZR (2 ^ 120)) (l3 x) /\ bounded_by (IZR (2 ^ 120)) (l3 y) /\ between (/ IZR (2 ^ 20)) 1 (f32_lit 125 (-3)) /\
  between (-1) 1 (f32_lit 9 (-1)).
Proof.
  intros x y. assert (E0 : b2r (f32_lit 0 0) = 0) by reflexivity. assert (E1 : b2r (f32_lit 1 0) = 1) by (vm_compute; lra). assert (E2 : b2r (f32_lit 2 0) = 2) by (vm_compute; lra).
  assert (B : 2 <= IZR (2 ^ 120)) by (apply IZR_le; now vm_compute).
  split; [repeat constructor|]. split; [repeat constructor|].
  split; [unfold x, bounded_by, l3; cbn [x3 y3 z3]; repeat constructor; rewrite ?E0, ?E1, ?E2, ?Rabs_R0, ?Rabs_pos_eq; lra|].
  split; [unfold y, bounded_by, l3; cbn [x3 y3 z3]; repeat constructor; rewrite ?E1, ?Rabs_pos_eq; lra|].
  split; (split; [reflexivity|]); [assert (Et : b2r (f32_lit 125 (-3)) = / 8) by (vm_compute; lra); rewrite Et; change (2 ^ 20)%Z with 1048576%Z; lra|].
  assert (Et : b2r (f32_lit 9 (-1)) = 15099494 / 16777216) by (vm_compute; lra). rewrite Et. lra.
Qed.
