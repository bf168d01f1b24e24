(** * Proofs: entrywise matrix and quaternion operators in every number system *)
From Coq Require Import ZArith Bool Reals List Lra Lia.
From Flocq Require Import Core IEEE754.BinarySingleNaN.
From Verif Require Import Scalar IEEE32 F32Tac RealInst Outcome Types Spec SpecMat ModelVec ModelMat ModelQuat.
Import ListNotations.
(*HEADER END*)
From Verif Require Import PfMat.

(** C70, mat2: every entry of the result is the scalar operation on the entries, bit for bit. *)
Lemma C70_mat2_entries_pf : forall S : Scalar,
  (forall a b, lm2 (mat2_add S a b) = zip sadd (lm2 a) (lm2 b)) /\
  (forall a b, lm2 (mat2_sub S a b) = zip ssub (lm2 a) (lm2 b)) /\
  (forall a, lm2 (mat2_neg S a) = map sneg (lm2 a)) /\
  (forall a, lm2 (mat2_pos S a) = lm2 a) /\
  (forall a s, lm2 (mat2_mul_sc S a s) = map (fun x => smul x s) (lm2 a)) /\
  (forall a s, lm2 (sc_mul_mat2 S s a) = map (fun x => smul s x) (lm2 a)) /\
  (forall a s, lm2 (mat2_div_sc S a s) = map (fun x => sdiv x s) (lm2 a)) /\
  (forall a s, lm2 (sc_div_mat2 S s a) = map (fun x => sdiv s x) (lm2 a)).
Proof.
  intros S. repeat (split; [intros; reflexivity|]). intros; reflexivity.
Qed.
(** C70, mat3: every entry of the result is the scalar operation on the entries, bit for bit. *)
Lemma C70_mat3_entries_pf : forall S : Scalar,
  (forall a b, lm3 (mat3_add S a b) = zip sadd (lm3 a) (lm3 b)) /\
  (forall a b, lm3 (mat3_sub S a b) = zip ssub (lm3 a) (lm3 b)) /\
  (forall a, lm3 (mat3_neg S a) = map sneg (lm3 a)) /\
  (forall a, lm3 (mat3_pos S a) = lm3 a) /\
  (forall a s, lm3 (mat3_mul_sc S a s) = map (fun x => smul x s) (lm3 a)) /\
  (forall a s, lm3 (sc_mul_mat3 S s a) = map (fun x => smul s x) (lm3 a)) /\
  (forall a s, lm3 (mat3_div_sc S a s) = map (fun x => sdiv x s) (lm3 a)) /\
  (forall a s, lm3 (sc_div_mat3 S s a) = map (fun x => sdiv s x) (lm3 a)).
Proof.
  intros S. repeat (split; [intros; reflexivity|]). intros; reflexivity.
Qed.
(** C70, mat4: every entry of the result is the scalar operation on the entries, bit for bit. *)
Lemma C70_mat4_entries_pf : forall S : Scalar,
  (forall a b, lm4 (mat4_add S a b) = zip sadd (lm4 a) (lm4 b)) /\
  (forall a b, lm4 (mat4_sub S a b) = zip ssub (lm4 a) (lm4 b)) /\
  (forall a, lm4 (mat4_neg S a) = map sneg (lm4 a)) /\
  (forall a, lm4 (mat4_pos S a) = lm4 a) /\
  (forall a s, lm4 (mat4_mul_sc S a s) = map (fun x => smul x s) (lm4 a)) /\
  (forall a s, lm4 (sc_mul_mat4 S s a) = map (fun x => smul s x) (lm4 a)) /\
  (forall a s, lm4 (mat4_div_sc S a s) = map (fun x => sdiv x s) (lm4 a)) /\
  (forall a s, lm4 (sc_div_mat4 S s a) = map (fun x => sdiv s x) (lm4 a)).
Proof.
  intros S. repeat (split; [intros; reflexivity|]). intros; reflexivity.
Qed.
(** C70, quat: the same. *)
Lemma C70_quat_entries_pf : forall S : Scalar,
  (forall a b, lq (quat_add S a b) = zip sadd (lq a) (lq b)) /\
  (forall a b, lq (quat_sub S a b) = zip ssub (lq a) (lq b)) /\
  (forall a, lq (quat_neg S a) = map sneg (lq a)) /\
  (forall a, lq (quat_pos S a) = lq a) /\
  (forall a s, lq (quat_mul_sc S a s) = map (fun x => smul x s) (lq a)) /\
  (forall a s, lq (sc_mul_quat S s a) = map (fun x => smul x s) (lq a)) /\
  (forall a s, lq (quat_div_sc S a s) = map (fun x => sdiv x s) (lq a)) /\
  (forall a s, lq (sc_div_quat S s a) = map (fun x => sdiv s x) (lq a)).
Proof.
  intros S. repeat (split; [intros; reflexivity|]). intros; reflexivity.
Qed.
(** C70: the in-place matrix operators: [m += n] and [m -= n] entry by entry whatever the operand is,
    the object itself included; [m *= n] and [m *= m] in exact arithmetic are the matrix product. *)
Lemma C70_mat_assign_pf :
  (forall (S : Scalar) rd (a : mat2 S), lm2 (mat2_add_assign S rd a) = zip sadd (lm2 a) (lm2 (rd a)) /\
     lm2 (mat2_sub_assign S rd a) = zip ssub (lm2 a) (lm2 (rd a))) /\
  (forall (S : Scalar) rd (a : mat3 S), lm3 (mat3_add_assign S rd a) = zip sadd (lm3 a) (lm3 (rd a)) /\
     lm3 (mat3_sub_assign S rd a) = zip ssub (lm3 a) (lm3 (rd a))) /\
  (forall (S : Scalar) rd (a : mat4 S), lm4 (mat4_add_assign S rd a) = zip sadd (lm4 a) (lm4 (rd a)) /\
     lm4 (mat4_sub_assign S rd a) = zip ssub (lm4 a) (lm4 (rd a))) /\
  (forall a b, lm2 (mat2_mul_assign RS (fun _ => b) a) = mprod 2 (lm2 a) (lm2 b) /\
     lm2 (mat2_mul_assign RS (fun m => m) a) = mprod 2 (lm2 a) (lm2 a)) /\
  (forall a b, lm3 (mat3_mul_assign RS (fun _ => b) a) = mprod 3 (lm3 a) (lm3 b) /\
     lm3 (mat3_mul_assign RS (fun m => m) a) = mprod 3 (lm3 a) (lm3 a)) /\
  (forall a b, lm4 (mat4_mul_assign RS (fun _ => b) a) = mprod 4 (lm4 a) (lm4 b) /\
     lm4 (mat4_mul_assign RS (fun m => m) a) = mprod 4 (lm4 a) (lm4 a)).
Proof.
  destruct C40_ring_pf as [R2 [R3 R4]].
  split; [|split; [|split; [|split; [|split]]]]; try (intros; split; reflexivity); intros a b; split.
  - apply R2.
  - apply R2.
  - apply R3.
  - apply R3.
  - apply R4.
  - apply R4.
Qed.
(*PROPS
(** [m -= m] on a matrix of ones and twos gives the zero matrix, every entry read before it is written. *)
Example C70_self_alias : let m := M2 (V2 (f32_ofZ 1) (f32_ofZ 2)) (V2 (f32_ofZ 2) (f32_ofZ 1)) in
  mat2_sub_assign (F32 L0) (fun s => s) m = M2 (V2 (f32_ofZ 0) (f32_ofZ 0)) (V2 (f32_ofZ 0) (f32_ofZ 0)) /\
  mat2_mul_assign (F32 L0) (fun s => s) m = M2 (V2 (f32_ofZ 5) (f32_ofZ 4)) (V2 (f32_ofZ 4) (f32_ofZ 5)).
Proof. split; f32_eq. Qed.
PROPS*)
