(** * Properties: matrix inverses in binary32 *)

From Coq Require Import ZArith Bool Reals List Lra Lia.
From Flocq Require Import Core IEEE754.BinarySingleNaN.
From Verif Require Import Scalar IEEE32 RealInst Types Outcome Spec SpecR SpecMat SpecGeo SpecF32 SpecErr SpecInv FloatBasics FloatOps
  ModelVec ModelMat ModelMatrix ErrExpr ErrLib.
From Verif Require Import PfInv.
Import ListNotations.
Local Open Scope R_scope.


(** adjugateTranspose of mat3 and mat4: every entry is a cofactor, not transposed, with the same bounds as adjugate *)
Theorem C75_adjugate_transpose : forall L : Libm,
  cofactor_error_ok 2 2 0 lm3 (fun m => mtransp 3 (cofactors_t 3 m)) (fun m => mtransp 3 (cofactors_t_mag 3 m)) (adjugateTranspose3 (F32 L)) /\
  cofactor_error_ok 6 10 1 lm4 (fun m => mtransp 4 (cofactors_t 4 m)) (fun m => mtransp 4 (cofactors_t_mag 4 m)) (adjugateTranspose4 (F32 L)).
Proof. exact C75_adjugate_transpose_pf. Qed.
Print Assumptions C75_adjugate_transpose.

(** inverse of mat2, mat3 and mat4 against the exact inverse *)
Theorem C75_inverse : forall L : Libm,
  inverse_error_ok 2 2 2 2 0 0 0 0 (2 + / 1000000) lm2 (cofactors_t 2) (cofactors_t_mag 2) (inverse2 (F32 L)) /\
  inverse_error_ok 3 6 5 9 1 2 2 0 (2 + / 1000000) lm3 (cofactors_t 3) (cofactors_t_mag 3) (inverse3 (F32 L)) /\
  inverse_error_ok 4 24 9 44 2 6 10 1 (2 + / 1000000) lm4 (cofactors_t 4) (cofactors_t_mag 4) (inverse4 (F32 L)).
Proof. exact C75_inverse_pf. Qed.
Print Assumptions C75_inverse.

(** inverseTranspose of mat3 and mat4 against the exact transposed inverse *)
Theorem C75_inverse_transpose : forall L : Libm,
  inverse_error_ok 3 6 5 9 1 2 2 0 1 lm3 (fun m => mtransp 3 (cofactors_t 3 m)) (fun m => mtransp 3 (cofactors_t_mag 3 m)) (inverseTranspose3 (F32 L)) /\
  inverse_error_ok 4 24 9 40 2 6 10 1 1 lm4 (fun m => mtransp 4 (cofactors_t 4 m)) (fun m => mtransp 4 (cofactors_t_mag 4 m)) (inverseTranspose4 (F32 L)).
Proof. exact C75_inverse_transpose_pf. Qed.
Print Assumptions C75_inverse_transpose.

(** a matrix with determinant 1 meets the hypotheses *)
Definition inv_case : mat3 f32 := M3 (V3 (f32_ofZ 2) (f32_ofZ 1) (f32_ofZ 0)) (V3 (f32_ofZ 1) (f32_ofZ 1) (f32_ofZ 0)) (V3 (f32_ofZ 3) (f32_ofZ 0) (f32_ofZ 1)).
Example C75_case : let D := leibniz 3 (vals (lm3 inv_case)) in
  all_finite (lm3 inv_case) /\ bounded_by 3 (lm3 inv_case) /\ 6 * 3 ^ 3 < IZR (2 ^ 127) /\ D = 1 /\
  gam 5 * permanent 3 (mags (lm3 inv_case)) + 9 * 3 ^ 1 * tiny < Rabs D <= IZR (2 ^ 125) /\
  all_finite (lm3 (inverse3 (F32 L0) inv_case)).
Proof.
  cbv zeta.
  assert (V : vals (lm3 inv_case) = [2; 1; 0; 1; 1; 0; 3; 0; 1]).
  { change (vals (lm3 inv_case)) with (map (fun z => b2r (f32_ofZ z)) [2; 1; 0; 1; 1; 0; 3; 0; 1]%Z). cbn [map]. rewrite !ofZ_exact by reflexivity. reflexivity. }
  assert (W : mags (lm3 inv_case) = [2; 1; 0; 1; 1; 0; 3; 0; 1]).
  { change (mags (lm3 inv_case)) with (map Rabs (vals (lm3 inv_case))). rewrite V. cbn [map]. rewrite !Rabs_pos_eq by lra. reflexivity. }
  assert (D : leibniz 3 [2; 1; 0; 1; 1; 0; 3; 0; 1] = 1) by (cbv -[Rplus Rmult Ropp IZR]; lra).
  assert (P : permanent 3 [2; 1; 0; 1; 1; 0; 3; 0; 1] = 3) by (cbv -[Rplus Rmult Ropp IZR]; lra).
  split; [repeat apply Forall_cons; try apply Forall_nil; vm_compute; reflexivity|].
  split; [change (lm3 inv_case) with (map f32_ofZ [2; 1; 0; 1; 1; 0; 3; 0; 1]%Z); cbn [map]; repeat apply Forall_cons; try apply Forall_nil; rewrite ofZ_exact by reflexivity; rewrite Rabs_pos_eq; lra|].
  split; [replace (6 * 3 ^ 3) with 162 by (cbn; lra); now apply (IZR_lt 162)|].
  split; [now rewrite V|].
  split; [rewrite V, W, D, P; split; [|rewrite Rabs_R1; now apply (IZR_le 1)]|].
  - assert (T : tiny <= / 1000000) by (apply Rinv_le_contravar; [lra|now apply IZR_le]).
    assert (G : gam 5 <= / 100). { unfold gam. change ulp_half with (/ 16777216). cbn [INR]. lra. }
    rewrite Rabs_R1. cbn [pow]. lra.
  - repeat apply Forall_cons; try apply Forall_nil; vm_compute; reflexivity.
Qed.
