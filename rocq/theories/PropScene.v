(** * Properties: points carried through a chain of poses in binary32 *)

From Coq Require Import ZArith Bool Reals List Lra Lia.
From Flocq Require Import Core IEEE754.BinarySingleNaN.
From Verif Require Import Scalar IEEE32 RealInst Types Outcome Spec SpecR SpecMat SpecGeo SpecF32 SpecErr SpecAcc SpecCamera SpecPlace SpecScene FloatBasics FloatOps
  ModelVec ModelMat ModelQuat ModelQuaternion ModelTransform ErrLib LenLib RealTac VecErrLib.
From Verif Require Import PfScene.
Import ListNotations.
Local Open Scope R_scope.


(** A point carried up a chain of any number n of nodes, each a normalized rotation followed by a translation, is within
    ((1+186u)^n - 1) S + 16 n (1+186u)^n 2^-149 of the exactly carried point, where S is the length of the point plus that of all the translations;
    nothing overflows as long as (1+186u)^n (S + 16 n 2^-149) <= 2^61. *)
Theorem C107_carry : forall (L : Libm) (ns : list node) (v : vec3 f32), Forall good_node ns -> all_finite (l3 v) -> in_reach ns (vals (l3 v)) ->
  all_finite (l3 (carry L ns v)) /\ norm (vsub (vals (l3 (carry L ns v))) (exact_carry ns (vals (l3 v)))) <= carry_error ns (vals (l3 v)).
Proof. exact C107_carry_pf. Qed.
Print Assumptions C107_carry.

(** Up to 45000 levels the error grows at most linearly with the depth. *)
Theorem C107_linear : forall (L : Libm) (ns : list node) (v : vec3 f32), (length ns <= 450 * 100)%nat -> Forall good_node ns -> all_finite (l3 v) -> reach ns (vals (l3 v)) <= IZR (2 ^ 59) ->
  all_finite (l3 (carry L ns v)) /\
  norm (vsub (vals (l3 (carry L ns v))) (exact_carry ns (vals (l3 v)))) <= INR (length ns) * (372 * ulp_half * reach ns (vals (l3 v)) + 32 * tiny).
Proof. exact C107_linear_pf. Qed.
Print Assumptions C107_linear.

(** Bodies stay rigid: two points carried through the same chain are as far apart as before, up to the sum of their errors. *)
Theorem C107_rigid : forall (L : Libm) (ns : list node) (v w : vec3 f32), Forall good_node ns -> all_finite (l3 v) -> all_finite (l3 w) -> in_reach ns (vals (l3 v)) -> in_reach ns (vals (l3 w)) ->
  Rabs (norm (vsub (vals (l3 (carry L ns v))) (vals (l3 (carry L ns w)))) - norm (vsub (vals (l3 v)) (vals (l3 w)))) <= carry_error ns (vals (l3 v)) + carry_error ns (vals (l3 w)).
Proof. exact C107_rigid_pf. Qed.
Print Assumptions C107_rigid.

(** two levels, each turning by (1/2, 1/2, 1/2, 1/2) and moving by (10, 20, 30): (1, 2, 3) goes to (13, 21, 32) and then to (42, 33, 51) *)
Example C107_case : let h := Bdiv mode_NE (f32_ofZ 1) (f32_ofZ 2) in let q := Quat h h h h in
  let n : node := (V3 (f32_ofZ 10) (f32_ofZ 20) (f32_ofZ 30), q) in let v := V3 (f32_ofZ 1) (f32_ofZ 2) (f32_ofZ 3) in
  Forall good_node [n; n] /\ all_finite (l3 v) /\ reach [n; n] (vals (l3 v)) <= IZR (2 ^ 59) /\
  forall L, map (@B2SF 24 128) (l3 (carry L [n; n] v)) = map (@B2SF 24 128) [f32_ofZ 42; f32_ofZ 33; f32_ofZ 51].
Proof.
  cbv zeta. split; [|split; [|split; [|intros L; vm_compute; reflexivity]]].
  - assert (G : good_node (V3 (f32_ofZ 10) (f32_ofZ 20) (f32_ofZ 30), Quat (Bdiv mode_NE (f32_ofZ 1) (f32_ofZ 2)) (Bdiv mode_NE (f32_ofZ 1) (f32_ofZ 2)) (Bdiv mode_NE (f32_ofZ 1) (f32_ofZ 2)) (Bdiv mode_NE (f32_ofZ 1) (f32_ofZ 2)))).
    { split; [|split]; try (repeat apply Forall_cons; try apply Forall_nil; vm_compute; reflexivity).
      assert (E1 : b2r (Bdiv mode_NE (f32_ofZ 1) (f32_ofZ 2)) = 1 / 2) by (vm_compute; lra).
      unfold vals, lq. cbn [snd map qx qy qz qw]. rewrite E1.
      assert (N := norm_nn [1 / 2; 1 / 2; 1 / 2; 1 / 2]). assert (S := norm_sq [1 / 2; 1 / 2; 1 / 2; 1 / 2]).
      set (n := norm _) in *. unfold ip in S. cbn in S. rewrite uval. apply Rabs_le. split; nra. }
    repeat apply Forall_cons; try apply Forall_nil; exact G.
  - repeat apply Forall_cons; try apply Forall_nil; vm_compute; reflexivity.
  - unfold reach, offset. cbn [map fold_right fst]. unfold vals, l3. cbn [map x3 y3 z3]. rewrite !ofZ_exact by reflexivity.
    assert (N1 : norm [10; 20; 30] <= 60) by (apply sq_le_norm; [lra|unfold ip; cbn; lra]). assert (N2 : norm [1; 2; 3] <= 6) by (apply sq_le_norm; [lra|unfold ip; cbn; lra]).
    apply Rle_trans with 126; [lra|]. apply IZR_le. discriminate.
Qed.
