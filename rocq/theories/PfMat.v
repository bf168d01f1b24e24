(** * Proofs: matrices *)
From Coq Require Import ZArith Bool Reals List Lra Lia.
From Flocq Require Import Core IEEE754.BinarySingleNaN.
From Verif Require Import Scalar IEEE32 F32Tac RealInst FloatBasics FloatAlg Outcome Types Spec SpecF32 SpecR SpecMat RealTac
  ModelVec ModelMat ModelMatrix.
Import ListNotations.
Local Open Scope R_scope.
(*HEADER END*)

From Verif Require Import MatTac.

Lemma ring2 : matrix_ring_ok 2 lm2 l2 (mat2_add RS) (mat2_sub RS) (mat2_mul RS) (mat2_neg RS)
  (mat2_f RS 0) (mat2_default RS) (mat2_mul_vec RS) (vec_mul_mat2 RS).
Proof.
  unfold matrix_ring_ok. ands; intros; vdestruct;
    try (ms; repeat (apply Forall_cons; [reflexivity|]); apply Forall_nil); ents.
Qed.
Lemma scalar2 : matrix_scalar_ok 2 lm2 (mat2_mul RS) (mat2_mul_sc RS) (fun m s => sc_mul_mat2 RS s m) (mat2_div_sc RS).
Proof. unfold matrix_scalar_ok. ands; intros; vdestruct; ents. Qed.
Lemma transp2 : transpose_ok 2 lm2 (mat2_mul RS) (mat2_mul_vec RS) (vec_mul_mat2 RS) (transpose2 RS).
Proof. unfold transpose_ok. ands; intros; vdestruct; ents. Qed.
Lemma ring3 : matrix_ring_ok 3 lm3 l3 (mat3_add RS) (mat3_sub RS) (mat3_mul RS) (mat3_neg RS)
  (mat3_f RS 0) (mat3_default RS) (mat3_mul_vec RS) (vec_mul_mat3 RS).
Proof.
  unfold matrix_ring_ok. ands; intros; vdestruct;
    try (ms; repeat (apply Forall_cons; [reflexivity|]); apply Forall_nil); ents.
Qed.
Lemma scalar3 : matrix_scalar_ok 3 lm3 (mat3_mul RS) (mat3_mul_sc RS) (fun m s => sc_mul_mat3 RS s m) (mat3_div_sc RS).
Proof. unfold matrix_scalar_ok. ands; intros; vdestruct; ents. Qed.
Lemma transp3 : transpose_ok 3 lm3 (mat3_mul RS) (mat3_mul_vec RS) (vec_mul_mat3 RS) (transpose3 RS).
Proof. unfold transpose_ok. ands; intros; vdestruct; ents. Qed.
Lemma ring4 : matrix_ring_ok 4 lm4 l4 (mat4_add RS) (mat4_sub RS) (mat4_mul RS) (mat4_neg RS)
  (mat4_f RS 0) (mat4_default RS) (mat4_mul_vec RS) (vec_mul_mat4 RS).
Proof.
  unfold matrix_ring_ok. ands; intros; vdestruct;
    try (ms; repeat (apply Forall_cons; [reflexivity|]); apply Forall_nil); ents.
Qed.
Lemma scalar4 : matrix_scalar_ok 4 lm4 (mat4_mul RS) (mat4_mul_sc RS) (fun m s => sc_mul_mat4 RS s m) (mat4_div_sc RS).
Proof. unfold matrix_scalar_ok. ands; intros; vdestruct; ents. Qed.
Lemma transp4 : transpose_ok 4 lm4 (mat4_mul RS) (mat4_mul_vec RS) (vec_mul_mat4 RS) (transpose4 RS).
Proof. unfold transpose_ok. ands; intros; vdestruct; ents. Qed.
Lemma det2_leibniz m : determinant2 RS m = leibniz 2 (lm2 m).
Proof. vdestruct. ms. ring. Qed.
Lemma det2_mul a b : determinant2 RS (mat2_mul RS a b) = determinant2 RS a * determinant2 RS b.
Proof. vdestruct. ms. ring. Qed.
Lemma det2 : determinant_ok 2 lm2 (mat2_mul RS) (transpose2 RS) (mat2_default RS) (mat2_mul_sc RS) (determinant2 RS).
Proof.
  unfold determinant_ok. split; [apply det2_leibniz|]. split; [apply det2_mul|]. ands.
  - intros. vdestruct. ms. ring.
  - ms. ring.
  - intros. vdestruct. ms. ring.
  - intros a i j Hij E. vdestruct. idx i 2; idx j 2; try lia; ms_in E; inj E; ms; ring.
  - intros a b i j Hij E. vdestruct. idx i 2; idx j 2; try lia; ms_in E; inj E; ms; ring.
  - intros a b c j s Hj E b' E'. vdestruct. idx j 2; try lia; ms_in E; ms_in E'; inj E; inj E'; ms; ring.
Qed.
Lemma det3_leibniz m : determinant3 RS m = leibniz 3 (lm3 m).
Proof. vdestruct. ms. ring. Qed.
Lemma det3_mul a b : determinant3 RS (mat3_mul RS a b) = determinant3 RS a * determinant3 RS b.
Proof. vdestruct. ms. ring. Qed.
Lemma det3 : determinant_ok 3 lm3 (mat3_mul RS) (transpose3 RS) (mat3_default RS) (mat3_mul_sc RS) (determinant3 RS).
Proof.
  unfold determinant_ok. split; [apply det3_leibniz|]. split; [apply det3_mul|]. ands.
  - intros. vdestruct. ms. ring.
  - ms. ring.
  - intros. vdestruct. ms. ring.
  - intros a i j Hij E. vdestruct. idx i 3; idx j 3; try lia; ms_in E; inj E; ms; ring.
  - intros a b i j Hij E. vdestruct. idx i 3; idx j 3; try lia; ms_in E; inj E; ms; ring.
  - intros a b c j s Hj E b' E'. vdestruct. idx j 3; try lia; ms_in E; ms_in E'; inj E; inj E'; ms; ring.
Qed.
Lemma det4_leibniz m : determinant4 RS m = leibniz 4 (lm4 m).
Proof. vdestruct. ms. ring. Qed.
Lemma det4_mul a b : determinant4 RS (mat4_mul RS a b) = determinant4 RS a * determinant4 RS b.
Proof. vdestruct. ms. ring. Qed.
Lemma det4 : determinant_ok 4 lm4 (mat4_mul RS) (transpose4 RS) (mat4_default RS) (mat4_mul_sc RS) (determinant4 RS).
Proof.
  unfold determinant_ok. split; [apply det4_leibniz|]. split; [apply det4_mul|]. ands.
  - intros. vdestruct. ms. ring.
  - ms. ring.
  - intros. vdestruct. ms. ring.
  - intros a i j Hij E. vdestruct. idx i 4; idx j 4; try lia; ms_in E; inj E; ms; ring.
  - intros a b i j Hij E. vdestruct. idx i 4; idx j 4; try lia; ms_in E; inj E; ms; ring.
  - intros a b c j s Hj E b' E'. vdestruct. idx j 4; try lia; ms_in E; ms_in E'; inj E; inj E'; ms; ring.
Qed.

(** ** Inverses, abstractly *)
Section Inverse.
Context {M V : Type} (n : nat) (comps : M -> list R) (mul : M -> M -> M) (tr : M -> M) (one : M) (inv : M -> M) (det : M -> R).
Context (mulv : M -> V -> V) (vmul : V -> M -> V).
Hypothesis assoc : forall a b c, mul (mul a b) c = mul a (mul b c).
Hypothesis unit_r : forall a, mul a one = a.
Hypothesis unit_l : forall a, mul one a = a.
Hypothesis det_mul : forall a b, det (mul a b) = det a * det b.
Hypothesis det_one : det one = 1.
Hypothesis det_leibniz : forall a, det a = leibniz n (comps a).
Hypothesis det_tr : forall a, det (tr a) = det a.
Hypothesis tr_mul : forall a b, tr (mul a b) = mul (tr b) (tr a).
Hypothesis tr_one : tr one = one.
Hypothesis inv_r : forall a, det a <> 0 -> mul a (inv a) = one.
Hypothesis inv_l : forall a, det a <> 0 -> mul (inv a) a = one.

Lemma right_inverse_unique a b : mul a b = one -> det a <> 0 /\ inv a = b.
Proof.
  intros E. assert (N : det a <> 0).
  { intros Z. assert (D : det (mul a b) = 1) by now rewrite E. rewrite det_mul, Z in D. lra. }
  split; [exact N|]. transitivity (mul (inv a) (mul a b)); [now rewrite E, unit_r|].
  now rewrite <- assoc, inv_l, unit_l.
Qed.
Lemma inverse_generic : inverse_ok n comps mul tr one inv.
Proof.
  unfold inverse_ok. ands.
  - intros a. rewrite <- det_leibniz. intros N. split; [now apply inv_r|now apply inv_l].
  - intros a. rewrite <- !det_leibniz. intros N. apply right_inverse_unique. now apply inv_l.
  - intros a b. rewrite <- !det_leibniz. intros Na Nb. apply right_inverse_unique.
    rewrite assoc, <- (assoc b). now rewrite inv_r, unit_l, inv_r.
  - intros a. rewrite <- det_leibniz. intros N. apply right_inverse_unique.
    now rewrite <- tr_mul, inv_l, tr_one.
  - intros a b E. rewrite <- det_leibniz. now apply right_inverse_unique.
  - apply right_inverse_unique, unit_r.
Qed.
Hypothesis act : forall a b v, mulv (mul a b) v = mulv a (mulv b v).
Hypothesis act_l : forall a b v, vmul v (mul a b) = vmul (vmul v a) b.
Hypothesis act_one : forall v, mulv one v = v.
Hypothesis act_l_one : forall v, vmul v one = v.
Lemma division_generic div divv vdiv :
  (forall a b, div a b = mul a (inv b)) -> (forall a v, divv a v = mulv (inv a) v) -> (forall a v, vdiv v a = vmul v (inv a)) ->
  matrix_division_ok n comps mul mulv vmul div divv vdiv.
Proof.
  intros D1 D2 D3 b. rewrite <- det_leibniz. intros N. pose proof (inv_r b N) as HR. pose proof (inv_l b N) as HL.
  ands; intros; split; rewrite ?D1, ?D2, ?D3, ?assoc, <- ?act, <- ?act_l, ?HR, ?HL; auto.
Qed.
End Inverse.

Lemma bdiv_zero_inf (x : f32) : iszero x = true -> exists s, bdiv (f32_lit 1 0) x = B754_infinity s.
Proof. destruct x as [s|s| |s m e H]; try discriminate. intros _. exists s. destruct s; vm_compute; reflexivity. Qed.
Lemma bmul_inf (x : f32) s : is_finite (bmul x (B754_infinity s)) = false.
Proof. now destruct x. Qed.

Lemma adj2 : adjugate_ok 2 lm2 (mat2_mul RS) (mat2_default RS) (mat2_mul_sc RS) (adjugate2 RS).
Proof. intros a. rewrite <- det2_leibniz. vdestruct. split; ents. Qed.
Lemma inv2_adj m : inverse2 RS m = mat2_mul_sc RS (adjugate2 RS m) (/ determinant2 RS m).
Proof.
  vdestruct. ms. parts;
    match goal with |- _ * (1 / ?d) = _ * / ?d' => replace d with d' by ring; unfold Rdiv; generalize (/ d'); intros; ring end.
Qed.

Lemma adj3 : adjugate_ok 3 lm3 (mat3_mul RS) (mat3_default RS) (mat3_mul_sc RS) (adjugate3 RS).
Proof. intros a. rewrite <- det3_leibniz. vdestruct. split; ents. Qed.
Lemma inv3_adj m : inverse3 RS m = mat3_mul_sc RS (adjugate3 RS m) (/ determinant3 RS m).
Proof.
  vdestruct. ms. parts;
    match goal with |- _ * (1 / ?d) = _ * / ?d' => replace d with d' by ring; unfold Rdiv; generalize (/ d'); intros; ring end.
Qed.

Lemma adj4 : adjugate_ok 4 lm4 (mat4_mul RS) (mat4_default RS) (mat4_mul_sc RS) (adjugate4 RS).
Proof. intros a. rewrite <- det4_leibniz. vdestruct. split; ents. Qed.
Lemma inv4_adj m : inverse4 RS m = mat4_mul_sc RS (adjugate4 RS m) (/ determinant4 RS m).
Proof.
  vdestruct. ms. parts;
    match goal with |- _ * (1 / ?d) = _ * / ?d' => replace d with d' by ring; unfold Rdiv; generalize (/ d'); intros; ring end.
Qed.

Lemma inv2_r a : determinant2 RS a <> 0 -> mat2_mul RS a (inverse2 RS a) = mat2_default RS.
Proof.
  intros N. rewrite inv2_adj. destruct scalar2 as (_ & _ & _ & _ & E). rewrite E, (proj2 (adj2 a)), <- det2_leibniz.
  revert N. generalize (determinant2 RS a). intros d N. ms. parts; field; exact N.
Qed.
Lemma inv2_l a : determinant2 RS a <> 0 -> mat2_mul RS (inverse2 RS a) a = mat2_default RS.
Proof.
  intros N. rewrite inv2_adj. destruct scalar2 as (_ & _ & _ & E & _). rewrite E, (proj1 (adj2 a)), <- det2_leibniz.
  revert N. generalize (determinant2 RS a). intros d N. ms. parts; field; exact N.
Qed.
Lemma inverse2_ok : inverse_ok 2 lm2 (mat2_mul RS) (transpose2 RS) (mat2_default RS) (inverse2 RS).
Proof.
  destruct ring2 as (_&_&_&_&_&_&_&_&As&_&_&Ur&Ul&_). destruct det2 as (DL&DM&DT&DO&_). destruct transp2 as (_&TM&_).
  apply inverse_generic with (det := determinant2 RS); auto using inv2_r, inv2_l.
Qed.
Lemma division2_ok : matrix_division_ok 2 lm2 (mat2_mul RS) (mat2_mul_vec RS) (vec_mul_mat2 RS)
  (mat2_div RS) (mat2_div_vec RS) (vec_div_mat2 RS).
Proof.
  destruct ring2 as (_&_&_&_&_&_&_&_&As&_&_&Ur&Ul&_&_&_&Av&Al&Ov&Ol). destruct det2 as (DL&DM&DT&DO&_).
  apply division_generic with (det := determinant2 RS) (one := mat2_default RS) (inv := inverse2 RS);
    auto using inv2_r, inv2_l.
Qed.

Lemma inv3_r a : determinant3 RS a <> 0 -> mat3_mul RS a (inverse3 RS a) = mat3_default RS.
Proof.
  intros N. rewrite inv3_adj. destruct scalar3 as (_ & _ & _ & _ & E). rewrite E, (proj2 (adj3 a)), <- det3_leibniz.
  revert N. generalize (determinant3 RS a). intros d N. ms. parts; field; exact N.
Qed.
Lemma inv3_l a : determinant3 RS a <> 0 -> mat3_mul RS (inverse3 RS a) a = mat3_default RS.
Proof.
  intros N. rewrite inv3_adj. destruct scalar3 as (_ & _ & _ & E & _). rewrite E, (proj1 (adj3 a)), <- det3_leibniz.
  revert N. generalize (determinant3 RS a). intros d N. ms. parts; field; exact N.
Qed.
Lemma inverse3_ok : inverse_ok 3 lm3 (mat3_mul RS) (transpose3 RS) (mat3_default RS) (inverse3 RS).
Proof.
  destruct ring3 as (_&_&_&_&_&_&_&_&As&_&_&Ur&Ul&_). destruct det3 as (DL&DM&DT&DO&_). destruct transp3 as (_&TM&_).
  apply inverse_generic with (det := determinant3 RS); auto using inv3_r, inv3_l.
Qed.
Lemma division3_ok : matrix_division_ok 3 lm3 (mat3_mul RS) (mat3_mul_vec RS) (vec_mul_mat3 RS)
  (mat3_div RS) (mat3_div_vec RS) (vec_div_mat3 RS).
Proof.
  destruct ring3 as (_&_&_&_&_&_&_&_&As&_&_&Ur&Ul&_&_&_&Av&Al&Ov&Ol). destruct det3 as (DL&DM&DT&DO&_).
  apply division_generic with (det := determinant3 RS) (one := mat3_default RS) (inv := inverse3 RS);
    auto using inv3_r, inv3_l.
Qed.

Lemma inv4_r a : determinant4 RS a <> 0 -> mat4_mul RS a (inverse4 RS a) = mat4_default RS.
Proof.
  intros N. rewrite inv4_adj. destruct scalar4 as (_ & _ & _ & _ & E). rewrite E, (proj2 (adj4 a)), <- det4_leibniz.
  revert N. generalize (determinant4 RS a). intros d N. ms. parts; field; exact N.
Qed.
Lemma inv4_l a : determinant4 RS a <> 0 -> mat4_mul RS (inverse4 RS a) a = mat4_default RS.
Proof.
  intros N. rewrite inv4_adj. destruct scalar4 as (_ & _ & _ & E & _). rewrite E, (proj1 (adj4 a)), <- det4_leibniz.
  revert N. generalize (determinant4 RS a). intros d N. ms. parts; field; exact N.
Qed.
Lemma inverse4_ok : inverse_ok 4 lm4 (mat4_mul RS) (transpose4 RS) (mat4_default RS) (inverse4 RS).
Proof.
  destruct ring4 as (_&_&_&_&_&_&_&_&As&_&_&Ur&Ul&_). destruct det4 as (DL&DM&DT&DO&_). destruct transp4 as (_&TM&_).
  apply inverse_generic with (det := determinant4 RS); auto using inv4_r, inv4_l.
Qed.
Lemma division4_ok : matrix_division_ok 4 lm4 (mat4_mul RS) (mat4_mul_vec RS) (vec_mul_mat4 RS)
  (mat4_div RS) (mat4_div_vec RS) (vec_div_mat4 RS).
Proof.
  destruct ring4 as (_&_&_&_&_&_&_&_&As&_&_&Ur&Ul&_&_&_&Av&Al&Ov&Ol). destruct det4 as (DL&DM&DT&DO&_).
  apply division_generic with (det := determinant4 RS) (one := mat4_default RS) (inv := inverse4 RS);
    auto using inv4_r, inv4_l.
Qed.

(** ** Properties *)
(** C40: the matrix ring and its action on vectors, exact arithmetic. *)
Lemma C40_ring_pf :
  matrix_ring_ok 2 lm2 l2 (mat2_add RS) (mat2_sub RS) (mat2_mul RS) (mat2_neg RS) (mat2_f RS 0) (mat2_default RS) (mat2_mul_vec RS) (vec_mul_mat2 RS) /\
  matrix_ring_ok 3 lm3 l3 (mat3_add RS) (mat3_sub RS) (mat3_mul RS) (mat3_neg RS) (mat3_f RS 0) (mat3_default RS) (mat3_mul_vec RS) (vec_mul_mat3 RS) /\
  matrix_ring_ok 4 lm4 l4 (mat4_add RS) (mat4_sub RS) (mat4_mul RS) (mat4_neg RS) (mat4_f RS 0) (mat4_default RS) (mat4_mul_vec RS) (vec_mul_mat4 RS).
Proof. exact (conj ring2 (conj ring3 ring4)). Qed.

(** C40: scalar operators. *)
Lemma C40_scalar_pf :
  matrix_scalar_ok 2 lm2 (mat2_mul RS) (mat2_mul_sc RS) (fun m s => sc_mul_mat2 RS s m) (mat2_div_sc RS) /\
  matrix_scalar_ok 3 lm3 (mat3_mul RS) (mat3_mul_sc RS) (fun m s => sc_mul_mat3 RS s m) (mat3_div_sc RS) /\
  matrix_scalar_ok 4 lm4 (mat4_mul RS) (mat4_mul_sc RS) (fun m s => sc_mul_mat4 RS s m) (mat4_div_sc RS).
Proof. exact (conj scalar2 (conj scalar3 scalar4)). Qed.

(** C40: in binary32, v * m is transpose(m) * v bit for bit for mat2 and mat3. *)
Lemma C40_left_product_f32_pf : forall L : Libm,
  (forall m v, vec_mul_mat2 (F32 L) v m = mat2_mul_vec (F32 L) (transpose2 (F32 L) m) v) /\
  (forall m v, vec_mul_mat3 (F32 L) v m = mat3_mul_vec (F32 L) (transpose3 (F32 L) m) v).
Proof.
  intros L. split; intros; vdestruct; [|reflexivity].
  unfold vec_mul_mat2, mat2_mul_vec. fs.
  rewrite (bmul_comm e), (bmul_comm e0), (bmul_comm e e3), (bmul_comm e0 e4). reflexivity.
Qed.

(** C40: not for mat4, whose two products associate the sum differently. *)
Lemma C40_left_product_mat4_refuted_pf : forall L : Libm, exists m v, all_finite (lm4 m) /\ all_finite (l4 v) /\
  vec4_eq (F32 L) (vec_mul_mat4 (F32 L) v m) (mat4_mul_vec (F32 L) (transpose4 (F32 L) m) v) = false.
Proof.
  intros L. exists (mat4_el (F32 L) (f32_lit 16777216 0) (f32_lit 0 0) (f32_lit 1 0) (f32_lit 1 0)
    (f32_lit 0 0) (f32_lit 0 0) (f32_lit 0 0) (f32_lit 0 0) (f32_lit 0 0) (f32_lit 0 0) (f32_lit 0 0) (f32_lit 0 0)
    (f32_lit 0 0) (f32_lit 0 0) (f32_lit 0 0) (f32_lit 0 0)), (V4 (f32_lit 1 0) (f32_lit 1 0) (f32_lit 1 0) (f32_lit 1 0)).
  ands; [| |vm_compute; reflexivity]; unfold all_finite; fs; repeat (apply Forall_cons; [reflexivity|]); apply Forall_nil.
Qed.

(** C41: entry (i,j) of the transpose is entry (j,i), bit for bit and for every scalar type; twice is the identity. *)
Lemma C41_entries_pf : forall S : Scalar,
  (forall m i j, (i < 2)%nat -> (j < 2)%nat -> nth_error (lm2 (transpose2 S m)) (i * 2 + j) = nth_error (lm2 m) (j * 2 + i)) /\
  (forall m i j, (i < 3)%nat -> (j < 3)%nat -> nth_error (lm3 (transpose3 S m)) (i * 3 + j) = nth_error (lm3 m) (j * 3 + i)) /\
  (forall m i j, (i < 4)%nat -> (j < 4)%nat -> nth_error (lm4 (transpose4 S m)) (i * 4 + j) = nth_error (lm4 m) (j * 4 + i)) /\
  (forall m, transpose2 S (transpose2 S m) = m) /\
  (forall m, transpose3 S (transpose3 S m) = m) /\
  (forall m, transpose4 S (transpose4 S m) = m).
Proof.
  intros S. ands; intros; vdestruct; try reflexivity.
  - idx i 2; idx j 2; try lia; reflexivity.
  - idx i 3; idx j 3; try lia; reflexivity.
  - idx i 4; idx j 4; try lia; reflexivity.
Qed.

(** C41: transposition reverses products and exchanges the two vector products. *)
Lemma C41_product_pf :
  transpose_ok 2 lm2 (mat2_mul RS) (mat2_mul_vec RS) (vec_mul_mat2 RS) (transpose2 RS) /\
  transpose_ok 3 lm3 (mat3_mul RS) (mat3_mul_vec RS) (vec_mul_mat3 RS) (transpose3 RS) /\
  transpose_ok 4 lm4 (mat4_mul RS) (mat4_mul_vec RS) (vec_mul_mat4 RS) (transpose4 RS).
Proof. exact (conj transp2 (conj transp3 transp4)). Qed.

(** C42: the determinant. *)
Lemma C42_determinant_pf :
  determinant_ok 2 lm2 (mat2_mul RS) (transpose2 RS) (mat2_default RS) (mat2_mul_sc RS) (determinant2 RS) /\
  determinant_ok 3 lm3 (mat3_mul RS) (transpose3 RS) (mat3_default RS) (mat3_mul_sc RS) (determinant3 RS) /\
  determinant_ok 4 lm4 (mat4_mul RS) (transpose4 RS) (mat4_default RS) (mat4_mul_sc RS) (determinant4 RS).
Proof. exact (conj det2 (conj det3 det4)). Qed.

(** C43: the inverse. *)
Lemma C43_inverse_pf :
  inverse_ok 2 lm2 (mat2_mul RS) (transpose2 RS) (mat2_default RS) (inverse2 RS) /\
  inverse_ok 3 lm3 (mat3_mul RS) (transpose3 RS) (mat3_default RS) (inverse3 RS) /\
  inverse_ok 4 lm4 (mat4_mul RS) (transpose4 RS) (mat4_default RS) (inverse4 RS).
Proof. exact (conj inverse2_ok (conj inverse3_ok inverse4_ok)). Qed.

(** C43: a determinant that is zero in binary32 leaves no finite entry in the inverse. *)
Lemma C43_singular_f32_pf : forall L : Libm,
  let all_infinite_or_nan l := Forall (fun x : f32 => is_finite x = false) l in
  (forall m, iszero (determinant2 (F32 L) m) = true -> all_infinite_or_nan (lm2 (inverse2 (F32 L) m))) /\
  (forall m, iszero (determinant3 (F32 L) m) = true -> all_infinite_or_nan (lm3 (inverse3 (F32 L) m))) /\
  (forall m, let a := adjugate4 (F32 L) m in
     let p k := Bmult mode_NE (at4 m 0 k) (at4 a k 0) in
     iszero (Bplus mode_NE (Bplus mode_NE (p 0%nat) (p 1%nat)) (Bplus mode_NE (p 2%nat) (p 3%nat))) = true ->
     all_infinite_or_nan (lm4 (inverse4 (F32 L) m))).
Proof.
  intros L all. ands; intros m; cbv zeta; intros Z.
  - change (let d := determinant2 (F32 L) m in let o := bdiv (f32_lit 1 0) d in
      all (lm2 (mat2_el (F32 L) (bmul (at2 m 1 1) o) (bmul (Bopp (at2 m 0 1)) o) (bmul (Bopp (at2 m 1 0)) o) (bmul (at2 m 0 0) o)))).
    cbv zeta. destruct (bdiv_zero_inf _ Z) as [s E]. rewrite E. unfold all. cbv [lm2 mat2_el concat l2 app m2c0 m2c1 x2 y2].
    repeat (apply Forall_cons; [apply bmul_inf|]); apply Forall_nil.
  - change (all (lm3 (mat3_mul_sc (F32 L) (adjugate3 (F32 L) m) (bdiv (f32_lit 1 0) (determinant3 (F32 L) m))))).
    destruct (bdiv_zero_inf _ Z) as [s E]. rewrite E. generalize (adjugate3 (F32 L) m). intros a. unfold all.
    cbv [lm3 mat3_mul_sc vec3_mul_sc concat l3 app m3c0 m3c1 m3c2 x3 y3 z3 col3].
    repeat (apply Forall_cons; [apply bmul_inf|]); apply Forall_nil.
  - match goal with H : iszero ?d = true |- _ => change (all (lm4 (mat4_mul_sc (F32 L) (adjugate4 (F32 L) m) (bdiv (f32_lit 1 0) d))));
      destruct (bdiv_zero_inf _ H) as [s E] end. rewrite E. generalize (adjugate4 (F32 L) m). intros a. unfold all.
    cbv [lm4 mat4_mul_sc vec4_mul_sc concat l4 app m4c0 m4c1 m4c2 m4c3 x4 y4 z4 w4 col4].
    repeat (apply Forall_cons; [apply bmul_inf|]); apply Forall_nil.
Qed.

(*PROPS
Example C43_ex_invertible : leibniz 2 (lm2 (M2 (V2 2 3) (V2 5 7))) <> 0.
Proof. cbv -[Rplus Rmult IZR Ropp]. lra. Qed.
Example C43_ex_singular : iszero (determinant2 (F32 L0) (M2 (V2 (f32_lit 1 0) (f32_lit 2 0)) (V2 (f32_lit 2 0) (f32_lit 4 0)))) = true.
Proof. reflexivity. Qed.

PROPS*)
(** C44: the adjugate times the matrix is the determinant. *)
Lemma C44_adjugate_pf :
  adjugate_ok 2 lm2 (mat2_mul RS) (mat2_default RS) (mat2_mul_sc RS) (adjugate2 RS) /\
  adjugate_ok 3 lm3 (mat3_mul RS) (mat3_default RS) (mat3_mul_sc RS) (adjugate3 RS) /\
  adjugate_ok 4 lm4 (mat4_mul RS) (mat4_default RS) (mat4_mul_sc RS) (adjugate4 RS).
Proof. exact (conj adj2 (conj adj3 adj4)). Qed.

(** C44: adjugateTranspose and inverseTranspose are the transposes for mat3 and mat4. *)
Lemma C44_transposes_pf :
  (forall S m, adjugateTranspose3 S m = transpose3 S (adjugate3 S m)) /\
  (forall m, adjugateTranspose4 RS m = transpose4 RS (adjugate4 RS m)) /\
  (forall m, inverseTranspose3 RS m = transpose3 RS (inverse3 RS m)) /\
  (forall m, inverseTranspose4 RS m = transpose4 RS (inverse4 RS m)).
Proof.
  ands; intros; [reflexivity| | |].
  - vdestruct. ents.
  - rewrite inv3_adj. rewrite det3_leibniz. vdestruct. ms. parts;
      match goal with |- _ / ?d = _ * / ?d' => replace d with d' by ring; unfold Rdiv; ring end.
  - rewrite inv4_adj. rewrite det4_leibniz. vdestruct. ms. parts;
      match goal with |- _ / ?d = _ * / ?d' => replace d with d' by ring; unfold Rdiv; generalize (/ d'); intros; ring end.
Qed.

(** C44: for mat2 both return the untransposed matrix. *)
Lemma C44_mat2_untransposed_pf :
  (forall S m, adjugateTranspose2 S m = adjugate2 S m) /\
  (forall m, inverseTranspose2 RS m = inverse2 RS m) /\
  (forall m, adjugateTranspose2 RS m = transpose2 RS (adjugate2 RS m) <-> y2 (m2c0 m) = x2 (m2c1 m)) /\
  (forall m, leibniz 2 (lm2 m) <> 0 ->
     (inverseTranspose2 RS m = transpose2 RS (inverse2 RS m) <-> y2 (m2c0 m) = x2 (m2c1 m))).
Proof.
  ands; intros.
  - reflexivity.
  - rewrite inv2_adj. rewrite det2_leibniz. vdestruct. ms. parts;
      match goal with |- _ / ?d = _ * / ?d' => replace d with d' by ring; unfold Rdiv; ring end.
  - vdestruct. ms. split; [intros H; injection H; intros; lra|intros ->; reflexivity].
  - revert H. vdestruct. intros N. split.
    + intros H. ms_in H. injection H; intros _ H1 _ _.
      assert (D : e * e2 - e1 * e0 <> 0) by (intros Z; apply N; ms; lra).
      ms. apply Rmult_eq_reg_r with (/ (e * e2 - e1 * e0)); [|now apply Rinv_neq_0_compat].
      unfold Rdiv in *. lra.
    + ms. intros ->. parts; unfold Rdiv; ring.
Qed.

Lemma C44_mat2_transpose_refuted_pf :
  exists m : mat2 R, leibniz 2 (lm2 m) = 1 /\
    adjugateTranspose2 RS m <> transpose2 RS (adjugate2 RS m) /\ inverseTranspose2 RS m <> transpose2 RS (inverse2 RS m).
Proof.
  exists (M2 (V2 1 0) (V2 1 1)). assert (D : leibniz 2 (lm2 (M2 (V2 1 0) (V2 1 1))) = 1) by (ms; ring).
  destruct C44_mat2_untransposed_pf as (_ & _ & A & B). ands; [exact D| |].
  - intros H. apply A in H. cbn in H. lra.
  - intros H. apply B in H; [|lra]. cbn in H. lra.
Qed.

(** C45: dividing by an invertible matrix undoes multiplication. *)
Lemma C45_division_pf :
  matrix_division_ok 2 lm2 (mat2_mul RS) (mat2_mul_vec RS) (vec_mul_mat2 RS) (mat2_div RS) (mat2_div_vec RS) (vec_div_mat2 RS) /\
  matrix_division_ok 3 lm3 (mat3_mul RS) (mat3_mul_vec RS) (vec_mul_mat3 RS) (mat3_div RS) (mat3_div_vec RS) (vec_div_mat3 RS) /\
  matrix_division_ok 4 lm4 (mat4_mul RS) (mat4_mul_vec RS) (vec_mul_mat4 RS) (mat4_div RS) (mat4_div_vec RS) (vec_div_mat4 RS).
Proof. exact (conj division2_ok (conj division3_ok division4_ok)). Qed.

(** C45: the compound operators store that quotient, also when a matrix is divided by itself. *)
Lemma C45_assign_pf : forall S : Scalar,
  (forall a b, mat2_div_assign S (fun _ => b) a = mat2_div S a b /\ mat2_div_assign S (fun x => x) a = mat2_div S a a) /\
  (forall a b, mat3_div_assign S (fun _ => b) a = mat3_div S a b /\ mat3_div_assign S (fun x => x) a = mat3_div S a a) /\
  (forall a b, mat4_div_assign S (fun _ => b) a = mat4_div S a b /\ mat4_div_assign S (fun x => x) a = mat4_div S a a).
Proof. intros S. ands; intros; split; reflexivity. Qed.

(** C46: widening and narrowing. *)
Lemma C46_conversions_pf : forall S : Scalar,
  (forall m : mat3 S, lm4 (mat4_of_mat3 S m) =
     l3 (m3c0 m) ++ [slit 0 0] ++ l3 (m3c1 m) ++ [slit 0 0] ++ l3 (m3c2 m) ++ [slit 0 0] ++ [slit 0 0; slit 0 0; slit 0 0; slit 1 0]) /\
  (forall m : mat4 S, lm3 (mat3_of_mat4 S m) = firstn 3 (l4 (m4c0 m)) ++ firstn 3 (l4 (m4c1 m)) ++ firstn 3 (l4 (m4c2 m))) /\
  (forall m : mat3 S, lm2 (mat2_of_mat3 S m) = firstn 2 (l3 (m3c0 m)) ++ firstn 2 (l3 (m3c1 m))) /\
  (forall m : mat3 S, mat3_of_mat4 S (mat4_of_mat3 S m) = m).
Proof. intros S. ands; intros; vdestruct; reflexivity. Qed.

(** C46: widening preserves products, the unit, the determinant and the action on vectors. *)
Lemma C46_homomorphism_pf :
  (forall a b, mat4_of_mat3 RS (mat3_mul RS a b) = mat4_mul RS (mat4_of_mat3 RS a) (mat4_of_mat3 RS b)) /\
  mat4_of_mat3 RS (mat3_default RS) = mat4_default RS /\
  (forall a, determinant4 RS (mat4_of_mat3 RS a) = determinant3 RS a) /\
  (forall a v w, mat4_mul_vec RS (mat4_of_mat3 RS a) (vec4_v3f RS v w) = vec4_v3f RS (mat3_mul_vec RS a v) w).
Proof. ands; intros; vdestruct; ents. Qed.

(** C46: mat3(mat2) always reads a third column of the mat2. *)
Lemma C46_mat3_of_mat2_refuted_pf : forall (S : Scalar) (m : mat2 S),
  mat3_of_mat2 S Debug m = AssertFail /\ mat3_of_mat2 S Release m = Undefined.
Proof. intros. split; reflexivity. Qed.

(** C47: the Hadamard product, one operation per entry; commutative bit for bit; the all-ones matrix is its unit. *)
Lemma C47_entrywise_pf : forall S : Scalar,
  (forall a b, lm2 (matrixCompMult2 S a b) = zip smul (lm2 a) (lm2 b)) /\
  (forall a b, lm3 (matrixCompMult3 S a b) = zip smul (lm3 a) (lm3 b)) /\
  (forall a b, lm4 (matrixCompMult4 S a b) = zip smul (lm4 a) (lm4 b)).
Proof. intros S. ands; intros; vdestruct; reflexivity. Qed.

Lemma C47_f32_pf : forall L : Libm, let one := f32_lit 1 0 in
  (forall a b, matrixCompMult2 (F32 L) a b = matrixCompMult2 (F32 L) b a) /\
  (forall a b, matrixCompMult3 (F32 L) a b = matrixCompMult3 (F32 L) b a) /\
  (forall a b, matrixCompMult4 (F32 L) a b = matrixCompMult4 (F32 L) b a) /\
  (forall a u, Forall (fun x => x = one) (lm2 u) -> matrixCompMult2 (F32 L) a u = a) /\
  (forall a u, Forall (fun x => x = one) (lm3 u) -> matrixCompMult3 (F32 L) a u = a) /\
  (forall a u, Forall (fun x => x = one) (lm4 u) -> matrixCompMult4 (F32 L) a u = a).
Proof.
  intros L one. ands.
  1,2,3: intros; vdestruct; fs; parts; apply bmul_comm.
  1,2,3: intros a u H; vdestruct; repeat match goal with H : Forall _ _ |- _ => inversion H; clear H; subst end;
    fs; parts; apply bmul_one.
Qed.

(*PROPS
Example C47_ex : matrixCompMult2 (F32 L0) (M2 (V2 (f32_lit 3 0) (f32_lit 1 (-1))) (V2 B754_nan (f32_lit 4 0))) (mat2_el (F32 L0) (f32_lit 1 0) (f32_lit 1 0) (f32_lit 1 0) (f32_lit 1 0))
  = M2 (V2 (f32_lit 3 0) (f32_lit 1 (-1))) (V2 B754_nan (f32_lit 4 0)).
Proof. apply (C47_f32_pf L0). repeat (apply Forall_cons; [reflexivity|]). apply Forall_nil. Qed.

PROPS*)
