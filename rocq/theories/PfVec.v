(** * Proofs: vector operators, constructors, indexing, accessors, memory layout *)
From Coq Require Import ZArith NArith Bool List Lia.
From Verif Require Import Scalar IEEE32 Outcome Types Int32 Spec F32Tac ModelVec ModelIVec ModelBVec
  ModelAccess ModelQuat ModelMat.
Import ListNotations.
(*HEADER END*)

Ltac dv := repeat match goal with
  | v : vec2 _ |- _ => destruct v
  | v : vec3 _ |- _ => destruct v
  | v : vec4 _ |- _ => destruct v
  | q : quat _ |- _ => destruct q
  | m : mat2 _ |- _ => destruct m
  | m : mat3 _ |- _ => destruct m
  | m : mat4 _ |- _ => destruct m
  end.
Ltac triv := intros; dv; repeat split; reflexivity.

(** C01, vec2: every operator is the scalar operator of the number system [S] (in
    particular binary32) on corresponding components. *)
Lemma C01_vec2_componentwise_pf : forall (S : Scalar) (u v : vec2 S) (s : S),
  l2 (vec2_add S u v) = zip sadd (l2 u) (l2 v) /\
  l2 (vec2_add_sc S u s) = map (fun a => sadd a s) (l2 u) /\
  l2 (sc_add_vec2 S s u) = map (fun a => sadd s a) (l2 u) /\
  l2 (vec2_sub S u v) = zip ssub (l2 u) (l2 v) /\
  l2 (vec2_sub_sc S u s) = map (fun a => ssub a s) (l2 u) /\
  l2 (sc_sub_vec2 S s u) = map (fun a => ssub s a) (l2 u) /\
  l2 (vec2_mul S u v) = zip smul (l2 u) (l2 v) /\
  l2 (vec2_mul_sc S u s) = map (fun a => smul a s) (l2 u) /\
  l2 (sc_mul_vec2 S s u) = map (fun a => smul s a) (l2 u) /\
  l2 (vec2_div S u v) = zip sdiv (l2 u) (l2 v) /\
  l2 (vec2_div_sc S u s) = map (fun a => sdiv a s) (l2 u) /\
  l2 (sc_div_vec2 S s u) = map (fun a => sdiv s a) (l2 u) /\
  vec2_pos S u = u /\
  l2 (vec2_neg S u) = map sneg (l2 u).
Proof. triv. Qed.

(** C01, vec3: every operator is the scalar operator of the number system [S] (in
    particular binary32) on corresponding components. *)
Lemma C01_vec3_componentwise_pf : forall (S : Scalar) (u v : vec3 S) (s : S),
  l3 (vec3_add S u v) = zip sadd (l3 u) (l3 v) /\
  l3 (vec3_add_sc S u s) = map (fun a => sadd a s) (l3 u) /\
  l3 (sc_add_vec3 S s u) = map (fun a => sadd s a) (l3 u) /\
  l3 (vec3_sub S u v) = zip ssub (l3 u) (l3 v) /\
  l3 (vec3_sub_sc S u s) = map (fun a => ssub a s) (l3 u) /\
  l3 (sc_sub_vec3 S s u) = map (fun a => ssub s a) (l3 u) /\
  l3 (vec3_mul S u v) = zip smul (l3 u) (l3 v) /\
  l3 (vec3_mul_sc S u s) = map (fun a => smul a s) (l3 u) /\
  l3 (sc_mul_vec3 S s u) = map (fun a => smul s a) (l3 u) /\
  l3 (vec3_div S u v) = zip sdiv (l3 u) (l3 v) /\
  l3 (vec3_div_sc S u s) = map (fun a => sdiv a s) (l3 u) /\
  l3 (sc_div_vec3 S s u) = map (fun a => sdiv s a) (l3 u) /\
  vec3_pos S u = u /\
  l3 (vec3_neg S u) = map sneg (l3 u).
Proof. triv. Qed.

(** C01, vec4: every operator is the scalar operator of the number system [S] (in
    particular binary32) on corresponding components. *)
Lemma C01_vec4_componentwise_pf : forall (S : Scalar) (u v : vec4 S) (s : S),
  l4 (vec4_add S u v) = zip sadd (l4 u) (l4 v) /\
  l4 (vec4_add_sc S u s) = map (fun a => sadd a s) (l4 u) /\
  l4 (sc_add_vec4 S s u) = map (fun a => sadd s a) (l4 u) /\
  l4 (vec4_sub S u v) = zip ssub (l4 u) (l4 v) /\
  l4 (vec4_sub_sc S u s) = map (fun a => ssub a s) (l4 u) /\
  l4 (sc_sub_vec4 S s u) = map (fun a => ssub s a) (l4 u) /\
  l4 (vec4_mul S u v) = zip smul (l4 u) (l4 v) /\
  l4 (vec4_mul_sc S u s) = map (fun a => smul a s) (l4 u) /\
  l4 (sc_mul_vec4 S s u) = map (fun a => smul s a) (l4 u) /\
  l4 (vec4_div S u v) = zip sdiv (l4 u) (l4 v) /\
  l4 (vec4_div_sc S u s) = map (fun a => sdiv a s) (l4 u) /\
  l4 (sc_div_vec4 S s u) = map (fun a => sdiv s a) (l4 u) /\
  vec4_pos S u = u /\
  l4 (vec4_neg S u) = map sneg (l4 u).
Proof. triv. Qed.

(** C02, vec2: [u op= v] computes [u op v] of the values before the call, for every
    way [rd] ([rds]) in which the right operand may depend on the object itself
    ([rd := fun s => s] is [u op= u], [rds := fun s => x2 s] is [u op= u.x]). *)
Lemma C02_vec2_assign_pf : forall (S : Scalar) (u : vec2 S) (rd : vec2 S -> vec2 S) (rds : vec2 S -> S),
  vec2_add_assign S rd u = vec2_add S u (rd u) /\
  vec2_add_assign_sc S rds u = vec2_add_sc S u (rds u) /\
  vec2_sub_assign S rd u = vec2_sub S u (rd u) /\
  vec2_sub_assign_sc S rds u = vec2_sub_sc S u (rds u) /\
  vec2_mul_assign S rd u = vec2_mul S u (rd u) /\
  vec2_mul_assign_sc S rds u = vec2_mul_sc S u (rds u) /\
  vec2_div_assign S rd u = vec2_div S u (rd u) /\
  vec2_div_assign_sc S rds u = vec2_div_sc S u (rds u) /\
  l2 (fst (vec2_preinc S u)) = map (fun a => sadd a (slit 1 0)) (l2 u) /\
  snd (vec2_preinc S u) = fst (vec2_preinc S u) /\
  fst (vec2_postinc S u) = fst (vec2_preinc S u) /\
  snd (vec2_postinc S u) = u /\
  l2 (fst (vec2_predec S u)) = map (fun a => ssub a (slit 1 0)) (l2 u) /\
  snd (vec2_predec S u) = fst (vec2_predec S u) /\
  fst (vec2_postdec S u) = fst (vec2_predec S u) /\
  snd (vec2_postdec S u) = u.
Proof.
  intros. unfold vec2_add_assign, vec2_add_assign_sc, vec2_sub_assign, vec2_sub_assign_sc, vec2_mul_assign, vec2_mul_assign_sc, vec2_div_assign, vec2_div_assign_sc, IMPL_V2_COMPOUND_VEC_OP, IMPL_V2_COMPOUND_SC_OP.
  repeat split; cbv zeta;
    try (destruct (rd u)); try (destruct (rds u)); destruct u; reflexivity.
Qed.

(** C02, vec3: [u op= v] computes [u op v] of the values before the call, for every
    way [rd] ([rds]) in which the right operand may depend on the object itself
    ([rd := fun s => s] is [u op= u], [rds := fun s => x3 s] is [u op= u.x]). *)
Lemma C02_vec3_assign_pf : forall (S : Scalar) (u : vec3 S) (rd : vec3 S -> vec3 S) (rds : vec3 S -> S),
  vec3_add_assign S rd u = vec3_add S u (rd u) /\
  vec3_add_assign_sc S rds u = vec3_add_sc S u (rds u) /\
  vec3_sub_assign S rd u = vec3_sub S u (rd u) /\
  vec3_sub_assign_sc S rds u = vec3_sub_sc S u (rds u) /\
  vec3_mul_assign S rd u = vec3_mul S u (rd u) /\
  vec3_mul_assign_sc S rds u = vec3_mul_sc S u (rds u) /\
  vec3_div_assign S rd u = vec3_div S u (rd u) /\
  vec3_div_assign_sc S rds u = vec3_div_sc S u (rds u) /\
  l3 (fst (vec3_preinc S u)) = map (fun a => sadd a (slit 1 0)) (l3 u) /\
  snd (vec3_preinc S u) = fst (vec3_preinc S u) /\
  fst (vec3_postinc S u) = fst (vec3_preinc S u) /\
  snd (vec3_postinc S u) = u /\
  l3 (fst (vec3_predec S u)) = map (fun a => ssub a (slit 1 0)) (l3 u) /\
  snd (vec3_predec S u) = fst (vec3_predec S u) /\
  fst (vec3_postdec S u) = fst (vec3_predec S u) /\
  snd (vec3_postdec S u) = u.
Proof.
  intros. unfold vec3_add_assign, vec3_add_assign_sc, vec3_sub_assign, vec3_sub_assign_sc, vec3_mul_assign, vec3_mul_assign_sc, vec3_div_assign, vec3_div_assign_sc, IMPL_V3_COMPOUND_VEC_OP, IMPL_V3_COMPOUND_SC_OP.
  repeat split; cbv zeta;
    try (destruct (rd u)); try (destruct (rds u)); destruct u; reflexivity.
Qed.

(** C02, vec4: [u op= v] computes [u op v] of the values before the call, for every
    way [rd] ([rds]) in which the right operand may depend on the object itself
    ([rd := fun s => s] is [u op= u], [rds := fun s => x4 s] is [u op= u.x]). *)
Lemma C02_vec4_assign_pf : forall (S : Scalar) (u : vec4 S) (rd : vec4 S -> vec4 S) (rds : vec4 S -> S),
  vec4_add_assign S rd u = vec4_add S u (rd u) /\
  vec4_add_assign_sc S rds u = vec4_add_sc S u (rds u) /\
  vec4_sub_assign S rd u = vec4_sub S u (rd u) /\
  vec4_sub_assign_sc S rds u = vec4_sub_sc S u (rds u) /\
  vec4_mul_assign S rd u = vec4_mul S u (rd u) /\
  vec4_mul_assign_sc S rds u = vec4_mul_sc S u (rds u) /\
  vec4_div_assign S rd u = vec4_div S u (rd u) /\
  vec4_div_assign_sc S rds u = vec4_div_sc S u (rds u) /\
  l4 (fst (vec4_preinc S u)) = map (fun a => sadd a (slit 1 0)) (l4 u) /\
  snd (vec4_preinc S u) = fst (vec4_preinc S u) /\
  fst (vec4_postinc S u) = fst (vec4_preinc S u) /\
  snd (vec4_postinc S u) = u /\
  l4 (fst (vec4_predec S u)) = map (fun a => ssub a (slit 1 0)) (l4 u) /\
  snd (vec4_predec S u) = fst (vec4_predec S u) /\
  fst (vec4_postdec S u) = fst (vec4_predec S u) /\
  snd (vec4_postdec S u) = u.
Proof.
  intros. unfold vec4_add_assign, vec4_add_assign_sc, vec4_sub_assign, vec4_sub_assign_sc, vec4_mul_assign, vec4_mul_assign_sc, vec4_div_assign, vec4_div_assign_sc, IMPL_V4_COMPOUND_VEC_OP, IMPL_V4_COMPOUND_SC_OP.
  repeat split; cbv zeta;
    try (destruct (rd u)); try (destruct (rds u)); destruct u; reflexivity.
Qed.

(** C02, ivec2: the same, including when the result is undefined. *)
Lemma C02_ivec2_assign_pf : forall (u : vec2 Z) (rd : vec2 Z -> vec2 Z) (rds : vec2 Z -> Z),
  ivec2_add_assign rd u = ivec2_add u (rd u) /\
  ivec2_add_assign_sc rds u = ivec2_add_sc u (rds u) /\
  ivec2_sub_assign rd u = ivec2_sub u (rd u) /\
  ivec2_sub_assign_sc rds u = ivec2_sub_sc u (rds u) /\
  ivec2_mul_assign rd u = ivec2_mul u (rd u) /\
  ivec2_mul_assign_sc rds u = ivec2_mul_sc u (rds u) /\
  ivec2_div_assign rd u = ivec2_div u (rd u) /\
  ivec2_div_assign_sc rds u = ivec2_div_sc u (rds u) /\
  ivec2_rem_assign rd u = ivec2_rem u (rd u) /\
  ivec2_rem_assign_sc rds u = ivec2_rem_sc u (rds u) /\
  ivec2_or_assign rd u = ivec2_or u (rd u) /\
  ivec2_or_assign_sc rds u = ivec2_or_sc u (rds u) /\
  ivec2_and_assign rd u = ivec2_and u (rd u) /\
  ivec2_and_assign_sc rds u = ivec2_and_sc u (rds u) /\
  ivec2_xor_assign rd u = ivec2_xor u (rd u) /\
  ivec2_xor_assign_sc rds u = ivec2_xor_sc u (rds u) /\
  ivec2_shr_assign rd u = ivec2_shr u (rd u) /\
  ivec2_shr_assign_sc rds u = ivec2_shr_sc u (rds u) /\
  ivec2_shl_assign rd u = ivec2_shl u (rd u) /\
  ivec2_shl_assign_sc rds u = ivec2_shl_sc u (rds u) /\
  omap fst (ivec2_preinc u) = ivec2_add_sc u 1%Z /\
  omap snd (ivec2_preinc u) = ivec2_add_sc u 1%Z /\
  omap fst (ivec2_postinc u) = ivec2_add_sc u 1%Z /\
  (forall r, ivec2_postinc u = Ret r -> snd r = u) /\
  omap fst (ivec2_predec u) = ivec2_sub_sc u 1%Z /\
  omap snd (ivec2_predec u) = ivec2_sub_sc u 1%Z /\
  omap fst (ivec2_postdec u) = ivec2_sub_sc u 1%Z /\
  (forall r, ivec2_postdec u = Ret r -> snd r = u).
Proof.
  intros u rd rds.
  repeat split; intros;
    cbv [ivec2_add_assign ivec2_add_assign_sc ivec2_add ivec2_add_sc ivec2_sub_assign ivec2_sub_assign_sc ivec2_sub ivec2_sub_sc ivec2_mul_assign ivec2_mul_assign_sc ivec2_mul ivec2_mul_sc ivec2_div_assign ivec2_div_assign_sc ivec2_div ivec2_div_sc ivec2_rem_assign ivec2_rem_assign_sc ivec2_rem ivec2_rem_sc ivec2_or_assign ivec2_or_assign_sc ivec2_or ivec2_or_sc ivec2_and_assign ivec2_and_assign_sc ivec2_and ivec2_and_sc ivec2_xor_assign ivec2_xor_assign_sc ivec2_xor ivec2_xor_sc ivec2_shr_assign ivec2_shr_assign_sc ivec2_shr ivec2_shr_sc ivec2_shl_assign ivec2_shl_assign_sc ivec2_shl ivec2_shl_sc ivec2_preinc ivec2_postinc ivec2_predec ivec2_postdec
         IMPL_IV2_COMPOUND_VEC_OP IMPL_IV2_COMPOUND_SC_OP IMPL_IV2_IV2_BINOP IMPL_IV2_SC_BINOP] in *;
    cbv zeta in *;
    try (destruct (rd u)); destruct u; cbn in *;
    repeat match goal with
    | |- context [bind ?m _] => destruct m eqn:?; cbn in *
    | H : bind ?m _ = _ |- _ => destruct m eqn:?; cbn in *; try discriminate
    end; try reflexivity; try congruence.
  all: match goal with H : Ret _ = Ret _ |- _ => injection H as <-; reflexivity end.
Qed.

(** C02, ivec3: the same, including when the result is undefined. *)
Lemma C02_ivec3_assign_pf : forall (u : vec3 Z) (rd : vec3 Z -> vec3 Z) (rds : vec3 Z -> Z),
  ivec3_add_assign rd u = ivec3_add u (rd u) /\
  ivec3_add_assign_sc rds u = ivec3_add_sc u (rds u) /\
  ivec3_sub_assign rd u = ivec3_sub u (rd u) /\
  ivec3_sub_assign_sc rds u = ivec3_sub_sc u (rds u) /\
  ivec3_mul_assign rd u = ivec3_mul u (rd u) /\
  ivec3_mul_assign_sc rds u = ivec3_mul_sc u (rds u) /\
  ivec3_div_assign rd u = ivec3_div u (rd u) /\
  ivec3_div_assign_sc rds u = ivec3_div_sc u (rds u) /\
  ivec3_rem_assign rd u = ivec3_rem u (rd u) /\
  ivec3_rem_assign_sc rds u = ivec3_rem_sc u (rds u) /\
  ivec3_or_assign rd u = ivec3_or u (rd u) /\
  ivec3_or_assign_sc rds u = ivec3_or_sc u (rds u) /\
  ivec3_and_assign rd u = ivec3_and u (rd u) /\
  ivec3_and_assign_sc rds u = ivec3_and_sc u (rds u) /\
  ivec3_xor_assign rd u = ivec3_xor u (rd u) /\
  ivec3_xor_assign_sc rds u = ivec3_xor_sc u (rds u) /\
  ivec3_shr_assign rd u = ivec3_shr u (rd u) /\
  ivec3_shr_assign_sc rds u = ivec3_shr_sc u (rds u) /\
  ivec3_shl_assign rd u = ivec3_shl u (rd u) /\
  ivec3_shl_assign_sc rds u = ivec3_shl_sc u (rds u) /\
  omap fst (ivec3_preinc u) = ivec3_add_sc u 1%Z /\
  omap snd (ivec3_preinc u) = ivec3_add_sc u 1%Z /\
  omap fst (ivec3_postinc u) = ivec3_add_sc u 1%Z /\
  (forall r, ivec3_postinc u = Ret r -> snd r = u) /\
  omap fst (ivec3_predec u) = ivec3_sub_sc u 1%Z /\
  omap snd (ivec3_predec u) = ivec3_sub_sc u 1%Z /\
  omap fst (ivec3_postdec u) = ivec3_sub_sc u 1%Z /\
  (forall r, ivec3_postdec u = Ret r -> snd r = u).
Proof.
  intros u rd rds.
  repeat split; intros;
    cbv [ivec3_add_assign ivec3_add_assign_sc ivec3_add ivec3_add_sc ivec3_sub_assign ivec3_sub_assign_sc ivec3_sub ivec3_sub_sc ivec3_mul_assign ivec3_mul_assign_sc ivec3_mul ivec3_mul_sc ivec3_div_assign ivec3_div_assign_sc ivec3_div ivec3_div_sc ivec3_rem_assign ivec3_rem_assign_sc ivec3_rem ivec3_rem_sc ivec3_or_assign ivec3_or_assign_sc ivec3_or ivec3_or_sc ivec3_and_assign ivec3_and_assign_sc ivec3_and ivec3_and_sc ivec3_xor_assign ivec3_xor_assign_sc ivec3_xor ivec3_xor_sc ivec3_shr_assign ivec3_shr_assign_sc ivec3_shr ivec3_shr_sc ivec3_shl_assign ivec3_shl_assign_sc ivec3_shl ivec3_shl_sc ivec3_preinc ivec3_postinc ivec3_predec ivec3_postdec
         IMPL_IV3_COMPOUND_VEC_OP IMPL_IV3_COMPOUND_SC_OP IMPL_IV3_IV3_BINOP IMPL_IV3_SC_BINOP] in *;
    cbv zeta in *;
    try (destruct (rd u)); destruct u; cbn in *;
    repeat match goal with
    | |- context [bind ?m _] => destruct m eqn:?; cbn in *
    | H : bind ?m _ = _ |- _ => destruct m eqn:?; cbn in *; try discriminate
    end; try reflexivity; try congruence.
  all: match goal with H : Ret _ = Ret _ |- _ => injection H as <-; reflexivity end.
Qed.

(** C02, ivec4: the same, including when the result is undefined. *)
Lemma C02_ivec4_assign_pf : forall (u : vec4 Z) (rd : vec4 Z -> vec4 Z) (rds : vec4 Z -> Z),
  ivec4_add_assign rd u = ivec4_add u (rd u) /\
  ivec4_add_assign_sc rds u = ivec4_add_sc u (rds u) /\
  ivec4_sub_assign rd u = ivec4_sub u (rd u) /\
  ivec4_sub_assign_sc rds u = ivec4_sub_sc u (rds u) /\
  ivec4_mul_assign rd u = ivec4_mul u (rd u) /\
  ivec4_mul_assign_sc rds u = ivec4_mul_sc u (rds u) /\
  ivec4_div_assign rd u = ivec4_div u (rd u) /\
  ivec4_div_assign_sc rds u = ivec4_div_sc u (rds u) /\
  omap fst (ivec4_preinc u) = ivec4_add_sc u 1%Z /\
  omap snd (ivec4_preinc u) = ivec4_add_sc u 1%Z /\
  omap fst (ivec4_postinc u) = ivec4_add_sc u 1%Z /\
  (forall r, ivec4_postinc u = Ret r -> snd r = u) /\
  omap fst (ivec4_predec u) = ivec4_sub_sc u 1%Z /\
  omap snd (ivec4_predec u) = ivec4_sub_sc u 1%Z /\
  omap fst (ivec4_postdec u) = ivec4_sub_sc u 1%Z /\
  (forall r, ivec4_postdec u = Ret r -> snd r = u).
Proof.
  intros u rd rds.
  repeat split; intros;
    cbv [ivec4_add_assign ivec4_add_assign_sc ivec4_add ivec4_add_sc ivec4_sub_assign ivec4_sub_assign_sc ivec4_sub ivec4_sub_sc ivec4_mul_assign ivec4_mul_assign_sc ivec4_mul ivec4_mul_sc ivec4_div_assign ivec4_div_assign_sc ivec4_div ivec4_div_sc ivec4_preinc ivec4_postinc ivec4_predec ivec4_postdec
         IMPL_IV4_COMPOUND_VEC_OP IMPL_IV4_COMPOUND_SC_OP IMPL_IV4_IV4_BINOP IMPL_IV4_SC_BINOP] in *;
    cbv zeta in *;
    try (destruct (rd u)); destruct u; cbn in *;
    repeat match goal with
    | |- context [bind ?m _] => destruct m eqn:?; cbn in *
    | H : bind ?m _ = _ |- _ => destruct m eqn:?; cbn in *; try discriminate
    end; try reflexivity; try congruence.
  all: match goal with H : Ret _ = Ret _ |- _ => injection H as <-; reflexivity end.
Qed.

(** C02, bvec2. *)
Lemma C02_bvec2_assign_pf : forall (u : vec2 bool) (rd : vec2 bool -> vec2 bool) (rds : vec2 bool -> bool),
  bvec2_and_assign rd u = bvec2_and u (rd u) /\
  bvec2_and_assign_sc rds u = bvec2_and_sc u (rds u) /\
  bvec2_or_assign rd u = bvec2_or u (rd u) /\
  bvec2_or_assign_sc rds u = bvec2_or_sc u (rds u) /\
  bvec2_xor_assign rd u = bvec2_xor u (rd u) /\
  bvec2_xor_assign_sc rds u = bvec2_xor_sc u (rds u).
Proof.
  intros.
  repeat split; cbv [bvec2_and_assign bvec2_and_assign_sc bvec2_or_assign bvec2_or_assign_sc bvec2_xor_assign bvec2_xor_assign_sc]; cbv zeta;
    try (destruct (rd u)); try (destruct (rds u)); destruct u; reflexivity.
Qed.

(** C02, bvec3. *)
Lemma C02_bvec3_assign_pf : forall (u : vec3 bool) (rd : vec3 bool -> vec3 bool) (rds : vec3 bool -> bool),
  bvec3_and_assign rd u = bvec3_and u (rd u) /\
  bvec3_and_assign_sc rds u = bvec3_and_sc u (rds u) /\
  bvec3_or_assign rd u = bvec3_or u (rd u) /\
  bvec3_or_assign_sc rds u = bvec3_or_sc u (rds u) /\
  bvec3_xor_assign rd u = bvec3_xor u (rd u) /\
  bvec3_xor_assign_sc rds u = bvec3_xor_sc u (rds u).
Proof.
  intros.
  repeat split; cbv [bvec3_and_assign bvec3_and_assign_sc bvec3_or_assign bvec3_or_assign_sc bvec3_xor_assign bvec3_xor_assign_sc]; cbv zeta;
    try (destruct (rd u)); try (destruct (rds u)); destruct u; reflexivity.
Qed.

(** C02, bvec4. *)
Lemma C02_bvec4_assign_pf : forall (u : vec4 bool) (rd : vec4 bool -> vec4 bool) (rds : vec4 bool -> bool),
  bvec4_and_assign rd u = bvec4_and u (rd u) /\
  bvec4_and_assign_sc rds u = bvec4_and_sc u (rds u) /\
  bvec4_or_assign rd u = bvec4_or u (rd u) /\
  bvec4_or_assign_sc rds u = bvec4_or_sc u (rds u) /\
  bvec4_xor_assign rd u = bvec4_xor u (rd u) /\
  bvec4_xor_assign_sc rds u = bvec4_xor_sc u (rds u).
Proof.
  intros.
  repeat split; cbv [bvec4_and_assign bvec4_and_assign_sc bvec4_or_assign bvec4_or_assign_sc bvec4_xor_assign bvec4_xor_assign_sc]; cbv zeta;
    try (destruct (rd u)); try (destruct (rds u)); destruct u; reflexivity.
Qed.

(** C02, quat: [+=], [-=], [*=] take the operand by reference; they agree with the
    binary operator both for an unrelated operand and for the object itself. *)
Lemma C02_quat_assign_pf : forall (S : Scalar) (q p : quat S) (rds : quat S -> S),
  quat_add_assign S (fun _ => p) q = quat_add S q p /\
  quat_add_assign S (fun s => s) q = quat_add S q q /\
  quat_sub_assign S (fun _ => p) q = quat_sub S q p /\
  quat_sub_assign S (fun s => s) q = quat_sub S q q /\
  quat_mul_assign S (fun _ => p) q = quat_mul S q p /\
  quat_mul_assign S (fun s => s) q = quat_mul S q q /\
  quat_mul_assign_sc S rds q = quat_mul_sc S q (rds q) /\
  quat_div_assign_sc S rds q = quat_div_sc S q (rds q).
Proof.
  intros; repeat split; unfold quat_mul_assign_sc, quat_div_assign_sc; cbv zeta; destruct q; reflexivity.
Qed.

(*PROPS
(** The by-reference form matters: with [-=] applied to the object itself every
    component is read before it is overwritten, e.g. over binary32: *)
Example C02_self_alias : let q := Quat (f32_ofZ 3) (f32_ofZ 4) (f32_ofZ 5) (f32_ofZ 6) in
  quat_sub_assign (F32 L0) (fun s => s) q = quat_sub (F32 L0) q q.
Proof. f32_eq. Qed.
Example C02_component_alias : let v := V3 (f32_ofZ 3) (f32_ofZ 4) (f32_ofZ 6) in
  vec3_mul_assign_sc (F32 L0) (fun s => x3 s) v = V3 (f32_ofZ 9) (f32_ofZ 12) (f32_ofZ 18).
Proof. f32_eq. Qed.

PROPS*)
(** C03, vec: constructors concatenate their arguments left to right. *)
Lemma C03_vec_constructors_pf : forall (S : Scalar) (a b c d : S) (k : Z) (u v : vec2 S) (t : vec3 S),
  l2 (vec2_default S) = repeat (slit 0 0) 2 /\
  l2 (vec2_f S a) = repeat a 2 /\
  l2 (vec2_i S k) = repeat (sofZ k) 2 /\
  l2 (vec2_xy S a b) = [a; b] /\
  l3 (vec3_default S) = repeat (slit 0 0) 3 /\
  l3 (vec3_f S a) = repeat a 3 /\
  l3 (vec3_i S k) = repeat (sofZ k) 3 /\
  l3 (vec3_xyz S a b c) = [a; b; c] /\
  l4 (vec4_default S) = repeat (slit 0 0) 4 /\
  l4 (vec4_f S a) = repeat a 4 /\
  l4 (vec4_i S k) = repeat (sofZ k) 4 /\
  l4 (vec4_xyzw S a b c d) = [a; b; c; d] /\
  l3 (vec3_v2f S u c) = l2 u ++ [c] /\
  l3 (vec3_fv2 S a u) = [a] ++ l2 u /\
  l4 (vec4_v3f S t d) = l3 t ++ [d] /\
  l4 (vec4_fv3 S a t) = [a] ++ l3 t /\
  l4 (vec4_v2v2 S u v) = l2 u ++ l2 v /\
  l4 (vec4_v2ff S u c d) = l2 u ++ [c; d] /\
  l4 (vec4_fv2f S a u d) = [a] ++ l2 u ++ [d] /\
  l4 (vec4_ffv2 S a b u) = [a; b] ++ l2 u.
Proof. triv. Qed.

(** C03, ivec: constructors concatenate their arguments left to right. *)
Lemma C03_ivec_constructors_pf : forall (a b c d : Z) (u v : vec2 Z) (t : vec3 Z),
  l2 (ivec2_default) = repeat (0%Z) 2 /\
  l2 (ivec2_i a) = repeat a 2 /\
  l2 (ivec2_xy a b) = [a; b] /\
  l3 (ivec3_default) = repeat (0%Z) 3 /\
  l3 (ivec3_i a) = repeat a 3 /\
  l3 (ivec3_xyz a b c) = [a; b; c] /\
  l4 (ivec4_default) = repeat (0%Z) 4 /\
  l4 (ivec4_i a) = repeat a 4 /\
  l4 (ivec4_xyzw a b c d) = [a; b; c; d] /\
  l3 (ivec3_v2i u c) = l2 u ++ [c] /\
  l3 (ivec3_iv2 a u) = [a] ++ l2 u /\
  l4 (ivec4_v3i t d) = l3 t ++ [d] /\
  l4 (ivec4_iv3 a t) = [a] ++ l3 t /\
  l4 (ivec4_v2v2 u v) = l2 u ++ l2 v /\
  l4 (ivec4_v2ii u c d) = l2 u ++ [c; d] /\
  l4 (ivec4_iv2i a u d) = [a] ++ l2 u ++ [d] /\
  l4 (ivec4_iiv2 a b u) = [a; b] ++ l2 u.
Proof. triv. Qed.

(** C03, bvec: constructors concatenate their arguments left to right. *)
Lemma C03_bvec_constructors_pf : forall (a b c d : bool) (u v : vec2 bool) (t : vec3 bool),
  l2 (bvec2_default) = repeat (false) 2 /\
  l2 (bvec2_b a) = repeat a 2 /\
  l2 (bvec2_xy a b) = [a; b] /\
  l3 (bvec3_default) = repeat (false) 3 /\
  l3 (bvec3_b a) = repeat a 3 /\
  l3 (bvec3_xyz a b c) = [a; b; c] /\
  l4 (bvec4_default) = repeat (false) 4 /\
  l4 (bvec4_b a) = repeat a 4 /\
  l4 (bvec4_xyzw a b c d) = [a; b; c; d] /\
  l3 (bvec3_v2b u c) = l2 u ++ [c] /\
  l3 (bvec3_bv2 a u) = [a] ++ l2 u /\
  l4 (bvec4_v3b t d) = l3 t ++ [d] /\
  l4 (bvec4_bv3 a t) = [a] ++ l3 t /\
  l4 (bvec4_v2v2 u v) = l2 u ++ l2 v /\
  l4 (bvec4_v2bb u c d) = l2 u ++ [c; d] /\
  l4 (bvec4_bv2b a u d) = [a] ++ l2 u ++ [d] /\
  l4 (bvec4_bbv2 a b u) = [a; b] ++ l2 u.
Proof. triv. Qed.

(** C03, quaternions: [w] comes first in the constructor and last in storage, the
    vector and scalar constructors agree whichever argument comes first. *)
Lemma C03_quat_constructors_pf : forall (S : Scalar) (w x y z : S) (v : vec3 S),
  lq (quat_default S) = [slit 0 0; slit 0 0; slit 0 0; slit 1 0] /\
  lq (quat_ctor S w x y z) = [x; y; z] ++ [w] /\
  lq (quat_wxyz S w x y z) = [x; y; z] ++ [w] /\
  lq (quat_sv S w v) = l3 v ++ [w] /\
  lq (quat_vs S v w) = l3 v ++ [w].
Proof. triv. Qed.

(** C03, matrices: the element constructor is column after column, the scalar
    constructor is the scaled identity. *)
Lemma C03_mat_constructors_pf : forall (S : Scalar) (s a b c d e f g h i j k l m n o p : S)
    (u2 v2 : vec2 S) (u3 v3 w3 : vec3 S) (u4 v4 w4 t4 : vec4 S),
  let z := slit 0 0 in
  lm2 (mat2_el S a b c d) = [a; b; c; d] /\
  lm3 (mat3_el S a b c d e f g h i) = [a; b; c; d; e; f; g; h; i] /\
  lm4 (mat4_el S a b c d e f g h i j k l m n o p) = [a; b; c; d; e; f; g; h; i; j; k; l; m; n; o; p] /\
  lm2 (mat2_cols S u2 v2) = l2 u2 ++ l2 v2 /\
  lm3 (mat3_cols S u3 v3 w3) = l3 u3 ++ l3 v3 ++ l3 w3 /\
  lm4 (mat4_cols S u4 v4 w4 t4) = l4 u4 ++ l4 v4 ++ l4 w4 ++ l4 t4 /\
  lm2 (mat2_f S s) = [s; z; z; s] /\
  lm3 (mat3_f S s) = [s; z; z; z; s; z; z; z; s] /\
  lm4 (mat4_f S s) = [s; z; z; z; z; s; z; z; z; z; s; z; z; z; z; s] /\
  mat2_default S = mat2_f S (slit 1 0) /\ mat3_default S = mat3_f S (slit 1 0) /\ mat4_default S = mat4_f S (slit 1 0).
Proof. triv. Qed.

Lemma N_cases (i : N) (n : nat) : (N.to_nat i < n)%nat -> exists k, (k < n)%nat /\ i = N.of_nat k.
Proof. intros; exists (N.to_nat i); split; [assumption | now rewrite N2Nat.id]. Qed.

Ltac in_range :=
  intros ? ? Hi; cbn [length l2 l3 l4 lq cm2 cm3 cm4] in Hi;
  destruct (N_cases _ _ Hi) as [k [Hk ->]];
  repeat (destruct k as [|k]; [ eexists; split; [reflexivity | match goal with b : build |- _ => destruct b end; reflexivity ] | try lia ]).
Ltac in_range_set :=
  intros ? v ? ? Hi; destruct v; cbn [length l2 l3 l4 lq cm2 cm3 cm4] in *;
  destruct (N_cases _ _ Hi) as [k [Hk ->]];
  repeat (destruct k as [|k]; [ eexists; split; [match goal with b : build |- _ => destruct b end; reflexivity | reflexivity] | try lia ]).
Ltac out_ub :=
  intros i Hi; cbn [length l2 l3 l4 lq cm2 cm3 cm4] in Hi;
  cbv [vec2_index vec3_index vec4_index ivec2_index ivec3_index ivec4_index
       mat2_index mat3_index mat4_index bvec2_index bvec3_index bvec4_index quat_index];
  cbn [cassert bind];
  repeat (match goal with |- context [N.eqb ?i ?k] =>
    let E := fresh in assert (E : N.eqb i k = false) by (apply N.eqb_neq; lia); rewrite E end);
  reflexivity.
Ltac out_guard :=
  intros i Hi; cbn [length l2 l3 l4 lq cm2 cm3 cm4] in Hi;
  cbv [vec2_index vec3_index vec4_index ivec2_index ivec3_index ivec4_index
       mat2_index mat3_index mat4_index bvec2_index bvec3_index bvec4_index quat_index];
  cbn [cassert];
  match goal with |- context [N.ltb ?i ?k] =>
    let E := fresh in assert (E : N.ltb i k = false) by (apply N.ltb_ge; lia); rewrite E end;
  reflexivity.

(** C05: an in-range read returns the component in storage order, in both builds. *)
Lemma C05_index_in_range_pf : forall (S : Scalar) (v2 : vec2 S) (v3 : vec3 S) (v4 : vec4 S) (i2 : vec2 Z) (i3 : vec3 Z) (i4 : vec4 Z) (b2 : vec2 bool) (b3 : vec3 bool) (b4 : vec4 bool) (q : quat S) (m2 : mat2 S) (m3 : mat3 S) (m4 : mat4 S),
  index_ok (fun b i => vec2_index S b v2 i) (l2 v2) /\
  index_ok (fun b i => vec3_index S b v3 i) (l3 v3) /\
  index_ok (fun b i => vec4_index S b v4 i) (l4 v4) /\
  index_ok (fun b i => ivec2_index b i2 i) (l2 i2) /\
  index_ok (fun b i => ivec3_index b i3 i) (l3 i3) /\
  index_ok (fun b i => ivec4_index b i4 i) (l4 i4) /\
  index_ok (fun b i => bvec2_index b b2 i) (l2 b2) /\
  index_ok (fun b i => bvec3_index b b3 i) (l3 b3) /\
  index_ok (fun b i => bvec4_index b b4 i) (l4 b4) /\
  index_ok (fun b i => quat_index S b q i) (lq q) /\
  index_ok (fun b i => mat2_index S b m2 i) (cm2 m2) /\
  index_ok (fun b i => mat3_index S b m3 i) (cm3 m3) /\
  index_ok (fun b i => mat4_index S b m4 i) (cm4 m4).
Proof. intros. repeat split; in_range. Qed.

(** C05: an in-range write replaces that component and nothing else, in both builds. *)
Lemma C05_index_write_pf : forall (S : Scalar),
  index_set_ok (vec2_index_set S) (@l2 S) /\
  index_set_ok (vec3_index_set S) (@l3 S) /\
  index_set_ok (vec4_index_set S) (@l4 S) /\
  index_set_ok (ivec2_index_set) (@l2 Z) /\
  index_set_ok (ivec3_index_set) (@l3 Z) /\
  index_set_ok (ivec4_index_set) (@l4 Z) /\
  index_set_ok (bvec2_index_set) (@l2 bool) /\
  index_set_ok (bvec3_index_set) (@l3 bool) /\
  index_set_ok (bvec4_index_set) (@l4 bool) /\
  index_set_ok (quat_index_set S) (@lq S) /\
  index_set_ok (mat2_index_set S) (@cm2 S) /\
  index_set_ok (mat3_index_set S) (@cm3 S) /\
  index_set_ok (mat4_index_set S) (@cm4 S).
Proof. intros. repeat split; in_range_set. Qed.

(** C05: the assertion stops every out-of-range index for these types. *)
Lemma C05_index_guarded_pf : forall (S : Scalar) (v2 : vec2 S) (v3 : vec3 S) (v4 : vec4 S) (i2 : vec2 Z) (i3 : vec3 Z) (i4 : vec4 Z) (b2 : vec2 bool) (b3 : vec3 bool) (b4 : vec4 bool) (q : quat S) (m2 : mat2 S) (m3 : mat3 S) (m4 : mat4 S),
  index_guarded (fun b i => vec3_index S b v3 i) (l3 v3) /\
  index_guarded (fun b i => vec4_index S b v4 i) (l4 v4) /\
  index_guarded (fun b i => ivec3_index b i3 i) (l3 i3) /\
  index_guarded (fun b i => ivec4_index b i4 i) (l4 i4) /\
  index_guarded (fun b i => bvec3_index b b3 i) (l3 b3) /\
  index_guarded (fun b i => bvec4_index b b4 i) (l4 b4) /\
  index_guarded (fun b i => quat_index S b q i) (lq q) /\
  index_guarded (fun b i => mat2_index S b m2 i) (cm2 m2) /\
  index_guarded (fun b i => mat3_index S b m3 i) (cm3 m3) /\
  index_guarded (fun b i => mat4_index S b m4 i) (cm4 m4).
Proof. intros. repeat split; out_guard. Qed.

(** C05: without the assertion an out-of-range index reads past the array. *)
Lemma C05_index_release_pf : forall (S : Scalar) (v2 : vec2 S) (v3 : vec3 S) (v4 : vec4 S) (i2 : vec2 Z) (i3 : vec3 Z) (i4 : vec4 Z) (b2 : vec2 bool) (b3 : vec3 bool) (b4 : vec4 bool) (q : quat S) (m2 : mat2 S) (m3 : mat3 S) (m4 : mat4 S),
  index_ub (fun b i => vec2_index S b v2 i) (l2 v2) /\
  index_ub (fun b i => vec3_index S b v3 i) (l3 v3) /\
  index_ub (fun b i => vec4_index S b v4 i) (l4 v4) /\
  index_ub (fun b i => ivec2_index b i2 i) (l2 i2) /\
  index_ub (fun b i => ivec3_index b i3 i) (l3 i3) /\
  index_ub (fun b i => ivec4_index b i4 i) (l4 i4) /\
  index_ub (fun b i => mat2_index S b m2 i) (cm2 m2) /\
  index_ub (fun b i => mat3_index S b m3 i) (cm3 m3) /\
  index_ub (fun b i => mat4_index S b m4 i) (cm4 m4).
Proof. intros. repeat split; out_ub. Qed.

(** C05: quat and bvec map every larger index to the last member when the assertion
    is compiled out. *)
Lemma C05_index_clamped_pf : forall (S : Scalar) (q : quat S) (b2 : vec2 bool) (b3 : vec3 bool) (b4 : vec4 bool) (i : N),
  ((4 <= i)%N -> quat_index S Release q i = Ret (qw q)) /\
  ((2 <= i)%N -> bvec2_index Release b2 i = Ret (y2 b2)) /\
  ((3 <= i)%N -> bvec3_index Release b3 i = Ret (z3 b3)) /\
  ((4 <= i)%N -> bvec4_index Release b4 i = Ret (w4 b4)).
Proof.
  intros; repeat split; intros;
    cbv [quat_index bvec2_index bvec3_index bvec4_index]; cbn [cassert bind];
    repeat (match goal with |- context [N.eqb ?i ?k] =>
      let E := fresh in assert (E : N.eqb i k = false) by (apply N.eqb_neq; lia); rewrite E end);
    reflexivity.
Qed.

(** C05 is violated by the dimension-2 types: index 2 passes the assertion although
    there is no such component.  vec2 and ivec2 then read past the object, bvec2
    returns y. *)
Lemma C05_dim2_guard_refuted_pf :
  (exists v : vec2 f32, ~ index_guarded (fun b i => vec2_index (F32 L0) b v i) (l2 v)) /\
  (forall (S : Scalar) (v : vec2 S), vec2_index S Debug v 2 = Undefined) /\
  (forall v : vec2 Z, ivec2_index Debug v 2 = Undefined) /\
  (forall v : vec2 bool, bvec2_index Debug v 2 = Ret (y2 v)).
Proof.
  repeat split; intros; try reflexivity.
  exists (V2 (f32_ofZ 0) (f32_ofZ 0)). intros H. specialize (H 2%N (le_n _)). discriminate H.
Qed.

(*PROPS
Example C05_read : vec3_index (F32 L0) Debug (V3 (f32_ofZ 1) (f32_ofZ 2) (f32_ofZ 3)) 2 = Ret (f32_ofZ 3).
Proof. reflexivity. Qed.
Example C05_trap : vec3_index (F32 L0) Debug (V3 (f32_ofZ 1) (f32_ofZ 2) (f32_ofZ 3)) 7 = AssertFail.
Proof. reflexivity. Qed.

PROPS*)
(** C06, vec2: reading gives the [i]-th component; every scalar write through a
    component accessor replaces the [i]-th component only, whatever the right-hand
    side reads from the vector itself. *)
Lemma C06_vec2_accessor_pf : forall (S : Scalar) (i : nat) (rd : vec2 S -> S) (v : vec2 S), (i < 2)%nat ->
  nth_error (l2 v) i = Some (acc2_get i v) /\
  l2 (acc2_set i rd v) = upd (l2 v) i (rd v) /\
  l2 (acc2_add_assign S i rd v) = upd (l2 v) i (sadd (acc2_get i v) (rd v)) /\
  l2 (acc2_sub_assign S i rd v) = upd (l2 v) i (ssub (acc2_get i v) (rd v)) /\
  l2 (acc2_mul_assign S i rd v) = upd (l2 v) i (smul (acc2_get i v) (rd v)) /\
  l2 (acc2_div_assign S i rd v) = upd (l2 v) i (sdiv (acc2_get i v) (rd v)) /\
  l2 (fst (acc2_preinc S i v)) = upd (l2 v) i (sadd (acc2_get i v) (slit 1 0)) /\
  snd (acc2_preinc S i v) = (sadd (acc2_get i v) (slit 1 0)) /\
  l2 (fst (acc2_postinc S i v)) = upd (l2 v) i (sadd (acc2_get i v) (slit 1 0)) /\
  snd (acc2_postinc S i v) = acc2_get i v /\
  l2 (fst (acc2_predec S i v)) = upd (l2 v) i (ssub (acc2_get i v) (slit 1 0)) /\
  snd (acc2_predec S i v) = (ssub (acc2_get i v) (slit 1 0)) /\
  l2 (fst (acc2_postdec S i v)) = upd (l2 v) i (ssub (acc2_get i v) (slit 1 0)) /\
  snd (acc2_postdec S i v) = acc2_get i v.
Proof.
  intros S i rd v Hi. destruct v.
  do 2 (destruct i as [|i]; [ repeat split; reflexivity | ]). lia.
Qed.

(** C06, ivec2: the same, undefined exactly when the int operation is. *)
Lemma C06_ivec2_accessor_pf : forall (i : nat) (rd : vec2 Z -> Z) (v : vec2 Z), (i < 2)%nat ->
  omap l2 (iacc2_add_assign i rd v) = omap (upd (l2 v) i) (i32_add (acc2_get i v) (rd v)) /\
  omap l2 (iacc2_sub_assign i rd v) = omap (upd (l2 v) i) (i32_sub (acc2_get i v) (rd v)) /\
  omap l2 (iacc2_mul_assign i rd v) = omap (upd (l2 v) i) (i32_mul (acc2_get i v) (rd v)) /\
  omap l2 (iacc2_div_assign i rd v) = omap (upd (l2 v) i) (i32_div (acc2_get i v) (rd v)) /\
  omap l2 (iacc2_rem_assign i rd v) = omap (upd (l2 v) i) (i32_rem (acc2_get i v) (rd v)) /\
  omap l2 (iacc2_or_assign i rd v) = omap (upd (l2 v) i) (i32_or (acc2_get i v) (rd v)) /\
  omap l2 (iacc2_and_assign i rd v) = omap (upd (l2 v) i) (i32_and (acc2_get i v) (rd v)) /\
  omap l2 (iacc2_xor_assign i rd v) = omap (upd (l2 v) i) (i32_xor (acc2_get i v) (rd v)) /\
  omap l2 (iacc2_shr_assign i rd v) = omap (upd (l2 v) i) (i32_shr (acc2_get i v) (rd v)) /\
  omap l2 (iacc2_shl_assign i rd v) = omap (upd (l2 v) i) (i32_shl (acc2_get i v) (rd v)) /\
  omap (fun r => l2 (fst r)) (iacc2_preinc i v) = omap (upd (l2 v) i) (i32_add (acc2_get i v) 1) /\
  omap snd (iacc2_preinc i v) = (i32_add (acc2_get i v) 1) /\
  omap (fun r => l2 (fst r)) (iacc2_postinc i v) = omap (upd (l2 v) i) (i32_add (acc2_get i v) 1) /\
  (forall r, iacc2_postinc i v = Ret r -> snd r = acc2_get i v) /\
  omap (fun r => l2 (fst r)) (iacc2_predec i v) = omap (upd (l2 v) i) (i32_sub (acc2_get i v) 1) /\
  omap snd (iacc2_predec i v) = (i32_sub (acc2_get i v) 1) /\
  omap (fun r => l2 (fst r)) (iacc2_postdec i v) = omap (upd (l2 v) i) (i32_sub (acc2_get i v) 1) /\
  (forall r, iacc2_postdec i v = Ret r -> snd r = acc2_get i v).
Proof.
  intros i rd v Hi.
  repeat split; intros;
    cbv [iacc2_add_assign iacc2_sub_assign iacc2_mul_assign iacc2_div_assign iacc2_rem_assign iacc2_or_assign iacc2_and_assign iacc2_xor_assign iacc2_shr_assign iacc2_shl_assign iacc2_preinc iacc2_postinc iacc2_predec iacc2_postdec acc2_get] in *;
    do 2 (destruct i as [|i]; [ destruct v as [a0 a1]; cbn [el2 x2 y2  ] in *;
      repeat match goal with
      | |- context [bind ?m _] => destruct m eqn:?; cbn [bind omap] in *
      | H : bind ?m _ = Ret _ |- _ => destruct m eqn:?; cbn [bind] in *; try discriminate H
      end;
      try match goal with H : Ret _ = Ret _ |- _ => injection H as <- end; reflexivity | ]); lia.
Qed.

(** C06, vec3: reading gives the [i]-th component; every scalar write through a
    component accessor replaces the [i]-th component only, whatever the right-hand
    side reads from the vector itself. *)
Lemma C06_vec3_accessor_pf : forall (S : Scalar) (i : nat) (rd : vec3 S -> S) (v : vec3 S), (i < 3)%nat ->
  nth_error (l3 v) i = Some (acc3_get i v) /\
  l3 (acc3_set i rd v) = upd (l3 v) i (rd v) /\
  l3 (acc3_add_assign S i rd v) = upd (l3 v) i (sadd (acc3_get i v) (rd v)) /\
  l3 (acc3_sub_assign S i rd v) = upd (l3 v) i (ssub (acc3_get i v) (rd v)) /\
  l3 (acc3_mul_assign S i rd v) = upd (l3 v) i (smul (acc3_get i v) (rd v)) /\
  l3 (acc3_div_assign S i rd v) = upd (l3 v) i (sdiv (acc3_get i v) (rd v)) /\
  l3 (fst (acc3_preinc S i v)) = upd (l3 v) i (sadd (acc3_get i v) (slit 1 0)) /\
  snd (acc3_preinc S i v) = (sadd (acc3_get i v) (slit 1 0)) /\
  l3 (fst (acc3_postinc S i v)) = upd (l3 v) i (sadd (acc3_get i v) (slit 1 0)) /\
  snd (acc3_postinc S i v) = acc3_get i v /\
  l3 (fst (acc3_predec S i v)) = upd (l3 v) i (ssub (acc3_get i v) (slit 1 0)) /\
  snd (acc3_predec S i v) = (ssub (acc3_get i v) (slit 1 0)) /\
  l3 (fst (acc3_postdec S i v)) = upd (l3 v) i (ssub (acc3_get i v) (slit 1 0)) /\
  snd (acc3_postdec S i v) = acc3_get i v.
Proof.
  intros S i rd v Hi. destruct v.
  do 3 (destruct i as [|i]; [ repeat split; reflexivity | ]). lia.
Qed.

(** C06, ivec3: the same, undefined exactly when the int operation is. *)
Lemma C06_ivec3_accessor_pf : forall (i : nat) (rd : vec3 Z -> Z) (v : vec3 Z), (i < 3)%nat ->
  omap l3 (iacc3_add_assign i rd v) = omap (upd (l3 v) i) (i32_add (acc3_get i v) (rd v)) /\
  omap l3 (iacc3_sub_assign i rd v) = omap (upd (l3 v) i) (i32_sub (acc3_get i v) (rd v)) /\
  omap l3 (iacc3_mul_assign i rd v) = omap (upd (l3 v) i) (i32_mul (acc3_get i v) (rd v)) /\
  omap l3 (iacc3_div_assign i rd v) = omap (upd (l3 v) i) (i32_div (acc3_get i v) (rd v)) /\
  omap l3 (iacc3_rem_assign i rd v) = omap (upd (l3 v) i) (i32_rem (acc3_get i v) (rd v)) /\
  omap l3 (iacc3_or_assign i rd v) = omap (upd (l3 v) i) (i32_or (acc3_get i v) (rd v)) /\
  omap l3 (iacc3_and_assign i rd v) = omap (upd (l3 v) i) (i32_and (acc3_get i v) (rd v)) /\
  omap l3 (iacc3_xor_assign i rd v) = omap (upd (l3 v) i) (i32_xor (acc3_get i v) (rd v)) /\
  omap l3 (iacc3_shr_assign i rd v) = omap (upd (l3 v) i) (i32_shr (acc3_get i v) (rd v)) /\
  omap l3 (iacc3_shl_assign i rd v) = omap (upd (l3 v) i) (i32_shl (acc3_get i v) (rd v)) /\
  omap (fun r => l3 (fst r)) (iacc3_preinc i v) = omap (upd (l3 v) i) (i32_add (acc3_get i v) 1) /\
  omap snd (iacc3_preinc i v) = (i32_add (acc3_get i v) 1) /\
  omap (fun r => l3 (fst r)) (iacc3_postinc i v) = omap (upd (l3 v) i) (i32_add (acc3_get i v) 1) /\
  (forall r, iacc3_postinc i v = Ret r -> snd r = acc3_get i v) /\
  omap (fun r => l3 (fst r)) (iacc3_predec i v) = omap (upd (l3 v) i) (i32_sub (acc3_get i v) 1) /\
  omap snd (iacc3_predec i v) = (i32_sub (acc3_get i v) 1) /\
  omap (fun r => l3 (fst r)) (iacc3_postdec i v) = omap (upd (l3 v) i) (i32_sub (acc3_get i v) 1) /\
  (forall r, iacc3_postdec i v = Ret r -> snd r = acc3_get i v).
Proof.
  intros i rd v Hi.
  repeat split; intros;
    cbv [iacc3_add_assign iacc3_sub_assign iacc3_mul_assign iacc3_div_assign iacc3_rem_assign iacc3_or_assign iacc3_and_assign iacc3_xor_assign iacc3_shr_assign iacc3_shl_assign iacc3_preinc iacc3_postinc iacc3_predec iacc3_postdec acc3_get] in *;
    do 3 (destruct i as [|i]; [ destruct v as [a0 a1 a2]; cbn [el3 x3 y3 z3 ] in *;
      repeat match goal with
      | |- context [bind ?m _] => destruct m eqn:?; cbn [bind omap] in *
      | H : bind ?m _ = Ret _ |- _ => destruct m eqn:?; cbn [bind] in *; try discriminate H
      end;
      try match goal with H : Ret _ = Ret _ |- _ => injection H as <- end; reflexivity | ]); lia.
Qed.

(** C06, vec4: reading gives the [i]-th component; every scalar write through a
    component accessor replaces the [i]-th component only, whatever the right-hand
    side reads from the vector itself. *)
Lemma C06_vec4_accessor_pf : forall (S : Scalar) (i : nat) (rd : vec4 S -> S) (v : vec4 S), (i < 4)%nat ->
  nth_error (l4 v) i = Some (acc4_get i v) /\
  l4 (acc4_set i rd v) = upd (l4 v) i (rd v) /\
  l4 (acc4_add_assign S i rd v) = upd (l4 v) i (sadd (acc4_get i v) (rd v)) /\
  l4 (acc4_sub_assign S i rd v) = upd (l4 v) i (ssub (acc4_get i v) (rd v)) /\
  l4 (acc4_mul_assign S i rd v) = upd (l4 v) i (smul (acc4_get i v) (rd v)) /\
  l4 (acc4_div_assign S i rd v) = upd (l4 v) i (sdiv (acc4_get i v) (rd v)) /\
  l4 (fst (acc4_preinc S i v)) = upd (l4 v) i (sadd (acc4_get i v) (slit 1 0)) /\
  snd (acc4_preinc S i v) = (sadd (acc4_get i v) (slit 1 0)) /\
  l4 (fst (acc4_postinc S i v)) = upd (l4 v) i (sadd (acc4_get i v) (slit 1 0)) /\
  snd (acc4_postinc S i v) = acc4_get i v /\
  l4 (fst (acc4_predec S i v)) = upd (l4 v) i (ssub (acc4_get i v) (slit 1 0)) /\
  snd (acc4_predec S i v) = (ssub (acc4_get i v) (slit 1 0)) /\
  l4 (fst (acc4_postdec S i v)) = upd (l4 v) i (ssub (acc4_get i v) (slit 1 0)) /\
  snd (acc4_postdec S i v) = acc4_get i v.
Proof.
  intros S i rd v Hi. destruct v.
  do 4 (destruct i as [|i]; [ repeat split; reflexivity | ]). lia.
Qed.

(** C06, ivec4: the same, undefined exactly when the int operation is. *)
Lemma C06_ivec4_accessor_pf : forall (i : nat) (rd : vec4 Z -> Z) (v : vec4 Z), (i < 4)%nat ->
  omap l4 (iacc4_add_assign i rd v) = omap (upd (l4 v) i) (i32_add (acc4_get i v) (rd v)) /\
  omap l4 (iacc4_sub_assign i rd v) = omap (upd (l4 v) i) (i32_sub (acc4_get i v) (rd v)) /\
  omap l4 (iacc4_mul_assign i rd v) = omap (upd (l4 v) i) (i32_mul (acc4_get i v) (rd v)) /\
  omap l4 (iacc4_div_assign i rd v) = omap (upd (l4 v) i) (i32_div (acc4_get i v) (rd v)) /\
  omap l4 (iacc4_rem_assign i rd v) = omap (upd (l4 v) i) (i32_rem (acc4_get i v) (rd v)) /\
  omap l4 (iacc4_or_assign i rd v) = omap (upd (l4 v) i) (i32_or (acc4_get i v) (rd v)) /\
  omap l4 (iacc4_and_assign i rd v) = omap (upd (l4 v) i) (i32_and (acc4_get i v) (rd v)) /\
  omap l4 (iacc4_xor_assign i rd v) = omap (upd (l4 v) i) (i32_xor (acc4_get i v) (rd v)) /\
  omap l4 (iacc4_shr_assign i rd v) = omap (upd (l4 v) i) (i32_shr (acc4_get i v) (rd v)) /\
  omap l4 (iacc4_shl_assign i rd v) = omap (upd (l4 v) i) (i32_shl (acc4_get i v) (rd v)) /\
  omap (fun r => l4 (fst r)) (iacc4_preinc i v) = omap (upd (l4 v) i) (i32_add (acc4_get i v) 1) /\
  omap snd (iacc4_preinc i v) = (i32_add (acc4_get i v) 1) /\
  omap (fun r => l4 (fst r)) (iacc4_postinc i v) = omap (upd (l4 v) i) (i32_add (acc4_get i v) 1) /\
  (forall r, iacc4_postinc i v = Ret r -> snd r = acc4_get i v) /\
  omap (fun r => l4 (fst r)) (iacc4_predec i v) = omap (upd (l4 v) i) (i32_sub (acc4_get i v) 1) /\
  omap snd (iacc4_predec i v) = (i32_sub (acc4_get i v) 1) /\
  omap (fun r => l4 (fst r)) (iacc4_postdec i v) = omap (upd (l4 v) i) (i32_sub (acc4_get i v) 1) /\
  (forall r, iacc4_postdec i v = Ret r -> snd r = acc4_get i v).
Proof.
  intros i rd v Hi.
  repeat split; intros;
    cbv [iacc4_add_assign iacc4_sub_assign iacc4_mul_assign iacc4_div_assign iacc4_rem_assign iacc4_or_assign iacc4_and_assign iacc4_xor_assign iacc4_shr_assign iacc4_shl_assign iacc4_preinc iacc4_postinc iacc4_predec iacc4_postdec acc4_get] in *;
    do 4 (destruct i as [|i]; [ destruct v as [a0 a1 a2 a3]; cbn [el4 x4 y4 z4 w4] in *;
      repeat match goal with
      | |- context [bind ?m _] => destruct m eqn:?; cbn [bind omap] in *
      | H : bind ?m _ = Ret _ |- _ => destruct m eqn:?; cbn [bind] in *; try discriminate H
      end;
      try match goal with H : Ret _ = Ret _ |- _ => injection H as <- end; reflexivity | ]); lia.
Qed.

(** C06: the copy assignment of an accessor type ([u.x = v.x], same member name or
    same index) transfers every component. *)
Lemma C06_same_accessor_copies_all_pf : forall (A : Type) (a2 b2 : vec2 A) (a3 b3 : vec3 A) (a4 b4 : vec4 A),
  l2 (acc2_copy b2 a2) = l2 b2 /\ l3 (acc3_copy b3 a3) = l3 b3 /\ l4 (acc4_copy b4 a4) = l4 b4.
Proof. triv. Qed.

(** C06 is violated by that form: it is not the single-component update. *)
Lemma C06_same_accessor_refuted_pf :
  exists (u v : vec3 f32) (i : nat), (i < 3)%nat /\ l3 (acc3_copy v u) <> upd (l3 u) i (acc3_get i v).
Proof.
  exists (V3 (f32_ofZ 1) (f32_ofZ 2) (f32_ofZ 3)), (V3 (f32_ofZ 7) (f32_ofZ 8) (f32_ofZ 9)), 0%nat.
  split; [lia | f32_neq].
Qed.

(*PROPS
Example C06_frame : acc3_set 1 (fun v => x3 v) (V3 7%Z 8%Z 9%Z) = V3 7%Z 7%Z 9%Z.
Proof. reflexivity. Qed.

PROPS*)
(** C08: the storage holds the components in index order, matrices column by column. *)
Lemma C08_value_ptr_layout_pf : forall (A : Type) (v2 : vec2 A) (v3 : vec3 A) (v4 : vec4 A) (q : quat A) (m2 : mat2 A) (m3 : mat3 A) (m4 : mat4 A),
  value_ptr_vec2 v2 = Some (l2 v2) /\
  value_ptr_vec3 v3 = Some (l3 v3) /\
  value_ptr_vec4 v4 = Some (l4 v4) /\
  value_ptr_quat q = Some (lq q) /\
  value_ptr_mat2 m2 = Some (lm2 m2) /\
  value_ptr_mat3 m3 = Some (lm3 m3) /\
  value_ptr_mat4 m4 = Some (lm4 m4).
Proof. triv. Qed.

(** C08: reading the storage back rebuilds the value, whatever follows it in memory. *)
Lemma C08_make_round_trip_pf : forall (S : Scalar) (b : build) (rest : list S) (restz : list Z) (restb : list bool)
    (v2 : vec2 S) (v3 : vec3 S) (v4 : vec4 S) (q : quat S) (m2 : mat2 S) (m3 : mat3 S) (m4 : mat4 S)
    (i2 : vec2 Z) (i3 : vec3 Z) (i4 : vec4 Z) (b2 : vec2 bool) (b3 : vec3 bool) (b4 : vec4 bool),
  make_vec2 S b (Some (l2 v2 ++ rest)) = Ret v2 /\
  make_vec3 S b (Some (l3 v3 ++ rest)) = Ret v3 /\
  make_vec4 S b (Some (l4 v4 ++ rest)) = Ret v4 /\
  make_quat S b (Some (lq q ++ rest)) = Ret q /\
  make_mat2 S b (Some (lm2 m2 ++ rest)) = Ret m2 /\
  make_mat3 S b (Some (lm3 m3 ++ rest)) = Ret m3 /\
  make_mat4 S b (Some (lm4 m4 ++ rest)) = Ret m4 /\
  make_ivec2 b (Some (l2 i2 ++ restz)) = Ret i2 /\
  make_ivec3 b (Some (l3 i3 ++ restz)) = Ret i3 /\
  make_ivec4 b (Some (l4 i4 ++ restz)) = Ret i4 /\
  make_bvec2 b (Some (l2 b2 ++ restb)) = Ret b2 /\
  make_bvec3 b (Some (l3 b3 ++ restb)) = Ret b3 /\
  make_bvec4 b (Some (l4 b4 ++ restb)) = Ret b4.
Proof. intros; dv; destruct b; repeat split; reflexivity. Qed.

Lemma nth_error_short {A} (l : list A) n : (length l <= n)%nat -> nth_error l n = None.
Proof. intros; now apply nth_error_None. Qed.

(** C08: every element is really read: a buffer shorter than the value is an
    out-of-bounds read; a null pointer trips the assertion or is dereferenced. *)
Lemma C08_make_bounds_pf : forall (S : Scalar) (b : build) (l : list S) (lz : list Z) (lb : list bool),
  ((length l < 2)%nat -> make_vec2 S b (Some l) = Undefined) /\
  ((length l < 3)%nat -> make_vec3 S b (Some l) = Undefined) /\
  ((length l < 4)%nat -> make_vec4 S b (Some l) = Undefined) /\
  ((length l < 4)%nat -> make_quat S b (Some l) = Undefined) /\
  ((length l < 4)%nat -> make_mat2 S b (Some l) = Undefined) /\
  ((length l < 9)%nat -> make_mat3 S b (Some l) = Undefined) /\
  ((length l < 16)%nat -> make_mat4 S b (Some l) = Undefined) /\
  ((length lz < 2)%nat -> make_ivec2 b (Some lz) = Undefined) /\
  ((length lz < 3)%nat -> make_ivec3 b (Some lz) = Undefined) /\
  ((length lz < 4)%nat -> make_ivec4 b (Some lz) = Undefined) /\
  ((length lb < 2)%nat -> make_bvec2 b (Some lb) = Undefined) /\
  ((length lb < 3)%nat -> make_bvec3 b (Some lb) = Undefined) /\
  ((length lb < 4)%nat -> make_bvec4 b (Some lb) = Undefined) /\
  (make_vec2 S b None = match b with Debug => AssertFail | Release => Undefined end) /\
  (make_vec3 S b None = match b with Debug => AssertFail | Release => Undefined end) /\
  (make_vec4 S b None = match b with Debug => AssertFail | Release => Undefined end) /\
  (make_quat S b None = match b with Debug => AssertFail | Release => Undefined end) /\
  (make_mat2 S b None = match b with Debug => AssertFail | Release => Undefined end) /\
  (make_mat3 S b None = match b with Debug => AssertFail | Release => Undefined end) /\
  (make_mat4 S b None = match b with Debug => AssertFail | Release => Undefined end).
Proof.
  intros; repeat split; try (destruct b; reflexivity); intros;
    repeat (match goal with l : list _ |- _ => destruct l as [|? l]; [destruct b; reflexivity|] end; cbn [length] in * );
    try (destruct b; reflexivity); cbn in *; lia.
Qed.

(*PROPS
Example C08_ex : make_mat2 (F32 L0) Debug (Some [f32_ofZ 1; f32_ofZ 2; f32_ofZ 3; f32_ofZ 4; f32_ofZ 5]) =
  Ret (M2 (V2 (f32_ofZ 1) (f32_ofZ 2)) (V2 (f32_ofZ 3) (f32_ofZ 4))).
Proof. cbn. reflexivity. Qed.
PROPS*)