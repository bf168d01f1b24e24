(** * Proofs: the source and the model agree on every function *)
From Coq Require Import ZArith NArith Bool List String Lia.
From Verif Require Import Scalar Outcome Types Int32 Cpp CppNames CppCode1 CppCode2 CppCode3 CppProgram CppModel SpecCpp CppTac CppCong.
From Verif Require Import CppAgree1 CppAgree2 CppAgree3 CppAgree4.
Import ListNotations.
Local Open Scope string_scope.

Lemma decompose_tail : forall S b m a1 a2 a3 b1 b2 b3 c1 c2 c3 s q1 q2 q3 q4 t,
  exec S fn b (fun g => f_sig (code g)) (model S b) (rest_stmts fn 10 (f_body c_decompose_orthogonal_mat4_vec3_quat_vec3))
    [("Row", BVal S (Arr [Obj Cvec3 [VF a1; VF a2; VF a3]; Obj Cvec3 [VF b1; VF b2; VF b3]; Obj Cvec3 [VF c1; VF c2; VF c3]]));
     ("model_mat", BVal S m); ("scale", BVal S s); ("orientation", BVal S (Obj Cquat [VF q1; VF q2; VF q3; VF q4])); ("translation", BVal S t)]
    (leave S fn c_decompose_orthogonal_mat4_vec3_quat_vec3) =
  Ret (Void, [s; eQ S (ModelTransform.orientation_of S (M3 (V3 a1 a2 a3) (V3 b1 b2 b3) (V3 c1 c2 c3))); t]).
Proof.
  intros.
  assert (E : exists R, ModelTransform.orientation_of S (M3 (V3 a1 a2 a3) (V3 b1 b2 b3) (V3 c1 c2 c3)) = R) by (eexists; reflexivity).
  destruct E as [R E]. rewrite E. destruct b; go.
  - unfold ModelTransform.orientation_of in E. cbn [col3 x3 y3 z3 m3c0 m3c1 m3c2] in E. unfold sgt in E.
    match goal with |- (if ?c then _ else _) = _ => destruct c end.
    + rewrite <- E. reflexivity.
    + match goal with |- (if ?c then _ else _) = _ => destruct c end; cbv [at3 el3 col3 x3 y3 z3 m3c0 m3c1 m3c2] in E.
     * match goal with |- (if ?c then _ else _) = _ => destruct c end; rewrite <- E; reflexivity.
     * match goal with |- (if ?c then _ else _) = _ => destruct c end; rewrite <- E; reflexivity.
  - unfold ModelTransform.orientation_of in E. cbn [col3 x3 y3 z3 m3c0 m3c1 m3c2] in E. unfold sgt in E.
    match goal with |- (if ?c then _ else _) = _ => destruct c end.
    + rewrite <- E. reflexivity.
    + match goal with |- (if ?c then _ else _) = _ => destruct c end; cbv [at3 el3 col3 x3 y3 z3 m3c0 m3c1 m3c2] in E.
     * match goal with |- (if ?c then _ else _) = _ => destruct c end; rewrite <- E; reflexivity.
     * match goal with |- (if ?c then _ else _) = _ => destruct c end; rewrite <- E; reflexivity.
Qed.

Lemma ag_decompose_orthogonal_mat4_vec3_quat_vec3 : agrees decompose_orthogonal_mat4_vec3_quat_vec3.
Proof.
  start c_decompose_orthogonal_mat4_vec3_quat_vec3.
  all: unfold run_fun; change (code decompose_orthogonal_mat4_vec3_quat_vec3) with c_decompose_orthogonal_mat4_vec3_quat_vec3; rewrite (exec_split 10);
  match goal with |- exec _ _ ?b ?sg ?c _ ?en ?k = _ =>
   pose proof (decompose_tail S b) as HT;
   set (T := exec S fn b sg c (rest_stmts fn 10 (f_body c_decompose_orthogonal_mat4_vec3_quat_vec3))) in *; clearbody T; set (K := leave S fn c_decompose_orthogonal_mat4_vec3_quat_vec3) in *; clearbody K end;
  unfold model; unfold on, on0; cbv [dM4 dV4 dV3 dQ]; unfold ModelTransform.decompose_orthogonal;
  lazymatch goal with |- _ = ?r => set (R := r) end;
  cbv -[slit sofZ sadd ssub smul sdiv sneg slt sle seq ssqrt ModelGeom.length3 ModelGeom.dot3 R];
  subst R;
  cbv [at4 at3 col4 col3 el4 el3 Types.x4 Types.y4 Types.z4 Types.w4 Types.x3 Types.y3 Types.z3 m4c0 m4c1 m4c2 m4c3 ModelVec.vec3_div_assign_sc ModelVec.vec3_mul_assign_sc ModelVec.IMPL_V3_COMPOUND_SC_OP set3 ModelGeom.cross];
  match goal with |- (if ?c then _ else _) = _ => destruct c eqn:E end; rewrite HT;
  match type of E with ?c = _ =>
    match goal with |- context [if ?c' then _ else _] => change c' with c end end; rewrite E; reflexivity.
Qed.

Lemma decompose_tail_shared : forall S b m a1 a2 a3 b1 b2 b3 c1 c2 c3 s q1 q2 q3 q4,
  exec S fn b (fun g => f_sig (code g)) (model S b) (rest_stmts fn 10 (f_body c_decompose_orthogonal_mat4_vec3_quat_vec3))
    [("Row", BVal S (Arr [Obj Cvec3 [VF a1; VF a2; VF a3]; Obj Cvec3 [VF b1; VF b2; VF b3]; Obj Cvec3 [VF c1; VF c2; VF c3]]));
     ("model_mat", BVal S m); ("scale", BVal S s); ("orientation", BVal S (Obj Cquat [VF q1; VF q2; VF q3; VF q4])); ("translation", BRef S "scale" [])]
    (leave S fn c_decompose_orthogonal_mat4_vec3_quat_vec3) =
  Ret (Void, [s; eQ S (ModelTransform.orientation_of S (M3 (V3 a1 a2 a3) (V3 b1 b2 b3) (V3 c1 c2 c3))); s]).
Proof.
  intros.
  assert (E : exists R, ModelTransform.orientation_of S (M3 (V3 a1 a2 a3) (V3 b1 b2 b3) (V3 c1 c2 c3)) = R) by (eexists; reflexivity).
  destruct E as [R E]. rewrite E. destruct b; go.
  - unfold ModelTransform.orientation_of in E. cbn [col3 x3 y3 z3 m3c0 m3c1 m3c2] in E. unfold sgt in E.
    match goal with |- (if ?c then _ else _) = _ => destruct c end.
    + rewrite <- E. reflexivity.
    + match goal with |- (if ?c then _ else _) = _ => destruct c end; cbv [at3 el3 col3 x3 y3 z3 m3c0 m3c1 m3c2] in E.
     * match goal with |- (if ?c then _ else _) = _ => destruct c end; rewrite <- E; reflexivity.
     * match goal with |- (if ?c then _ else _) = _ => destruct c end; rewrite <- E; reflexivity.
  - unfold ModelTransform.orientation_of in E. cbn [col3 x3 y3 z3 m3c0 m3c1 m3c2] in E. unfold sgt in E.
    match goal with |- (if ?c then _ else _) = _ => destruct c end.
    + rewrite <- E. reflexivity.
    + match goal with |- (if ?c then _ else _) = _ => destruct c end; cbv [at3 el3 col3 x3 y3 z3 m3c0 m3c1 m3c2] in E.
     * match goal with |- (if ?c then _ else _) = _ => destruct c end; rewrite <- E; reflexivity.
     * match goal with |- (if ?c then _ else _) = _ => destruct c end; rewrite <- E; reflexivity.
Qed.

Lemma shared_decompose : forall S b m s q t, has_ty (Tcls Cmat4) m = true -> has_ty (Tcls Cvec3) s = true -> has_ty (Tcls Cquat) q = true ->
  has_ty (Tcls Cvec3) t = true ->
  run_bound S fn b (fun g => f_sig (code g)) (model S b) (code decompose_orthogonal_mat4_vec3_quat_vec3)
    [BVal S m; BVal S s; BVal S q; BRef S "scale" []] =
  match model S b decompose_orthogonal_mat4_vec3_quat_vec3 [m; s; q; t] with
  | Ret (v, [s; q; t]) => Ret (v, [s; q; s])
  | _ => Undefined
  end.
Proof.
  intros S b m s q t H1 H2 H3 H4. splitv H1. splitv H2. splitv H3. splitv H4. destruct b.
  all: unfold run_bound; change (code decompose_orthogonal_mat4_vec3_quat_vec3) with c_decompose_orthogonal_mat4_vec3_quat_vec3; rewrite (exec_split 10);
  match goal with |- exec _ _ ?b ?sg ?c _ ?en ?k = _ =>
   pose proof (decompose_tail_shared S b) as HT;
   set (T := exec S fn b sg c (rest_stmts fn 10 (f_body c_decompose_orthogonal_mat4_vec3_quat_vec3))) in *; clearbody T; set (K := leave S fn c_decompose_orthogonal_mat4_vec3_quat_vec3) in *; clearbody K end;
  unfold model; unfold on, on0; cbv [dM4 dV4 dV3 dQ]; unfold ModelTransform.decompose_orthogonal;
  lazymatch goal with |- _ = ?r => set (R := r) end;
  cbv -[slit sofZ sadd ssub smul sdiv sneg slt sle seq ssqrt ModelGeom.length3 ModelGeom.dot3 R];
  subst R;
  cbv [at4 at3 col4 col3 el4 el3 Types.x4 Types.y4 Types.z4 Types.w4 Types.x3 Types.y3 Types.z3 m4c0 m4c1 m4c2 m4c3 ModelVec.vec3_div_assign_sc ModelVec.vec3_mul_assign_sc ModelVec.IMPL_V3_COMPOUND_SC_OP set3 ModelGeom.cross];
  match goal with |- (if ?c then _ else _) = _ => destruct c eqn:E end; rewrite HT;
  match type of E with ?c = _ =>
    match goal with |- context [if ?c' then _ else _] => change c' with c end end; rewrite E; reflexivity.
Qed.
Lemma so_decompose_orthogonal_mat4_vec3_quat_vec3 : sound decompose_orthogonal_mat4_vec3_quat_vec3.
Proof.
  intros S b vs H. cbv [c_decompose_orthogonal_mat4_vec3_quat_vec3 code f_sig] in H. splitv H.
  unfold model, on, on0. cbv [dM4 dV4 dV3 dQ].
  match goal with |- context [ModelTransform.decompose_orthogonal S ?m] => destruct (ModelTransform.decompose_orthogonal S m) as [[s q] t] end.
  reflexivity.
Qed.

Lemma agrees_all : forall f, agrees f.
Proof.
  exact (fun f => match f return agrees f with
  | vec2__default => ag_vec2__default
  | vec2__no_init_t => ag_vec2__no_init_t
  | vec2__float => ag_vec2__float
  | vec2__int => ag_vec2__int
  | vec2__float_float => ag_vec2__float_float
  | make_vec2_float_ptr => ag_make_vec2_float_ptr
  | op_add_vec2_vec2 => ag_op_add_vec2_vec2
  | op_add_vec2_float => ag_op_add_vec2_float
  | op_add_float_vec2 => ag_op_add_float_vec2
  | op_sub_vec2_vec2 => ag_op_sub_vec2_vec2
  | op_sub_vec2_float => ag_op_sub_vec2_float
  | op_sub_float_vec2 => ag_op_sub_float_vec2
  | op_mul_vec2_vec2 => ag_op_mul_vec2_vec2
  | op_mul_vec2_float => ag_op_mul_vec2_float
  | op_mul_float_vec2 => ag_op_mul_float_vec2
  | op_div_vec2_vec2 => ag_op_div_vec2_vec2
  | op_div_vec2_float => ag_op_div_vec2_float
  | op_div_float_vec2 => ag_op_div_float_vec2
  | vec2__op_add_assign_vec2 => ag_vec2__op_add_assign_vec2
  | vec2__op_add_assign_float => ag_vec2__op_add_assign_float
  | vec2__op_sub_assign_vec2 => ag_vec2__op_sub_assign_vec2
  | vec2__op_sub_assign_float => ag_vec2__op_sub_assign_float
  | vec2__op_mul_assign_vec2 => ag_vec2__op_mul_assign_vec2
  | vec2__op_mul_assign_float => ag_vec2__op_mul_assign_float
  | vec2__op_div_assign_vec2 => ag_vec2__op_div_assign_vec2
  | vec2__op_div_assign_float => ag_vec2__op_div_assign_float
  | op_add_vec2 => ag_op_add_vec2
  | op_sub_vec2 => ag_op_sub_vec2
  | vec2__preinc => ag_vec2__preinc
  | vec2__postinc => ag_vec2__postinc
  | vec2__predec => ag_vec2__predec
  | vec2__postdec => ag_vec2__postdec
  | op_eq_vec2_vec2 => ag_op_eq_vec2_vec2
  | op_ne_vec2_vec2 => ag_op_ne_vec2_vec2
  | vec2__index => ag_vec2__index
  | vec2__index_const => ag_vec2__index_const
  | vec3__default => ag_vec3__default
  | vec3__no_init_t => ag_vec3__no_init_t
  | vec3__float => ag_vec3__float
  | vec3__int => ag_vec3__int
  | vec3__float_float_float => ag_vec3__float_float_float
  | vec3__vec2_float => ag_vec3__vec2_float
  | vec3__float_vec2 => ag_vec3__float_vec2
  | make_vec3_float_ptr => ag_make_vec3_float_ptr
  | op_add_vec3_vec3 => ag_op_add_vec3_vec3
  | op_add_vec3_float => ag_op_add_vec3_float
  | op_add_float_vec3 => ag_op_add_float_vec3
  | op_sub_vec3_vec3 => ag_op_sub_vec3_vec3
  | op_sub_vec3_float => ag_op_sub_vec3_float
  | op_sub_float_vec3 => ag_op_sub_float_vec3
  | op_mul_vec3_vec3 => ag_op_mul_vec3_vec3
  | op_mul_vec3_float => ag_op_mul_vec3_float
  | op_mul_float_vec3 => ag_op_mul_float_vec3
  | op_div_vec3_vec3 => ag_op_div_vec3_vec3
  | op_div_vec3_float => ag_op_div_vec3_float
  | op_div_float_vec3 => ag_op_div_float_vec3
  | vec3__op_add_assign_vec3 => ag_vec3__op_add_assign_vec3
  | vec3__op_add_assign_float => ag_vec3__op_add_assign_float
  | vec3__op_sub_assign_vec3 => ag_vec3__op_sub_assign_vec3
  | vec3__op_sub_assign_float => ag_vec3__op_sub_assign_float
  | vec3__op_mul_assign_vec3 => ag_vec3__op_mul_assign_vec3
  | vec3__op_mul_assign_float => ag_vec3__op_mul_assign_float
  | vec3__op_div_assign_vec3 => ag_vec3__op_div_assign_vec3
  | vec3__op_div_assign_float => ag_vec3__op_div_assign_float
  | op_sub_vec3 => ag_op_sub_vec3
  | op_add_vec3 => ag_op_add_vec3
  | vec3__preinc => ag_vec3__preinc
  | vec3__postinc => ag_vec3__postinc
  | vec3__predec => ag_vec3__predec
  | vec3__postdec => ag_vec3__postdec
  | op_eq_vec3_vec3 => ag_op_eq_vec3_vec3
  | op_ne_vec3_vec3 => ag_op_ne_vec3_vec3
  | vec3__index => ag_vec3__index
  | vec3__index_const => ag_vec3__index_const
  | vec4__default => ag_vec4__default
  | vec4__no_init_t => ag_vec4__no_init_t
  | vec4__float => ag_vec4__float
  | vec4__int => ag_vec4__int
  | vec4__float_float_float_float => ag_vec4__float_float_float_float
  | vec4__vec3_float => ag_vec4__vec3_float
  | vec4__float_vec3 => ag_vec4__float_vec3
  | vec4__vec2_vec2 => ag_vec4__vec2_vec2
  | vec4__vec2_float_float => ag_vec4__vec2_float_float
  | vec4__float_vec2_float => ag_vec4__float_vec2_float
  | vec4__float_float_vec2 => ag_vec4__float_float_vec2
  | make_vec4_float_ptr => ag_make_vec4_float_ptr
  | op_add_vec4_vec4 => ag_op_add_vec4_vec4
  | op_add_vec4_float => ag_op_add_vec4_float
  | op_add_float_vec4 => ag_op_add_float_vec4
  | op_sub_vec4_vec4 => ag_op_sub_vec4_vec4
  | op_sub_vec4_float => ag_op_sub_vec4_float
  | op_sub_float_vec4 => ag_op_sub_float_vec4
  | op_mul_vec4_vec4 => ag_op_mul_vec4_vec4
  | op_mul_vec4_float => ag_op_mul_vec4_float
  | op_mul_float_vec4 => ag_op_mul_float_vec4
  | op_div_vec4_vec4 => ag_op_div_vec4_vec4
  | op_div_vec4_float => ag_op_div_vec4_float
  | op_div_float_vec4 => ag_op_div_float_vec4
  | vec4__op_add_assign_vec4 => ag_vec4__op_add_assign_vec4
  | vec4__op_add_assign_float => ag_vec4__op_add_assign_float
  | vec4__op_sub_assign_vec4 => ag_vec4__op_sub_assign_vec4
  | vec4__op_sub_assign_float => ag_vec4__op_sub_assign_float
  | vec4__op_mul_assign_vec4 => ag_vec4__op_mul_assign_vec4
  | vec4__op_mul_assign_float => ag_vec4__op_mul_assign_float
  | vec4__op_div_assign_vec4 => ag_vec4__op_div_assign_vec4
  | vec4__op_div_assign_float => ag_vec4__op_div_assign_float
  | op_sub_vec4 => ag_op_sub_vec4
  | op_add_vec4 => ag_op_add_vec4
  | vec4__preinc => ag_vec4__preinc
  | vec4__postinc => ag_vec4__postinc
  | vec4__predec => ag_vec4__predec
  | vec4__postdec => ag_vec4__postdec
  | op_eq_vec4_vec4 => ag_op_eq_vec4_vec4
  | op_ne_vec4_vec4 => ag_op_ne_vec4_vec4
  | vec4__index => ag_vec4__index
  | vec4__index_const => ag_vec4__index_const
  | ivec2__default => ag_ivec2__default
  | ivec2__no_init_t => ag_ivec2__no_init_t
  | ivec2__int => ag_ivec2__int
  | ivec2__int_int => ag_ivec2__int_int
  | op_add_ivec2 => ag_op_add_ivec2
  | op_sub_ivec2 => ag_op_sub_ivec2
  | make_ivec2_int_ptr => ag_make_ivec2_int_ptr
  | op_add_ivec2_ivec2 => ag_op_add_ivec2_ivec2
  | op_add_ivec2_int => ag_op_add_ivec2_int
  | op_add_int_ivec2 => ag_op_add_int_ivec2
  | op_sub_ivec2_ivec2 => ag_op_sub_ivec2_ivec2
  | op_sub_ivec2_int => ag_op_sub_ivec2_int
  | op_sub_int_ivec2 => ag_op_sub_int_ivec2
  | op_mul_ivec2_ivec2 => ag_op_mul_ivec2_ivec2
  | op_mul_ivec2_int => ag_op_mul_ivec2_int
  | op_mul_int_ivec2 => ag_op_mul_int_ivec2
  | op_div_ivec2_ivec2 => ag_op_div_ivec2_ivec2
  | op_div_ivec2_int => ag_op_div_ivec2_int
  | op_div_int_ivec2 => ag_op_div_int_ivec2
  | op_rem_ivec2_ivec2 => ag_op_rem_ivec2_ivec2
  | op_rem_ivec2_int => ag_op_rem_ivec2_int
  | op_rem_int_ivec2 => ag_op_rem_int_ivec2
  | op_or_ivec2_ivec2 => ag_op_or_ivec2_ivec2
  | op_or_ivec2_int => ag_op_or_ivec2_int
  | op_or_int_ivec2 => ag_op_or_int_ivec2
  | op_and_ivec2_ivec2 => ag_op_and_ivec2_ivec2
  | op_and_ivec2_int => ag_op_and_ivec2_int
  | op_and_int_ivec2 => ag_op_and_int_ivec2
  | op_xor_ivec2_ivec2 => ag_op_xor_ivec2_ivec2
  | op_xor_ivec2_int => ag_op_xor_ivec2_int
  | op_xor_int_ivec2 => ag_op_xor_int_ivec2
  | op_shr_ivec2_ivec2 => ag_op_shr_ivec2_ivec2
  | op_shr_ivec2_int => ag_op_shr_ivec2_int
  | op_shr_int_ivec2 => ag_op_shr_int_ivec2
  | op_shl_ivec2_ivec2 => ag_op_shl_ivec2_ivec2
  | op_shl_ivec2_int => ag_op_shl_ivec2_int
  | op_shl_int_ivec2 => ag_op_shl_int_ivec2
  | ivec2__op_add_assign_ivec2 => ag_ivec2__op_add_assign_ivec2
  | ivec2__op_add_assign_int => ag_ivec2__op_add_assign_int
  | ivec2__op_sub_assign_ivec2 => ag_ivec2__op_sub_assign_ivec2
  | ivec2__op_sub_assign_int => ag_ivec2__op_sub_assign_int
  | ivec2__op_mul_assign_ivec2 => ag_ivec2__op_mul_assign_ivec2
  | ivec2__op_mul_assign_int => ag_ivec2__op_mul_assign_int
  | ivec2__op_div_assign_ivec2 => ag_ivec2__op_div_assign_ivec2
  | ivec2__op_div_assign_int => ag_ivec2__op_div_assign_int
  | ivec2__op_rem_assign_ivec2 => ag_ivec2__op_rem_assign_ivec2
  | ivec2__op_rem_assign_int => ag_ivec2__op_rem_assign_int
  | ivec2__op_or_assign_ivec2 => ag_ivec2__op_or_assign_ivec2
  | ivec2__op_or_assign_int => ag_ivec2__op_or_assign_int
  | ivec2__op_and_assign_ivec2 => ag_ivec2__op_and_assign_ivec2
  | ivec2__op_and_assign_int => ag_ivec2__op_and_assign_int
  | ivec2__op_xor_assign_ivec2 => ag_ivec2__op_xor_assign_ivec2
  | ivec2__op_xor_assign_int => ag_ivec2__op_xor_assign_int
  | ivec2__op_shr_assign_ivec2 => ag_ivec2__op_shr_assign_ivec2
  | ivec2__op_shr_assign_int => ag_ivec2__op_shr_assign_int
  | ivec2__op_shl_assign_ivec2 => ag_ivec2__op_shl_assign_ivec2
  | ivec2__op_shl_assign_int => ag_ivec2__op_shl_assign_int
  | op_eq_ivec2_ivec2 => ag_op_eq_ivec2_ivec2
  | op_ne_ivec2_ivec2 => ag_op_ne_ivec2_ivec2
  | op_lt_ivec2_ivec2 => ag_op_lt_ivec2_ivec2
  | op_le_ivec2_ivec2 => ag_op_le_ivec2_ivec2
  | op_gt_ivec2_ivec2 => ag_op_gt_ivec2_ivec2
  | op_ge_ivec2_ivec2 => ag_op_ge_ivec2_ivec2
  | ivec2__index => ag_ivec2__index
  | ivec2__index_const => ag_ivec2__index_const
  | ivec2__to_bvec2 => ag_ivec2__to_bvec2
  | ivec2__preinc => ag_ivec2__preinc
  | ivec2__postinc => ag_ivec2__postinc
  | ivec2__predec => ag_ivec2__predec
  | ivec2__postdec => ag_ivec2__postdec
  | ivec3__default => ag_ivec3__default
  | ivec3__no_init_t => ag_ivec3__no_init_t
  | ivec3__int => ag_ivec3__int
  | ivec3__int_int_int => ag_ivec3__int_int_int
  | ivec3__ivec2_int => ag_ivec3__ivec2_int
  | ivec3__int_ivec2 => ag_ivec3__int_ivec2
  | make_ivec3_int_ptr => ag_make_ivec3_int_ptr
  | op_add_ivec3_ivec3 => ag_op_add_ivec3_ivec3
  | op_add_ivec3_int => ag_op_add_ivec3_int
  | op_add_int_ivec3 => ag_op_add_int_ivec3
  | op_sub_ivec3_ivec3 => ag_op_sub_ivec3_ivec3
  | op_sub_ivec3_int => ag_op_sub_ivec3_int
  | op_sub_int_ivec3 => ag_op_sub_int_ivec3
  | op_mul_ivec3_ivec3 => ag_op_mul_ivec3_ivec3
  | op_mul_ivec3_int => ag_op_mul_ivec3_int
  | op_mul_int_ivec3 => ag_op_mul_int_ivec3
  | op_div_ivec3_ivec3 => ag_op_div_ivec3_ivec3
  | op_div_ivec3_int => ag_op_div_ivec3_int
  | op_div_int_ivec3 => ag_op_div_int_ivec3
  | op_rem_ivec3_ivec3 => ag_op_rem_ivec3_ivec3
  | op_rem_ivec3_int => ag_op_rem_ivec3_int
  | op_rem_int_ivec3 => ag_op_rem_int_ivec3
  | op_or_ivec3_ivec3 => ag_op_or_ivec3_ivec3
  | op_or_ivec3_int => ag_op_or_ivec3_int
  | op_or_int_ivec3 => ag_op_or_int_ivec3
  | op_and_ivec3_ivec3 => ag_op_and_ivec3_ivec3
  | op_and_ivec3_int => ag_op_and_ivec3_int
  | op_and_int_ivec3 => ag_op_and_int_ivec3
  | op_xor_ivec3_ivec3 => ag_op_xor_ivec3_ivec3
  | op_xor_ivec3_int => ag_op_xor_ivec3_int
  | op_xor_int_ivec3 => ag_op_xor_int_ivec3
  | op_shr_ivec3_ivec3 => ag_op_shr_ivec3_ivec3
  | op_shr_ivec3_int => ag_op_shr_ivec3_int
  | op_shr_int_ivec3 => ag_op_shr_int_ivec3
  | op_shl_ivec3_ivec3 => ag_op_shl_ivec3_ivec3
  | op_shl_ivec3_int => ag_op_shl_ivec3_int
  | op_shl_int_ivec3 => ag_op_shl_int_ivec3
  | ivec3__op_add_assign_ivec3 => ag_ivec3__op_add_assign_ivec3
  | ivec3__op_add_assign_int => ag_ivec3__op_add_assign_int
  | ivec3__op_sub_assign_ivec3 => ag_ivec3__op_sub_assign_ivec3
  | ivec3__op_sub_assign_int => ag_ivec3__op_sub_assign_int
  | ivec3__op_mul_assign_ivec3 => ag_ivec3__op_mul_assign_ivec3
  | ivec3__op_mul_assign_int => ag_ivec3__op_mul_assign_int
  | ivec3__op_div_assign_ivec3 => ag_ivec3__op_div_assign_ivec3
  | ivec3__op_div_assign_int => ag_ivec3__op_div_assign_int
  | ivec3__op_rem_assign_ivec3 => ag_ivec3__op_rem_assign_ivec3
  | ivec3__op_rem_assign_int => ag_ivec3__op_rem_assign_int
  | ivec3__op_or_assign_ivec3 => ag_ivec3__op_or_assign_ivec3
  | ivec3__op_or_assign_int => ag_ivec3__op_or_assign_int
  | ivec3__op_and_assign_ivec3 => ag_ivec3__op_and_assign_ivec3
  | ivec3__op_and_assign_int => ag_ivec3__op_and_assign_int
  | ivec3__op_xor_assign_ivec3 => ag_ivec3__op_xor_assign_ivec3
  | ivec3__op_xor_assign_int => ag_ivec3__op_xor_assign_int
  | ivec3__op_shr_assign_ivec3 => ag_ivec3__op_shr_assign_ivec3
  | ivec3__op_shr_assign_int => ag_ivec3__op_shr_assign_int
  | ivec3__op_shl_assign_ivec3 => ag_ivec3__op_shl_assign_ivec3
  | ivec3__op_shl_assign_int => ag_ivec3__op_shl_assign_int
  | op_sub_ivec3 => ag_op_sub_ivec3
  | op_add_ivec3 => ag_op_add_ivec3
  | op_eq_ivec3_ivec3 => ag_op_eq_ivec3_ivec3
  | op_ne_ivec3_ivec3 => ag_op_ne_ivec3_ivec3
  | ivec3__index => ag_ivec3__index
  | ivec3__index_const => ag_ivec3__index_const
  | ivec3__preinc => ag_ivec3__preinc
  | ivec3__postinc => ag_ivec3__postinc
  | ivec3__predec => ag_ivec3__predec
  | ivec3__postdec => ag_ivec3__postdec
  | ivec3__to_bvec3 => ag_ivec3__to_bvec3
  | op_lt_ivec3_ivec3 => ag_op_lt_ivec3_ivec3
  | op_le_ivec3_ivec3 => ag_op_le_ivec3_ivec3
  | op_gt_ivec3_ivec3 => ag_op_gt_ivec3_ivec3
  | op_ge_ivec3_ivec3 => ag_op_ge_ivec3_ivec3
  | ivec4__default => ag_ivec4__default
  | ivec4__no_init_t => ag_ivec4__no_init_t
  | ivec4__int => ag_ivec4__int
  | ivec4__int_int_int_int => ag_ivec4__int_int_int_int
  | ivec4__ivec3_int => ag_ivec4__ivec3_int
  | ivec4__int_ivec3 => ag_ivec4__int_ivec3
  | ivec4__ivec2_ivec2 => ag_ivec4__ivec2_ivec2
  | ivec4__ivec2_int_int => ag_ivec4__ivec2_int_int
  | ivec4__int_ivec2_int => ag_ivec4__int_ivec2_int
  | ivec4__int_int_ivec2 => ag_ivec4__int_int_ivec2
  | make_ivec4_int_ptr => ag_make_ivec4_int_ptr
  | op_add_ivec4_ivec4 => ag_op_add_ivec4_ivec4
  | op_add_ivec4_int => ag_op_add_ivec4_int
  | op_add_int_ivec4 => ag_op_add_int_ivec4
  | op_sub_ivec4_ivec4 => ag_op_sub_ivec4_ivec4
  | op_sub_ivec4_int => ag_op_sub_ivec4_int
  | op_sub_int_ivec4 => ag_op_sub_int_ivec4
  | op_mul_ivec4_ivec4 => ag_op_mul_ivec4_ivec4
  | op_mul_ivec4_int => ag_op_mul_ivec4_int
  | op_mul_int_ivec4 => ag_op_mul_int_ivec4
  | op_div_ivec4_ivec4 => ag_op_div_ivec4_ivec4
  | op_div_ivec4_int => ag_op_div_ivec4_int
  | op_div_int_ivec4 => ag_op_div_int_ivec4
  | ivec4__op_add_assign_ivec4 => ag_ivec4__op_add_assign_ivec4
  | ivec4__op_add_assign_int => ag_ivec4__op_add_assign_int
  | ivec4__op_sub_assign_ivec4 => ag_ivec4__op_sub_assign_ivec4
  | ivec4__op_sub_assign_int => ag_ivec4__op_sub_assign_int
  | ivec4__op_mul_assign_ivec4 => ag_ivec4__op_mul_assign_ivec4
  | ivec4__op_mul_assign_int => ag_ivec4__op_mul_assign_int
  | ivec4__op_div_assign_ivec4 => ag_ivec4__op_div_assign_ivec4
  | ivec4__op_div_assign_int => ag_ivec4__op_div_assign_int
  | op_sub_ivec4 => ag_op_sub_ivec4
  | op_add_ivec4 => ag_op_add_ivec4
  | ivec4__preinc => ag_ivec4__preinc
  | ivec4__postinc => ag_ivec4__postinc
  | ivec4__predec => ag_ivec4__predec
  | ivec4__postdec => ag_ivec4__postdec
  | op_eq_ivec4_ivec4 => ag_op_eq_ivec4_ivec4
  | op_ne_ivec4_ivec4 => ag_op_ne_ivec4_ivec4
  | op_lt_ivec4_ivec4 => ag_op_lt_ivec4_ivec4
  | op_le_ivec4_ivec4 => ag_op_le_ivec4_ivec4
  | op_gt_ivec4_ivec4 => ag_op_gt_ivec4_ivec4
  | op_ge_ivec4_ivec4 => ag_op_ge_ivec4_ivec4
  | ivec4__index => ag_ivec4__index
  | ivec4__index_const => ag_ivec4__index_const
  | ivec4__to_bvec4 => ag_ivec4__to_bvec4
  | bvec2__default => ag_bvec2__default
  | bvec2__bool => ag_bvec2__bool
  | bvec2__bool_bool => ag_bvec2__bool_bool
  | op_land_bvec2_bvec2 => ag_op_land_bvec2_bvec2
  | op_land_bvec2_bool => ag_op_land_bvec2_bool
  | op_land_bool_bvec2 => ag_op_land_bool_bvec2
  | op_lor_bvec2_bvec2 => ag_op_lor_bvec2_bvec2
  | op_lor_bvec2_bool => ag_op_lor_bvec2_bool
  | op_lor_bool_bvec2 => ag_op_lor_bool_bvec2
  | op_xor_bvec2_bvec2 => ag_op_xor_bvec2_bvec2
  | op_xor_bvec2_bool => ag_op_xor_bvec2_bool
  | op_xor_bool_bvec2 => ag_op_xor_bool_bvec2
  | op_not_bvec2 => ag_op_not_bvec2
  | bvec2__op_and_assign_bool => ag_bvec2__op_and_assign_bool
  | bvec2__op_or_assign_bool => ag_bvec2__op_or_assign_bool
  | bvec2__op_xor_assign_bool => ag_bvec2__op_xor_assign_bool
  | bvec2__op_and_assign_bvec2 => ag_bvec2__op_and_assign_bvec2
  | bvec2__op_or_assign_bvec2 => ag_bvec2__op_or_assign_bvec2
  | bvec2__op_xor_assign_bvec2 => ag_bvec2__op_xor_assign_bvec2
  | op_eq_bvec2_bvec2 => ag_op_eq_bvec2_bvec2
  | op_ne_bvec2_bvec2 => ag_op_ne_bvec2_bvec2
  | bvec2__index => ag_bvec2__index
  | bvec2__index_const => ag_bvec2__index_const
  | make_bvec2_bool_ptr => ag_make_bvec2_bool_ptr
  | bvec3__default => ag_bvec3__default
  | bvec3__bool => ag_bvec3__bool
  | bvec3__bool_bool_bool => ag_bvec3__bool_bool_bool
  | bvec3__bvec2_bool => ag_bvec3__bvec2_bool
  | bvec3__bool_bvec2 => ag_bvec3__bool_bvec2
  | op_land_bvec3_bvec3 => ag_op_land_bvec3_bvec3
  | op_land_bvec3_bool => ag_op_land_bvec3_bool
  | op_land_bool_bvec3 => ag_op_land_bool_bvec3
  | op_lor_bvec3_bvec3 => ag_op_lor_bvec3_bvec3
  | op_lor_bvec3_bool => ag_op_lor_bvec3_bool
  | op_lor_bool_bvec3 => ag_op_lor_bool_bvec3
  | op_xor_bvec3_bvec3 => ag_op_xor_bvec3_bvec3
  | op_xor_bvec3_bool => ag_op_xor_bvec3_bool
  | op_xor_bool_bvec3 => ag_op_xor_bool_bvec3
  | op_not_bvec3 => ag_op_not_bvec3
  | bvec3__op_and_assign_bool => ag_bvec3__op_and_assign_bool
  | bvec3__op_or_assign_bool => ag_bvec3__op_or_assign_bool
  | bvec3__op_xor_assign_bool => ag_bvec3__op_xor_assign_bool
  | bvec3__op_and_assign_bvec3 => ag_bvec3__op_and_assign_bvec3
  | bvec3__op_or_assign_bvec3 => ag_bvec3__op_or_assign_bvec3
  | bvec3__op_xor_assign_bvec3 => ag_bvec3__op_xor_assign_bvec3
  | op_eq_bvec3_bvec3 => ag_op_eq_bvec3_bvec3
  | op_ne_bvec3_bvec3 => ag_op_ne_bvec3_bvec3
  | bvec3__index => ag_bvec3__index
  | bvec3__index_const => ag_bvec3__index_const
  | make_bvec3_bool_ptr => ag_make_bvec3_bool_ptr
  | bvec4__default => ag_bvec4__default
  | bvec4__bool => ag_bvec4__bool
  | bvec4__bool_bool_bool_bool => ag_bvec4__bool_bool_bool_bool
  | bvec4__bvec3_bool => ag_bvec4__bvec3_bool
  | bvec4__bool_bvec3 => ag_bvec4__bool_bvec3
  | bvec4__bvec2_bvec2 => ag_bvec4__bvec2_bvec2
  | bvec4__bvec2_bool_bool => ag_bvec4__bvec2_bool_bool
  | bvec4__bool_bvec2_bool => ag_bvec4__bool_bvec2_bool
  | bvec4__bool_bool_bvec2 => ag_bvec4__bool_bool_bvec2
  | op_land_bvec4_bvec4 => ag_op_land_bvec4_bvec4
  | op_land_bvec4_bool => ag_op_land_bvec4_bool
  | op_land_bool_bvec4 => ag_op_land_bool_bvec4
  | op_lor_bvec4_bvec4 => ag_op_lor_bvec4_bvec4
  | op_lor_bvec4_bool => ag_op_lor_bvec4_bool
  | op_lor_bool_bvec4 => ag_op_lor_bool_bvec4
  | op_xor_bvec4_bvec4 => ag_op_xor_bvec4_bvec4
  | op_xor_bvec4_bool => ag_op_xor_bvec4_bool
  | op_xor_bool_bvec4 => ag_op_xor_bool_bvec4
  | op_not_bvec4 => ag_op_not_bvec4
  | op_eq_bvec4_bvec4 => ag_op_eq_bvec4_bvec4
  | op_ne_bvec4_bvec4 => ag_op_ne_bvec4_bvec4
  | bvec4__op_and_assign_bool => ag_bvec4__op_and_assign_bool
  | bvec4__op_or_assign_bool => ag_bvec4__op_or_assign_bool
  | bvec4__op_xor_assign_bool => ag_bvec4__op_xor_assign_bool
  | bvec4__op_and_assign_bvec4 => ag_bvec4__op_and_assign_bvec4
  | bvec4__op_or_assign_bvec4 => ag_bvec4__op_or_assign_bvec4
  | bvec4__op_xor_assign_bvec4 => ag_bvec4__op_xor_assign_bvec4
  | bvec4__index => ag_bvec4__index
  | bvec4__index_const => ag_bvec4__index_const
  | make_bvec4_bool_ptr => ag_make_bvec4_bool_ptr
  | mat2__default => ag_mat2__default
  | mat2__no_init_t => ag_mat2__no_init_t
  | mat2__float => ag_mat2__float
  | mat2__float_float_float_float => ag_mat2__float_float_float_float
  | mat2__vec2_vec2 => ag_mat2__vec2_vec2
  | mat2__index => ag_mat2__index
  | mat2__index_const => ag_mat2__index_const
  | op_add_mat2_mat2 => ag_op_add_mat2_mat2
  | op_sub_mat2_mat2 => ag_op_sub_mat2_mat2
  | op_sub_mat2 => ag_op_sub_mat2
  | op_add_mat2 => ag_op_add_mat2
  | op_mul_mat2_mat2 => ag_op_mul_mat2_mat2
  | op_div_mat2_mat2 => ag_op_div_mat2_mat2
  | op_mul_mat2_float => ag_op_mul_mat2_float
  | op_div_mat2_float => ag_op_div_mat2_float
  | op_mul_float_mat2 => ag_op_mul_float_mat2
  | op_div_float_mat2 => ag_op_div_float_mat2
  | op_mul_mat2_vec2 => ag_op_mul_mat2_vec2
  | op_mul_vec2_mat2 => ag_op_mul_vec2_mat2
  | op_div_mat2_vec2 => ag_op_div_mat2_vec2
  | op_div_vec2_mat2 => ag_op_div_vec2_mat2
  | mat2__op_add_assign_mat2 => ag_mat2__op_add_assign_mat2
  | mat2__op_sub_assign_mat2 => ag_mat2__op_sub_assign_mat2
  | mat2__op_mul_assign_mat2 => ag_mat2__op_mul_assign_mat2
  | mat2__op_div_assign_mat2 => ag_mat2__op_div_assign_mat2
  | op_eq_mat2_mat2 => ag_op_eq_mat2_mat2
  | op_ne_mat2_mat2 => ag_op_ne_mat2_mat2
  | make_mat2_float_ptr => ag_make_mat2_float_ptr
  | mat3__default => ag_mat3__default
  | mat3__no_init_t => ag_mat3__no_init_t
  | mat3__float => ag_mat3__float
  | mat3__mat2 => ag_mat3__mat2
  | mat3__to_mat2 => ag_mat3__to_mat2
  | mat3__vec3_vec3_vec3 => ag_mat3__vec3_vec3_vec3
  | mat3__float_float_float_float_float_float_float_float_float => ag_mat3__float_float_float_float_float_float_float_float_float
  | op_add_mat3_mat3 => ag_op_add_mat3_mat3
  | op_sub_mat3_mat3 => ag_op_sub_mat3_mat3
  | op_sub_mat3 => ag_op_sub_mat3
  | op_add_mat3 => ag_op_add_mat3
  | op_mul_mat3_mat3 => ag_op_mul_mat3_mat3
  | op_div_mat3_mat3 => ag_op_div_mat3_mat3
  | op_mul_mat3_float => ag_op_mul_mat3_float
  | op_div_mat3_float => ag_op_div_mat3_float
  | op_mul_float_mat3 => ag_op_mul_float_mat3
  | op_div_float_mat3 => ag_op_div_float_mat3
  | mat3__index => ag_mat3__index
  | mat3__index_const => ag_mat3__index_const
  | mat3__op_add_assign_mat3 => ag_mat3__op_add_assign_mat3
  | mat3__op_sub_assign_mat3 => ag_mat3__op_sub_assign_mat3
  | mat3__op_mul_assign_mat3 => ag_mat3__op_mul_assign_mat3
  | mat3__op_div_assign_mat3 => ag_mat3__op_div_assign_mat3
  | op_mul_mat3_vec3 => ag_op_mul_mat3_vec3
  | op_mul_vec3_mat3 => ag_op_mul_vec3_mat3
  | op_div_mat3_vec3 => ag_op_div_mat3_vec3
  | op_div_vec3_mat3 => ag_op_div_vec3_mat3
  | op_eq_mat3_mat3 => ag_op_eq_mat3_mat3
  | op_ne_mat3_mat3 => ag_op_ne_mat3_mat3
  | make_mat3_float_ptr => ag_make_mat3_float_ptr
  | mat4__default => ag_mat4__default
  | mat4__no_init_t => ag_mat4__no_init_t
  | mat4__float => ag_mat4__float
  | mat4__vec4_vec4_vec4_vec4 => ag_mat4__vec4_vec4_vec4_vec4
  | mat4__float_float_float_float_float_float_float_float_float_float_float_float_float_float_float_float => ag_mat4__float_float_float_float_float_float_float_float_float_float_float_float_float_float_float_float
  | mat4__mat3 => ag_mat4__mat3
  | mat4__to_mat3 => ag_mat4__to_mat3
  | op_add_mat4_mat4 => ag_op_add_mat4_mat4
  | op_sub_mat4_mat4 => ag_op_sub_mat4_mat4
  | op_sub_mat4 => ag_op_sub_mat4
  | op_add_mat4 => ag_op_add_mat4
  | op_mul_mat4_mat4 => ag_op_mul_mat4_mat4
  | op_div_mat4_mat4 => ag_op_div_mat4_mat4
  | op_mul_mat4_float => ag_op_mul_mat4_float
  | op_div_mat4_float => ag_op_div_mat4_float
  | op_mul_float_mat4 => ag_op_mul_float_mat4
  | op_div_float_mat4 => ag_op_div_float_mat4
  | mat4__op_add_assign_mat4 => ag_mat4__op_add_assign_mat4
  | mat4__op_sub_assign_mat4 => ag_mat4__op_sub_assign_mat4
  | mat4__op_mul_assign_mat4 => ag_mat4__op_mul_assign_mat4
  | mat4__op_div_assign_mat4 => ag_mat4__op_div_assign_mat4
  | mat4__index => ag_mat4__index
  | mat4__index_const => ag_mat4__index_const
  | op_mul_mat4_vec4 => ag_op_mul_mat4_vec4
  | op_mul_vec4_mat4 => ag_op_mul_vec4_mat4
  | op_div_mat4_vec4 => ag_op_div_mat4_vec4
  | op_div_vec4_mat4 => ag_op_div_vec4_mat4
  | op_eq_mat4_mat4 => ag_op_eq_mat4_mat4
  | op_ne_mat4_mat4 => ag_op_ne_mat4_mat4
  | make_mat4_float_ptr => ag_make_mat4_float_ptr
  | quat__default => ag_quat__default
  | quat__no_init_t => ag_quat__no_init_t
  | quat__float_float_float_float => ag_quat__float_float_float_float
  | quat__float_vec3 => ag_quat__float_vec3
  | quat__vec3_float => ag_quat__vec3_float
  | quat__wxyz_float_float_float_float => ag_quat__wxyz_float_float_float_float
  | quat__vec3_vec3 => ag_quat__vec3_vec3
  | quat__vec3 => ag_quat__vec3
  | make_quat_float_ptr => ag_make_quat_float_ptr
  | quat__index => ag_quat__index
  | quat__index_const => ag_quat__index_const
  | quat__op_add_assign_quat => ag_quat__op_add_assign_quat
  | quat__op_sub_assign_quat => ag_quat__op_sub_assign_quat
  | quat__op_mul_assign_quat => ag_quat__op_mul_assign_quat
  | quat__op_mul_assign_float => ag_quat__op_mul_assign_float
  | quat__op_div_assign_float => ag_quat__op_div_assign_float
  | op_add_quat_quat => ag_op_add_quat_quat
  | op_sub_quat_quat => ag_op_sub_quat_quat
  | op_add_quat => ag_op_add_quat
  | op_sub_quat => ag_op_sub_quat
  | op_mul_quat_quat => ag_op_mul_quat_quat
  | op_mul_quat_float => ag_op_mul_quat_float
  | op_mul_float_quat => ag_op_mul_float_quat
  | op_div_float_quat => ag_op_div_float_quat
  | op_div_quat_float => ag_op_div_quat_float
  | op_mul_quat_vec3 => ag_op_mul_quat_vec3
  | op_mul_vec3_quat => ag_op_mul_vec3_quat
  | op_eq_quat_quat => ag_op_eq_quat_quat
  | op_ne_quat_quat => ag_op_ne_quat_quat
  | abs_float => ag_abs_float
  | abs_vec2 => ag_abs_vec2
  | abs_vec3 => ag_abs_vec3
  | abs_vec4 => ag_abs_vec4
  | abs_int => ag_abs_int
  | abs_ivec2 => ag_abs_ivec2
  | abs_ivec3 => ag_abs_ivec3
  | abs_ivec4 => ag_abs_ivec4
  | ceil_float => ag_ceil_float
  | ceil_vec2 => ag_ceil_vec2
  | ceil_vec3 => ag_ceil_vec3
  | ceil_vec4 => ag_ceil_vec4
  | clamp_float_float_float => ag_clamp_float_float_float
  | clamp_vec2_vec2_vec2 => ag_clamp_vec2_vec2_vec2
  | clamp_vec3_vec3_vec3 => ag_clamp_vec3_vec3_vec3
  | clamp_vec4_vec4_vec4 => ag_clamp_vec4_vec4_vec4
  | clamp_int_int_int => ag_clamp_int_int_int
  | clamp_ivec2_ivec2_ivec2 => ag_clamp_ivec2_ivec2_ivec2
  | clamp_ivec3_ivec3_ivec3 => ag_clamp_ivec3_ivec3_ivec3
  | clamp_ivec4_ivec4_ivec4 => ag_clamp_ivec4_ivec4_ivec4
  | floor_float => ag_floor_float
  | floor_vec2 => ag_floor_vec2
  | floor_vec3 => ag_floor_vec3
  | floor_vec4 => ag_floor_vec4
  | fma_float_float_float => ag_fma_float_float_float
  | fma_vec2_vec2_vec2 => ag_fma_vec2_vec2_vec2
  | fma_vec3_vec3_vec3 => ag_fma_vec3_vec3_vec3
  | fma_vec4_vec4_vec4 => ag_fma_vec4_vec4_vec4
  | fract_float => ag_fract_float
  | fract_vec2 => ag_fract_vec2
  | fract_vec3 => ag_fract_vec3
  | fract_vec4 => ag_fract_vec4
  | max_float_float => ag_max_float_float
  | max_vec2_vec2 => ag_max_vec2_vec2
  | max_vec3_vec3 => ag_max_vec3_vec3
  | max_vec4_vec4 => ag_max_vec4_vec4
  | max_int_int => ag_max_int_int
  | max_ivec2_ivec2 => ag_max_ivec2_ivec2
  | max_ivec3_ivec3 => ag_max_ivec3_ivec3
  | max_ivec4_ivec4 => ag_max_ivec4_ivec4
  | min_float_float => ag_min_float_float
  | min_vec2_vec2 => ag_min_vec2_vec2
  | min_vec3_vec3 => ag_min_vec3_vec3
  | min_vec4_vec4 => ag_min_vec4_vec4
  | min_int_int => ag_min_int_int
  | min_ivec2_ivec2 => ag_min_ivec2_ivec2
  | min_ivec3_ivec3 => ag_min_ivec3_ivec3
  | min_ivec4_ivec4 => ag_min_ivec4_ivec4
  | mod_float_float => ag_mod_float_float
  | mod_vec2_vec2 => ag_mod_vec2_vec2
  | mod_vec3_vec3 => ag_mod_vec3_vec3
  | mod_vec4_vec4 => ag_mod_vec4_vec4
  | mod_vec2_float => ag_mod_vec2_float
  | mod_vec3_float => ag_mod_vec3_float
  | mod_vec4_float => ag_mod_vec4_float
  | round_float => ag_round_float
  | round_vec2 => ag_round_vec2
  | round_vec3 => ag_round_vec3
  | round_vec4 => ag_round_vec4
  | roundEven_float => ag_roundEven_float
  | roundEven_vec2 => ag_roundEven_vec2
  | roundEven_vec3 => ag_roundEven_vec3
  | roundEven_vec4 => ag_roundEven_vec4
  | sign_float => ag_sign_float
  | sign_vec2 => ag_sign_vec2
  | sign_vec3 => ag_sign_vec3
  | sign_vec4 => ag_sign_vec4
  | sign_int => ag_sign_int
  | sign_ivec2 => ag_sign_ivec2
  | sign_ivec3 => ag_sign_ivec3
  | sign_ivec4 => ag_sign_ivec4
  | signNotZero_float => ag_signNotZero_float
  | signNotZero_vec2 => ag_signNotZero_vec2
  | signNotZero_vec3 => ag_signNotZero_vec3
  | signNotZero_vec4 => ag_signNotZero_vec4
  | signNotZero_int => ag_signNotZero_int
  | signNotZero_ivec2 => ag_signNotZero_ivec2
  | signNotZero_ivec3 => ag_signNotZero_ivec3
  | signNotZero_ivec4 => ag_signNotZero_ivec4
  | trunc_float => ag_trunc_float
  | trunc_vec2 => ag_trunc_vec2
  | trunc_vec3 => ag_trunc_vec3
  | trunc_vec4 => ag_trunc_vec4
  | smoothstep_float_float_float => ag_smoothstep_float_float_float
  | smoothstep_vec2_vec2_vec2 => ag_smoothstep_vec2_vec2_vec2
  | smoothstep_vec3_vec3_vec3 => ag_smoothstep_vec3_vec3_vec3
  | smoothstep_vec4_vec4_vec4 => ag_smoothstep_vec4_vec4_vec4
  | step_float_float => ag_step_float_float
  | step_vec2_vec2 => ag_step_vec2_vec2
  | step_vec3_vec3 => ag_step_vec3_vec3
  | step_vec4_vec4 => ag_step_vec4_vec4
  | mix_float_float_float => ag_mix_float_float_float
  | mix_vec2_vec2_vec2 => ag_mix_vec2_vec2_vec2
  | mix_vec3_vec3_vec3 => ag_mix_vec3_vec3_vec3
  | mix_vec4_vec4_vec4 => ag_mix_vec4_vec4_vec4
  | mix_vec2_vec2_float => ag_mix_vec2_vec2_float
  | mix_vec3_vec3_float => ag_mix_vec3_vec3_float
  | mix_vec4_vec4_float => ag_mix_vec4_vec4_float
  | mix_float_float_bool => ag_mix_float_float_bool
  | mix_vec2_vec2_bvec2 => ag_mix_vec2_vec2_bvec2
  | mix_vec3_vec3_bvec3 => ag_mix_vec3_vec3_bvec3
  | mix_vec4_vec4_bvec4 => ag_mix_vec4_vec4_bvec4
  | isinf_float => ag_isinf_float
  | isinf_vec2 => ag_isinf_vec2
  | isinf_vec3 => ag_isinf_vec3
  | isinf_vec4 => ag_isinf_vec4
  | isinf_quat => ag_isinf_quat
  | isnan_float => ag_isnan_float
  | isnan_vec2 => ag_isnan_vec2
  | isnan_vec3 => ag_isnan_vec3
  | isnan_vec4 => ag_isnan_vec4
  | isnan_quat => ag_isnan_quat
  | lessThan_vec2_vec2 => ag_lessThan_vec2_vec2
  | lessThan_vec3_vec3 => ag_lessThan_vec3_vec3
  | lessThan_vec4_vec4 => ag_lessThan_vec4_vec4
  | lessThanEqual_vec2_vec2 => ag_lessThanEqual_vec2_vec2
  | lessThanEqual_vec3_vec3 => ag_lessThanEqual_vec3_vec3
  | lessThanEqual_vec4_vec4 => ag_lessThanEqual_vec4_vec4
  | greaterThan_vec2_vec2 => ag_greaterThan_vec2_vec2
  | greaterThan_vec3_vec3 => ag_greaterThan_vec3_vec3
  | greaterThan_vec4_vec4 => ag_greaterThan_vec4_vec4
  | greaterThanEqual_vec2_vec2 => ag_greaterThanEqual_vec2_vec2
  | greaterThanEqual_vec3_vec3 => ag_greaterThanEqual_vec3_vec3
  | greaterThanEqual_vec4_vec4 => ag_greaterThanEqual_vec4_vec4
  | equal_vec2_vec2 => ag_equal_vec2_vec2
  | equal_vec3_vec3 => ag_equal_vec3_vec3
  | equal_vec4_vec4 => ag_equal_vec4_vec4
  | equal_quat_quat => ag_equal_quat_quat
  | equal_bvec2_bvec2 => ag_equal_bvec2_bvec2
  | equal_bvec3_bvec3 => ag_equal_bvec3_bvec3
  | equal_bvec4_bvec4 => ag_equal_bvec4_bvec4
  | notEqual_vec2_vec2 => ag_notEqual_vec2_vec2
  | notEqual_vec3_vec3 => ag_notEqual_vec3_vec3
  | notEqual_vec4_vec4 => ag_notEqual_vec4_vec4
  | notEqual_quat_quat => ag_notEqual_quat_quat
  | notEqual_bvec2_bvec2 => ag_notEqual_bvec2_bvec2
  | notEqual_bvec3_bvec3 => ag_notEqual_bvec3_bvec3
  | notEqual_bvec4_bvec4 => ag_notEqual_bvec4_bvec4
  | all_bvec2 => ag_all_bvec2
  | all_bvec3 => ag_all_bvec3
  | all_bvec4 => ag_all_bvec4
  | any_bvec2 => ag_any_bvec2
  | any_bvec3 => ag_any_bvec3
  | any_bvec4 => ag_any_bvec4
  | dot_float_float => ag_dot_float_float
  | dot_vec2_vec2 => ag_dot_vec2_vec2
  | dot_vec3_vec3 => ag_dot_vec3_vec3
  | dot_vec4_vec4 => ag_dot_vec4_vec4
  | dot_quat_quat => ag_dot_quat_quat
  | cross_vec3_vec3 => ag_cross_vec3_vec3
  | normalize_vec2 => ag_normalize_vec2
  | normalize_vec3 => ag_normalize_vec3
  | normalize_vec4 => ag_normalize_vec4
  | normalize_quat => ag_normalize_quat
  | distance_float_float => ag_distance_float_float
  | distance_vec2_vec2 => ag_distance_vec2_vec2
  | distance_vec3_vec3 => ag_distance_vec3_vec3
  | distance_vec4_vec4 => ag_distance_vec4_vec4
  | faceforward_float_float_float => ag_faceforward_float_float_float
  | faceforward_vec2_vec2_vec2 => ag_faceforward_vec2_vec2_vec2
  | faceforward_vec3_vec3_vec3 => ag_faceforward_vec3_vec3_vec3
  | faceforward_vec4_vec4_vec4 => ag_faceforward_vec4_vec4_vec4
  | reflect_float_float => ag_reflect_float_float
  | reflect_vec2_vec2 => ag_reflect_vec2_vec2
  | reflect_vec3_vec3 => ag_reflect_vec3_vec3
  | reflect_vec4_vec4 => ag_reflect_vec4_vec4
  | refract_float_float_float => ag_refract_float_float_float
  | refract_vec2_vec2_float => ag_refract_vec2_vec2_float
  | refract_vec3_vec3_float => ag_refract_vec3_vec3_float
  | refract_vec4_vec4_float => ag_refract_vec4_vec4_float
  | length_float => ag_length_float
  | length_vec2 => ag_length_vec2
  | length_vec3 => ag_length_vec3
  | length_vec4 => ag_length_vec4
  | length_quat => ag_length_quat
  | length2_float => ag_length2_float
  | length2_vec2 => ag_length2_vec2
  | length2_vec3 => ag_length2_vec3
  | length2_vec4 => ag_length2_vec4
  | length2_quat => ag_length2_quat
  | distance2_float_float => ag_distance2_float_float
  | distance2_vec2_vec2 => ag_distance2_vec2_vec2
  | distance2_vec3_vec3 => ag_distance2_vec3_vec3
  | distance2_vec4_vec4 => ag_distance2_vec4_vec4
  | orthogonal_vec3 => ag_orthogonal_vec3
  | orthogonal_branchless_vec3 => ag_orthogonal_branchless_vec3
  | encode_octahedral_vec3 => ag_encode_octahedral_vec3
  | decode_octahedral_vec2 => ag_decode_octahedral_vec2
  | sqrt_float => ag_sqrt_float
  | sqrt_vec2 => ag_sqrt_vec2
  | sqrt_vec3 => ag_sqrt_vec3
  | sqrt_vec4 => ag_sqrt_vec4
  | sqrt_quat => ag_sqrt_quat
  | pow_float_float => ag_pow_float_float
  | pow_vec2_vec2 => ag_pow_vec2_vec2
  | pow_vec3_vec3 => ag_pow_vec3_vec3
  | pow_vec4_vec4 => ag_pow_vec4_vec4
  | pow_quat_float => ag_pow_quat_float
  | log_float => ag_log_float
  | log_vec2 => ag_log_vec2
  | log_vec3 => ag_log_vec3
  | log_vec4 => ag_log_vec4
  | log_quat => ag_log_quat
  | log2_float => ag_log2_float
  | log2_vec2 => ag_log2_vec2
  | log2_vec3 => ag_log2_vec3
  | log2_vec4 => ag_log2_vec4
  | log2_quat => ag_log2_quat
  | inversesqrt_float => ag_inversesqrt_float
  | inversesqrt_vec2 => ag_inversesqrt_vec2
  | inversesqrt_vec3 => ag_inversesqrt_vec3
  | inversesqrt_vec4 => ag_inversesqrt_vec4
  | inversesqrt_quat => ag_inversesqrt_quat
  | exp_float => ag_exp_float
  | exp_vec2 => ag_exp_vec2
  | exp_vec3 => ag_exp_vec3
  | exp_vec4 => ag_exp_vec4
  | exp_quat => ag_exp_quat
  | exp2_float => ag_exp2_float
  | exp2_vec2 => ag_exp2_vec2
  | exp2_vec3 => ag_exp2_vec3
  | exp2_vec4 => ag_exp2_vec4
  | exp2_quat => ag_exp2_quat
  | cbrt_float => ag_cbrt_float
  | cbrt_vec2 => ag_cbrt_vec2
  | cbrt_vec3 => ag_cbrt_vec3
  | cbrt_vec4 => ag_cbrt_vec4
  | cbrt_quat => ag_cbrt_quat
  | degreesf_float => ag_degreesf_float
  | radiansf_float => ag_radiansf_float
  | cos_float => ag_cos_float
  | cos_vec2 => ag_cos_vec2
  | cos_vec3 => ag_cos_vec3
  | cos_vec4 => ag_cos_vec4
  | sin_float => ag_sin_float
  | sin_vec2 => ag_sin_vec2
  | sin_vec3 => ag_sin_vec3
  | sin_vec4 => ag_sin_vec4
  | acos_float => ag_acos_float
  | acos_vec2 => ag_acos_vec2
  | acos_vec3 => ag_acos_vec3
  | acos_vec4 => ag_acos_vec4
  | acosh_float => ag_acosh_float
  | acosh_vec2 => ag_acosh_vec2
  | acosh_vec3 => ag_acosh_vec3
  | acosh_vec4 => ag_acosh_vec4
  | asin_float => ag_asin_float
  | asin_vec2 => ag_asin_vec2
  | asin_vec3 => ag_asin_vec3
  | asin_vec4 => ag_asin_vec4
  | asinh_float => ag_asinh_float
  | asinh_vec2 => ag_asinh_vec2
  | asinh_vec3 => ag_asinh_vec3
  | asinh_vec4 => ag_asinh_vec4
  | atan_float_float => ag_atan_float_float
  | atan_vec2_vec2 => ag_atan_vec2_vec2
  | atan_vec3_vec3 => ag_atan_vec3_vec3
  | atan_vec4_vec4 => ag_atan_vec4_vec4
  | atan_float => ag_atan_float
  | atan_vec2 => ag_atan_vec2
  | atan_vec3 => ag_atan_vec3
  | atan_vec4 => ag_atan_vec4
  | atanh_float => ag_atanh_float
  | atanh_vec2 => ag_atanh_vec2
  | atanh_vec3 => ag_atanh_vec3
  | atanh_vec4 => ag_atanh_vec4
  | cosh_float => ag_cosh_float
  | cosh_vec2 => ag_cosh_vec2
  | cosh_vec3 => ag_cosh_vec3
  | cosh_vec4 => ag_cosh_vec4
  | degrees_float => ag_degrees_float
  | degrees_vec2 => ag_degrees_vec2
  | degrees_vec3 => ag_degrees_vec3
  | degrees_vec4 => ag_degrees_vec4
  | radians_float => ag_radians_float
  | radians_vec2 => ag_radians_vec2
  | radians_vec3 => ag_radians_vec3
  | radians_vec4 => ag_radians_vec4
  | sinh_float => ag_sinh_float
  | sinh_vec2 => ag_sinh_vec2
  | sinh_vec3 => ag_sinh_vec3
  | sinh_vec4 => ag_sinh_vec4
  | tan_float => ag_tan_float
  | tan_vec2 => ag_tan_vec2
  | tan_vec3 => ag_tan_vec3
  | tan_vec4 => ag_tan_vec4
  | tanh_float => ag_tanh_float
  | tanh_vec2 => ag_tanh_vec2
  | tanh_vec3 => ag_tanh_vec3
  | tanh_vec4 => ag_tanh_vec4
  | compAdd_vec2 => ag_compAdd_vec2
  | compAdd_vec3 => ag_compAdd_vec3
  | compAdd_vec4 => ag_compAdd_vec4
  | compAdd_ivec2 => ag_compAdd_ivec2
  | compAdd_ivec3 => ag_compAdd_ivec3
  | compAdd_ivec4 => ag_compAdd_ivec4
  | compMul_vec2 => ag_compMul_vec2
  | compMul_vec3 => ag_compMul_vec3
  | compMul_vec4 => ag_compMul_vec4
  | compMul_ivec2 => ag_compMul_ivec2
  | compMul_ivec3 => ag_compMul_ivec3
  | compMul_ivec4 => ag_compMul_ivec4
  | compMin_vec2 => ag_compMin_vec2
  | compMin_vec3 => ag_compMin_vec3
  | compMin_vec4 => ag_compMin_vec4
  | compMin_ivec2 => ag_compMin_ivec2
  | compMin_ivec3 => ag_compMin_ivec3
  | compMin_ivec4 => ag_compMin_ivec4
  | compMax_vec2 => ag_compMax_vec2
  | compMax_vec3 => ag_compMax_vec3
  | compMax_vec4 => ag_compMax_vec4
  | compMax_ivec2 => ag_compMax_ivec2
  | compMax_ivec3 => ag_compMax_ivec3
  | compMax_ivec4 => ag_compMax_ivec4
  | epsilon => ag_epsilon
  | zero => ag_zero
  | one => ag_one
  | pi => ag_pi
  | two_pi => ag_two_pi
  | root_pi => ag_root_pi
  | half_pi => ag_half_pi
  | three_over_two_pi => ag_three_over_two_pi
  | quarter_pi => ag_quarter_pi
  | one_over_pi => ag_one_over_pi
  | one_over_two_pi => ag_one_over_two_pi
  | two_over_pi => ag_two_over_pi
  | four_over_pi => ag_four_over_pi
  | two_over_root_pi => ag_two_over_root_pi
  | one_over_root_two => ag_one_over_root_two
  | root_half_pi => ag_root_half_pi
  | root_two_pi => ag_root_two_pi
  | root_ln_four => ag_root_ln_four
  | e => ag_e
  | euler => ag_euler
  | root_two => ag_root_two
  | root_three => ag_root_three
  | root_five => ag_root_five
  | ln_two => ag_ln_two
  | ln_ten => ag_ln_ten
  | ln_ln_two => ag_ln_ln_two
  | third => ag_third
  | two_thirds => ag_two_thirds
  | golden_ratio => ag_golden_ratio
  | convertLinearToSRGB_vec4_float => ag_convertLinearToSRGB_vec4_float
  | convertLinearToSRGB_vec3_float => ag_convertLinearToSRGB_vec3_float
  | convertLinearToSRGB_vec3 => ag_convertLinearToSRGB_vec3
  | convertLinearToSRGB_vec4 => ag_convertLinearToSRGB_vec4
  | convertSRGBToLinear_vec3_float => ag_convertSRGBToLinear_vec3_float
  | convertSRGBToLinear_vec4_float => ag_convertSRGBToLinear_vec4_float
  | convertSRGBToLinear_vec3 => ag_convertSRGBToLinear_vec3
  | convertSRGBToLinear_vec4 => ag_convertSRGBToLinear_vec4
  | matrixCompMult_mat2_mat2 => ag_matrixCompMult_mat2_mat2
  | matrixCompMult_mat3_mat3 => ag_matrixCompMult_mat3_mat3
  | matrixCompMult_mat4_mat4 => ag_matrixCompMult_mat4_mat4
  | transpose_mat2 => ag_transpose_mat2
  | transpose_mat3 => ag_transpose_mat3
  | transpose_mat4 => ag_transpose_mat4
  | determinant_mat2 => ag_determinant_mat2
  | determinant_mat3 => ag_determinant_mat3
  | determinant_mat4 => ag_determinant_mat4
  | inverse_mat2 => ag_inverse_mat2
  | inverse_mat3 => ag_inverse_mat3
  | inverse_mat4 => ag_inverse_mat4
  | adjugate_mat2 => ag_adjugate_mat2
  | adjugate_mat3 => ag_adjugate_mat3
  | adjugate_mat4 => ag_adjugate_mat4
  | inverseTranspose_mat2 => ag_inverseTranspose_mat2
  | inverseTranspose_mat3 => ag_inverseTranspose_mat3
  | inverseTranspose_mat4 => ag_inverseTranspose_mat4
  | adjugateTranspose_mat2 => ag_adjugateTranspose_mat2
  | adjugateTranspose_mat3 => ag_adjugateTranspose_mat3
  | adjugateTranspose_mat4 => ag_adjugateTranspose_mat4
  | translate_mat4_vec3 => ag_translate_mat4_vec3
  | rotate_mat4_float_vec3 => ag_rotate_mat4_float_vec3
  | scale_mat4_vec3 => ag_scale_mat4_vec3
  | lookAtRH_vec3_vec3_vec3 => ag_lookAtRH_vec3_vec3_vec3
  | lookAtLH_vec3_vec3_vec3 => ag_lookAtLH_vec3_vec3_vec3
  | ortho_float_float_float_float => ag_ortho_float_float_float_float
  | orthoLH_ZO_float_float_float_float_float_float => ag_orthoLH_ZO_float_float_float_float_float_float
  | orthoRH_ZO_float_float_float_float_float_float => ag_orthoRH_ZO_float_float_float_float_float_float
  | orthoLH_NO_float_float_float_float_float_float => ag_orthoLH_NO_float_float_float_float_float_float
  | orthoRH_NO_float_float_float_float_float_float => ag_orthoRH_NO_float_float_float_float_float_float
  | perspectiveRH_ZO_float_float_float_float => ag_perspectiveRH_ZO_float_float_float_float
  | perspectiveRH_NO_float_float_float_float => ag_perspectiveRH_NO_float_float_float_float
  | perspectiveLH_ZO_float_float_float_float => ag_perspectiveLH_ZO_float_float_float_float
  | perspectiveLH_NO_float_float_float_float => ag_perspectiveLH_NO_float_float_float_float
  | decompose_orthogonal_mat4_vec3_quat_vec3 => ag_decompose_orthogonal_mat4_vec3_quat_vec3
  | eulerAngles_quat => ag_eulerAngles_quat
  | pitch_quat => ag_pitch_quat
  | yaw_quat => ag_yaw_quat
  | roll_quat => ag_roll_quat
  | mat3_cast_quat => ag_mat3_cast_quat
  | mat4_cast_quat => ag_mat4_cast_quat
  | quat_cast_mat3 => ag_quat_cast_mat3
  | quat_cast_mat4 => ag_quat_cast_mat4
  | quatLookAtLH_vec3_vec3 => ag_quatLookAtLH_vec3_vec3
  | quatLookAtRH_vec3_vec3 => ag_quatLookAtRH_vec3_vec3
  | conjugate_quat => ag_conjugate_quat
  | inverse_quat => ag_inverse_quat
  | lerp_quat_quat_float => ag_lerp_quat_quat_float
  | nlerp_quat_quat_float => ag_nlerp_quat_quat_float
  | slerp_quat_quat_float => ag_slerp_quat_quat_float
  | axis_quat => ag_axis_quat
  | angle_quat => ag_angle_quat
  | angleAxis_float_vec3 => ag_angleAxis_float_vec3
  | rotate_quat_float_vec3 => ag_rotate_quat_float_vec3
  end).
Qed.
Lemma sound_all : forall f, sound f.
Proof.
  exact (fun f => match f return sound f with
  | vec2__default => so_vec2__default
  | vec2__no_init_t => so_vec2__no_init_t
  | vec2__float => so_vec2__float
  | vec2__int => so_vec2__int
  | vec2__float_float => so_vec2__float_float
  | make_vec2_float_ptr => so_make_vec2_float_ptr
  | op_add_vec2_vec2 => so_op_add_vec2_vec2
  | op_add_vec2_float => so_op_add_vec2_float
  | op_add_float_vec2 => so_op_add_float_vec2
  | op_sub_vec2_vec2 => so_op_sub_vec2_vec2
  | op_sub_vec2_float => so_op_sub_vec2_float
  | op_sub_float_vec2 => so_op_sub_float_vec2
  | op_mul_vec2_vec2 => so_op_mul_vec2_vec2
  | op_mul_vec2_float => so_op_mul_vec2_float
  | op_mul_float_vec2 => so_op_mul_float_vec2
  | op_div_vec2_vec2 => so_op_div_vec2_vec2
  | op_div_vec2_float => so_op_div_vec2_float
  | op_div_float_vec2 => so_op_div_float_vec2
  | vec2__op_add_assign_vec2 => so_vec2__op_add_assign_vec2
  | vec2__op_add_assign_float => so_vec2__op_add_assign_float
  | vec2__op_sub_assign_vec2 => so_vec2__op_sub_assign_vec2
  | vec2__op_sub_assign_float => so_vec2__op_sub_assign_float
  | vec2__op_mul_assign_vec2 => so_vec2__op_mul_assign_vec2
  | vec2__op_mul_assign_float => so_vec2__op_mul_assign_float
  | vec2__op_div_assign_vec2 => so_vec2__op_div_assign_vec2
  | vec2__op_div_assign_float => so_vec2__op_div_assign_float
  | op_add_vec2 => so_op_add_vec2
  | op_sub_vec2 => so_op_sub_vec2
  | vec2__preinc => so_vec2__preinc
  | vec2__postinc => so_vec2__postinc
  | vec2__predec => so_vec2__predec
  | vec2__postdec => so_vec2__postdec
  | op_eq_vec2_vec2 => so_op_eq_vec2_vec2
  | op_ne_vec2_vec2 => so_op_ne_vec2_vec2
  | vec2__index => so_vec2__index
  | vec2__index_const => so_vec2__index_const
  | vec3__default => so_vec3__default
  | vec3__no_init_t => so_vec3__no_init_t
  | vec3__float => so_vec3__float
  | vec3__int => so_vec3__int
  | vec3__float_float_float => so_vec3__float_float_float
  | vec3__vec2_float => so_vec3__vec2_float
  | vec3__float_vec2 => so_vec3__float_vec2
  | make_vec3_float_ptr => so_make_vec3_float_ptr
  | op_add_vec3_vec3 => so_op_add_vec3_vec3
  | op_add_vec3_float => so_op_add_vec3_float
  | op_add_float_vec3 => so_op_add_float_vec3
  | op_sub_vec3_vec3 => so_op_sub_vec3_vec3
  | op_sub_vec3_float => so_op_sub_vec3_float
  | op_sub_float_vec3 => so_op_sub_float_vec3
  | op_mul_vec3_vec3 => so_op_mul_vec3_vec3
  | op_mul_vec3_float => so_op_mul_vec3_float
  | op_mul_float_vec3 => so_op_mul_float_vec3
  | op_div_vec3_vec3 => so_op_div_vec3_vec3
  | op_div_vec3_float => so_op_div_vec3_float
  | op_div_float_vec3 => so_op_div_float_vec3
  | vec3__op_add_assign_vec3 => so_vec3__op_add_assign_vec3
  | vec3__op_add_assign_float => so_vec3__op_add_assign_float
  | vec3__op_sub_assign_vec3 => so_vec3__op_sub_assign_vec3
  | vec3__op_sub_assign_float => so_vec3__op_sub_assign_float
  | vec3__op_mul_assign_vec3 => so_vec3__op_mul_assign_vec3
  | vec3__op_mul_assign_float => so_vec3__op_mul_assign_float
  | vec3__op_div_assign_vec3 => so_vec3__op_div_assign_vec3
  | vec3__op_div_assign_float => so_vec3__op_div_assign_float
  | op_sub_vec3 => so_op_sub_vec3
  | op_add_vec3 => so_op_add_vec3
  | vec3__preinc => so_vec3__preinc
  | vec3__postinc => so_vec3__postinc
  | vec3__predec => so_vec3__predec
  | vec3__postdec => so_vec3__postdec
  | op_eq_vec3_vec3 => so_op_eq_vec3_vec3
  | op_ne_vec3_vec3 => so_op_ne_vec3_vec3
  | vec3__index => so_vec3__index
  | vec3__index_const => so_vec3__index_const
  | vec4__default => so_vec4__default
  | vec4__no_init_t => so_vec4__no_init_t
  | vec4__float => so_vec4__float
  | vec4__int => so_vec4__int
  | vec4__float_float_float_float => so_vec4__float_float_float_float
  | vec4__vec3_float => so_vec4__vec3_float
  | vec4__float_vec3 => so_vec4__float_vec3
  | vec4__vec2_vec2 => so_vec4__vec2_vec2
  | vec4__vec2_float_float => so_vec4__vec2_float_float
  | vec4__float_vec2_float => so_vec4__float_vec2_float
  | vec4__float_float_vec2 => so_vec4__float_float_vec2
  | make_vec4_float_ptr => so_make_vec4_float_ptr
  | op_add_vec4_vec4 => so_op_add_vec4_vec4
  | op_add_vec4_float => so_op_add_vec4_float
  | op_add_float_vec4 => so_op_add_float_vec4
  | op_sub_vec4_vec4 => so_op_sub_vec4_vec4
  | op_sub_vec4_float => so_op_sub_vec4_float
  | op_sub_float_vec4 => so_op_sub_float_vec4
  | op_mul_vec4_vec4 => so_op_mul_vec4_vec4
  | op_mul_vec4_float => so_op_mul_vec4_float
  | op_mul_float_vec4 => so_op_mul_float_vec4
  | op_div_vec4_vec4 => so_op_div_vec4_vec4
  | op_div_vec4_float => so_op_div_vec4_float
  | op_div_float_vec4 => so_op_div_float_vec4
  | vec4__op_add_assign_vec4 => so_vec4__op_add_assign_vec4
  | vec4__op_add_assign_float => so_vec4__op_add_assign_float
  | vec4__op_sub_assign_vec4 => so_vec4__op_sub_assign_vec4
  | vec4__op_sub_assign_float => so_vec4__op_sub_assign_float
  | vec4__op_mul_assign_vec4 => so_vec4__op_mul_assign_vec4
  | vec4__op_mul_assign_float => so_vec4__op_mul_assign_float
  | vec4__op_div_assign_vec4 => so_vec4__op_div_assign_vec4
  | vec4__op_div_assign_float => so_vec4__op_div_assign_float
  | op_sub_vec4 => so_op_sub_vec4
  | op_add_vec4 => so_op_add_vec4
  | vec4__preinc => so_vec4__preinc
  | vec4__postinc => so_vec4__postinc
  | vec4__predec => so_vec4__predec
  | vec4__postdec => so_vec4__postdec
  | op_eq_vec4_vec4 => so_op_eq_vec4_vec4
  | op_ne_vec4_vec4 => so_op_ne_vec4_vec4
  | vec4__index => so_vec4__index
  | vec4__index_const => so_vec4__index_const
  | ivec2__default => so_ivec2__default
  | ivec2__no_init_t => so_ivec2__no_init_t
  | ivec2__int => so_ivec2__int
  | ivec2__int_int => so_ivec2__int_int
  | op_add_ivec2 => so_op_add_ivec2
  | op_sub_ivec2 => so_op_sub_ivec2
  | make_ivec2_int_ptr => so_make_ivec2_int_ptr
  | op_add_ivec2_ivec2 => so_op_add_ivec2_ivec2
  | op_add_ivec2_int => so_op_add_ivec2_int
  | op_add_int_ivec2 => so_op_add_int_ivec2
  | op_sub_ivec2_ivec2 => so_op_sub_ivec2_ivec2
  | op_sub_ivec2_int => so_op_sub_ivec2_int
  | op_sub_int_ivec2 => so_op_sub_int_ivec2
  | op_mul_ivec2_ivec2 => so_op_mul_ivec2_ivec2
  | op_mul_ivec2_int => so_op_mul_ivec2_int
  | op_mul_int_ivec2 => so_op_mul_int_ivec2
  | op_div_ivec2_ivec2 => so_op_div_ivec2_ivec2
  | op_div_ivec2_int => so_op_div_ivec2_int
  | op_div_int_ivec2 => so_op_div_int_ivec2
  | op_rem_ivec2_ivec2 => so_op_rem_ivec2_ivec2
  | op_rem_ivec2_int => so_op_rem_ivec2_int
  | op_rem_int_ivec2 => so_op_rem_int_ivec2
  | op_or_ivec2_ivec2 => so_op_or_ivec2_ivec2
  | op_or_ivec2_int => so_op_or_ivec2_int
  | op_or_int_ivec2 => so_op_or_int_ivec2
  | op_and_ivec2_ivec2 => so_op_and_ivec2_ivec2
  | op_and_ivec2_int => so_op_and_ivec2_int
  | op_and_int_ivec2 => so_op_and_int_ivec2
  | op_xor_ivec2_ivec2 => so_op_xor_ivec2_ivec2
  | op_xor_ivec2_int => so_op_xor_ivec2_int
  | op_xor_int_ivec2 => so_op_xor_int_ivec2
  | op_shr_ivec2_ivec2 => so_op_shr_ivec2_ivec2
  | op_shr_ivec2_int => so_op_shr_ivec2_int
  | op_shr_int_ivec2 => so_op_shr_int_ivec2
  | op_shl_ivec2_ivec2 => so_op_shl_ivec2_ivec2
  | op_shl_ivec2_int => so_op_shl_ivec2_int
  | op_shl_int_ivec2 => so_op_shl_int_ivec2
  | ivec2__op_add_assign_ivec2 => so_ivec2__op_add_assign_ivec2
  | ivec2__op_add_assign_int => so_ivec2__op_add_assign_int
  | ivec2__op_sub_assign_ivec2 => so_ivec2__op_sub_assign_ivec2
  | ivec2__op_sub_assign_int => so_ivec2__op_sub_assign_int
  | ivec2__op_mul_assign_ivec2 => so_ivec2__op_mul_assign_ivec2
  | ivec2__op_mul_assign_int => so_ivec2__op_mul_assign_int
  | ivec2__op_div_assign_ivec2 => so_ivec2__op_div_assign_ivec2
  | ivec2__op_div_assign_int => so_ivec2__op_div_assign_int
  | ivec2__op_rem_assign_ivec2 => so_ivec2__op_rem_assign_ivec2
  | ivec2__op_rem_assign_int => so_ivec2__op_rem_assign_int
  | ivec2__op_or_assign_ivec2 => so_ivec2__op_or_assign_ivec2
  | ivec2__op_or_assign_int => so_ivec2__op_or_assign_int
  | ivec2__op_and_assign_ivec2 => so_ivec2__op_and_assign_ivec2
  | ivec2__op_and_assign_int => so_ivec2__op_and_assign_int
  | ivec2__op_xor_assign_ivec2 => so_ivec2__op_xor_assign_ivec2
  | ivec2__op_xor_assign_int => so_ivec2__op_xor_assign_int
  | ivec2__op_shr_assign_ivec2 => so_ivec2__op_shr_assign_ivec2
  | ivec2__op_shr_assign_int => so_ivec2__op_shr_assign_int
  | ivec2__op_shl_assign_ivec2 => so_ivec2__op_shl_assign_ivec2
  | ivec2__op_shl_assign_int => so_ivec2__op_shl_assign_int
  | op_eq_ivec2_ivec2 => so_op_eq_ivec2_ivec2
  | op_ne_ivec2_ivec2 => so_op_ne_ivec2_ivec2
  | op_lt_ivec2_ivec2 => so_op_lt_ivec2_ivec2
  | op_le_ivec2_ivec2 => so_op_le_ivec2_ivec2
  | op_gt_ivec2_ivec2 => so_op_gt_ivec2_ivec2
  | op_ge_ivec2_ivec2 => so_op_ge_ivec2_ivec2
  | ivec2__index => so_ivec2__index
  | ivec2__index_const => so_ivec2__index_const
  | ivec2__to_bvec2 => so_ivec2__to_bvec2
  | ivec2__preinc => so_ivec2__preinc
  | ivec2__postinc => so_ivec2__postinc
  | ivec2__predec => so_ivec2__predec
  | ivec2__postdec => so_ivec2__postdec
  | ivec3__default => so_ivec3__default
  | ivec3__no_init_t => so_ivec3__no_init_t
  | ivec3__int => so_ivec3__int
  | ivec3__int_int_int => so_ivec3__int_int_int
  | ivec3__ivec2_int => so_ivec3__ivec2_int
  | ivec3__int_ivec2 => so_ivec3__int_ivec2
  | make_ivec3_int_ptr => so_make_ivec3_int_ptr
  | op_add_ivec3_ivec3 => so_op_add_ivec3_ivec3
  | op_add_ivec3_int => so_op_add_ivec3_int
  | op_add_int_ivec3 => so_op_add_int_ivec3
  | op_sub_ivec3_ivec3 => so_op_sub_ivec3_ivec3
  | op_sub_ivec3_int => so_op_sub_ivec3_int
  | op_sub_int_ivec3 => so_op_sub_int_ivec3
  | op_mul_ivec3_ivec3 => so_op_mul_ivec3_ivec3
  | op_mul_ivec3_int => so_op_mul_ivec3_int
  | op_mul_int_ivec3 => so_op_mul_int_ivec3
  | op_div_ivec3_ivec3 => so_op_div_ivec3_ivec3
  | op_div_ivec3_int => so_op_div_ivec3_int
  | op_div_int_ivec3 => so_op_div_int_ivec3
  | op_rem_ivec3_ivec3 => so_op_rem_ivec3_ivec3
  | op_rem_ivec3_int => so_op_rem_ivec3_int
  | op_rem_int_ivec3 => so_op_rem_int_ivec3
  | op_or_ivec3_ivec3 => so_op_or_ivec3_ivec3
  | op_or_ivec3_int => so_op_or_ivec3_int
  | op_or_int_ivec3 => so_op_or_int_ivec3
  | op_and_ivec3_ivec3 => so_op_and_ivec3_ivec3
  | op_and_ivec3_int => so_op_and_ivec3_int
  | op_and_int_ivec3 => so_op_and_int_ivec3
  | op_xor_ivec3_ivec3 => so_op_xor_ivec3_ivec3
  | op_xor_ivec3_int => so_op_xor_ivec3_int
  | op_xor_int_ivec3 => so_op_xor_int_ivec3
  | op_shr_ivec3_ivec3 => so_op_shr_ivec3_ivec3
  | op_shr_ivec3_int => so_op_shr_ivec3_int
  | op_shr_int_ivec3 => so_op_shr_int_ivec3
  | op_shl_ivec3_ivec3 => so_op_shl_ivec3_ivec3
  | op_shl_ivec3_int => so_op_shl_ivec3_int
  | op_shl_int_ivec3 => so_op_shl_int_ivec3
  | ivec3__op_add_assign_ivec3 => so_ivec3__op_add_assign_ivec3
  | ivec3__op_add_assign_int => so_ivec3__op_add_assign_int
  | ivec3__op_sub_assign_ivec3 => so_ivec3__op_sub_assign_ivec3
  | ivec3__op_sub_assign_int => so_ivec3__op_sub_assign_int
  | ivec3__op_mul_assign_ivec3 => so_ivec3__op_mul_assign_ivec3
  | ivec3__op_mul_assign_int => so_ivec3__op_mul_assign_int
  | ivec3__op_div_assign_ivec3 => so_ivec3__op_div_assign_ivec3
  | ivec3__op_div_assign_int => so_ivec3__op_div_assign_int
  | ivec3__op_rem_assign_ivec3 => so_ivec3__op_rem_assign_ivec3
  | ivec3__op_rem_assign_int => so_ivec3__op_rem_assign_int
  | ivec3__op_or_assign_ivec3 => so_ivec3__op_or_assign_ivec3
  | ivec3__op_or_assign_int => so_ivec3__op_or_assign_int
  | ivec3__op_and_assign_ivec3 => so_ivec3__op_and_assign_ivec3
  | ivec3__op_and_assign_int => so_ivec3__op_and_assign_int
  | ivec3__op_xor_assign_ivec3 => so_ivec3__op_xor_assign_ivec3
  | ivec3__op_xor_assign_int => so_ivec3__op_xor_assign_int
  | ivec3__op_shr_assign_ivec3 => so_ivec3__op_shr_assign_ivec3
  | ivec3__op_shr_assign_int => so_ivec3__op_shr_assign_int
  | ivec3__op_shl_assign_ivec3 => so_ivec3__op_shl_assign_ivec3
  | ivec3__op_shl_assign_int => so_ivec3__op_shl_assign_int
  | op_sub_ivec3 => so_op_sub_ivec3
  | op_add_ivec3 => so_op_add_ivec3
  | op_eq_ivec3_ivec3 => so_op_eq_ivec3_ivec3
  | op_ne_ivec3_ivec3 => so_op_ne_ivec3_ivec3
  | ivec3__index => so_ivec3__index
  | ivec3__index_const => so_ivec3__index_const
  | ivec3__preinc => so_ivec3__preinc
  | ivec3__postinc => so_ivec3__postinc
  | ivec3__predec => so_ivec3__predec
  | ivec3__postdec => so_ivec3__postdec
  | ivec3__to_bvec3 => so_ivec3__to_bvec3
  | op_lt_ivec3_ivec3 => so_op_lt_ivec3_ivec3
  | op_le_ivec3_ivec3 => so_op_le_ivec3_ivec3
  | op_gt_ivec3_ivec3 => so_op_gt_ivec3_ivec3
  | op_ge_ivec3_ivec3 => so_op_ge_ivec3_ivec3
  | ivec4__default => so_ivec4__default
  | ivec4__no_init_t => so_ivec4__no_init_t
  | ivec4__int => so_ivec4__int
  | ivec4__int_int_int_int => so_ivec4__int_int_int_int
  | ivec4__ivec3_int => so_ivec4__ivec3_int
  | ivec4__int_ivec3 => so_ivec4__int_ivec3
  | ivec4__ivec2_ivec2 => so_ivec4__ivec2_ivec2
  | ivec4__ivec2_int_int => so_ivec4__ivec2_int_int
  | ivec4__int_ivec2_int => so_ivec4__int_ivec2_int
  | ivec4__int_int_ivec2 => so_ivec4__int_int_ivec2
  | make_ivec4_int_ptr => so_make_ivec4_int_ptr
  | op_add_ivec4_ivec4 => so_op_add_ivec4_ivec4
  | op_add_ivec4_int => so_op_add_ivec4_int
  | op_add_int_ivec4 => so_op_add_int_ivec4
  | op_sub_ivec4_ivec4 => so_op_sub_ivec4_ivec4
  | op_sub_ivec4_int => so_op_sub_ivec4_int
  | op_sub_int_ivec4 => so_op_sub_int_ivec4
  | op_mul_ivec4_ivec4 => so_op_mul_ivec4_ivec4
  | op_mul_ivec4_int => so_op_mul_ivec4_int
  | op_mul_int_ivec4 => so_op_mul_int_ivec4
  | op_div_ivec4_ivec4 => so_op_div_ivec4_ivec4
  | op_div_ivec4_int => so_op_div_ivec4_int
  | op_div_int_ivec4 => so_op_div_int_ivec4
  | ivec4__op_add_assign_ivec4 => so_ivec4__op_add_assign_ivec4
  | ivec4__op_add_assign_int => so_ivec4__op_add_assign_int
  | ivec4__op_sub_assign_ivec4 => so_ivec4__op_sub_assign_ivec4
  | ivec4__op_sub_assign_int => so_ivec4__op_sub_assign_int
  | ivec4__op_mul_assign_ivec4 => so_ivec4__op_mul_assign_ivec4
  | ivec4__op_mul_assign_int => so_ivec4__op_mul_assign_int
  | ivec4__op_div_assign_ivec4 => so_ivec4__op_div_assign_ivec4
  | ivec4__op_div_assign_int => so_ivec4__op_div_assign_int
  | op_sub_ivec4 => so_op_sub_ivec4
  | op_add_ivec4 => so_op_add_ivec4
  | ivec4__preinc => so_ivec4__preinc
  | ivec4__postinc => so_ivec4__postinc
  | ivec4__predec => so_ivec4__predec
  | ivec4__postdec => so_ivec4__postdec
  | op_eq_ivec4_ivec4 => so_op_eq_ivec4_ivec4
  | op_ne_ivec4_ivec4 => so_op_ne_ivec4_ivec4
  | op_lt_ivec4_ivec4 => so_op_lt_ivec4_ivec4
  | op_le_ivec4_ivec4 => so_op_le_ivec4_ivec4
  | op_gt_ivec4_ivec4 => so_op_gt_ivec4_ivec4
  | op_ge_ivec4_ivec4 => so_op_ge_ivec4_ivec4
  | ivec4__index => so_ivec4__index
  | ivec4__index_const => so_ivec4__index_const
  | ivec4__to_bvec4 => so_ivec4__to_bvec4
  | bvec2__default => so_bvec2__default
  | bvec2__bool => so_bvec2__bool
  | bvec2__bool_bool => so_bvec2__bool_bool
  | op_land_bvec2_bvec2 => so_op_land_bvec2_bvec2
  | op_land_bvec2_bool => so_op_land_bvec2_bool
  | op_land_bool_bvec2 => so_op_land_bool_bvec2
  | op_lor_bvec2_bvec2 => so_op_lor_bvec2_bvec2
  | op_lor_bvec2_bool => so_op_lor_bvec2_bool
  | op_lor_bool_bvec2 => so_op_lor_bool_bvec2
  | op_xor_bvec2_bvec2 => so_op_xor_bvec2_bvec2
  | op_xor_bvec2_bool => so_op_xor_bvec2_bool
  | op_xor_bool_bvec2 => so_op_xor_bool_bvec2
  | op_not_bvec2 => so_op_not_bvec2
  | bvec2__op_and_assign_bool => so_bvec2__op_and_assign_bool
  | bvec2__op_or_assign_bool => so_bvec2__op_or_assign_bool
  | bvec2__op_xor_assign_bool => so_bvec2__op_xor_assign_bool
  | bvec2__op_and_assign_bvec2 => so_bvec2__op_and_assign_bvec2
  | bvec2__op_or_assign_bvec2 => so_bvec2__op_or_assign_bvec2
  | bvec2__op_xor_assign_bvec2 => so_bvec2__op_xor_assign_bvec2
  | op_eq_bvec2_bvec2 => so_op_eq_bvec2_bvec2
  | op_ne_bvec2_bvec2 => so_op_ne_bvec2_bvec2
  | bvec2__index => so_bvec2__index
  | bvec2__index_const => so_bvec2__index_const
  | make_bvec2_bool_ptr => so_make_bvec2_bool_ptr
  | bvec3__default => so_bvec3__default
  | bvec3__bool => so_bvec3__bool
  | bvec3__bool_bool_bool => so_bvec3__bool_bool_bool
  | bvec3__bvec2_bool => so_bvec3__bvec2_bool
  | bvec3__bool_bvec2 => so_bvec3__bool_bvec2
  | op_land_bvec3_bvec3 => so_op_land_bvec3_bvec3
  | op_land_bvec3_bool => so_op_land_bvec3_bool
  | op_land_bool_bvec3 => so_op_land_bool_bvec3
  | op_lor_bvec3_bvec3 => so_op_lor_bvec3_bvec3
  | op_lor_bvec3_bool => so_op_lor_bvec3_bool
  | op_lor_bool_bvec3 => so_op_lor_bool_bvec3
  | op_xor_bvec3_bvec3 => so_op_xor_bvec3_bvec3
  | op_xor_bvec3_bool => so_op_xor_bvec3_bool
  | op_xor_bool_bvec3 => so_op_xor_bool_bvec3
  | op_not_bvec3 => so_op_not_bvec3
  | bvec3__op_and_assign_bool => so_bvec3__op_and_assign_bool
  | bvec3__op_or_assign_bool => so_bvec3__op_or_assign_bool
  | bvec3__op_xor_assign_bool => so_bvec3__op_xor_assign_bool
  | bvec3__op_and_assign_bvec3 => so_bvec3__op_and_assign_bvec3
  | bvec3__op_or_assign_bvec3 => so_bvec3__op_or_assign_bvec3
  | bvec3__op_xor_assign_bvec3 => so_bvec3__op_xor_assign_bvec3
  | op_eq_bvec3_bvec3 => so_op_eq_bvec3_bvec3
  | op_ne_bvec3_bvec3 => so_op_ne_bvec3_bvec3
  | bvec3__index => so_bvec3__index
  | bvec3__index_const => so_bvec3__index_const
  | make_bvec3_bool_ptr => so_make_bvec3_bool_ptr
  | bvec4__default => so_bvec4__default
  | bvec4__bool => so_bvec4__bool
  | bvec4__bool_bool_bool_bool => so_bvec4__bool_bool_bool_bool
  | bvec4__bvec3_bool => so_bvec4__bvec3_bool
  | bvec4__bool_bvec3 => so_bvec4__bool_bvec3
  | bvec4__bvec2_bvec2 => so_bvec4__bvec2_bvec2
  | bvec4__bvec2_bool_bool => so_bvec4__bvec2_bool_bool
  | bvec4__bool_bvec2_bool => so_bvec4__bool_bvec2_bool
  | bvec4__bool_bool_bvec2 => so_bvec4__bool_bool_bvec2
  | op_land_bvec4_bvec4 => so_op_land_bvec4_bvec4
  | op_land_bvec4_bool => so_op_land_bvec4_bool
  | op_land_bool_bvec4 => so_op_land_bool_bvec4
  | op_lor_bvec4_bvec4 => so_op_lor_bvec4_bvec4
  | op_lor_bvec4_bool => so_op_lor_bvec4_bool
  | op_lor_bool_bvec4 => so_op_lor_bool_bvec4
  | op_xor_bvec4_bvec4 => so_op_xor_bvec4_bvec4
  | op_xor_bvec4_bool => so_op_xor_bvec4_bool
  | op_xor_bool_bvec4 => so_op_xor_bool_bvec4
  | op_not_bvec4 => so_op_not_bvec4
  | op_eq_bvec4_bvec4 => so_op_eq_bvec4_bvec4
  | op_ne_bvec4_bvec4 => so_op_ne_bvec4_bvec4
  | bvec4__op_and_assign_bool => so_bvec4__op_and_assign_bool
  | bvec4__op_or_assign_bool => so_bvec4__op_or_assign_bool
  | bvec4__op_xor_assign_bool => so_bvec4__op_xor_assign_bool
  | bvec4__op_and_assign_bvec4 => so_bvec4__op_and_assign_bvec4
  | bvec4__op_or_assign_bvec4 => so_bvec4__op_or_assign_bvec4
  | bvec4__op_xor_assign_bvec4 => so_bvec4__op_xor_assign_bvec4
  | bvec4__index => so_bvec4__index
  | bvec4__index_const => so_bvec4__index_const
  | make_bvec4_bool_ptr => so_make_bvec4_bool_ptr
  | mat2__default => so_mat2__default
  | mat2__no_init_t => so_mat2__no_init_t
  | mat2__float => so_mat2__float
  | mat2__float_float_float_float => so_mat2__float_float_float_float
  | mat2__vec2_vec2 => so_mat2__vec2_vec2
  | mat2__index => so_mat2__index
  | mat2__index_const => so_mat2__index_const
  | op_add_mat2_mat2 => so_op_add_mat2_mat2
  | op_sub_mat2_mat2 => so_op_sub_mat2_mat2
  | op_sub_mat2 => so_op_sub_mat2
  | op_add_mat2 => so_op_add_mat2
  | op_mul_mat2_mat2 => so_op_mul_mat2_mat2
  | op_div_mat2_mat2 => so_op_div_mat2_mat2
  | op_mul_mat2_float => so_op_mul_mat2_float
  | op_div_mat2_float => so_op_div_mat2_float
  | op_mul_float_mat2 => so_op_mul_float_mat2
  | op_div_float_mat2 => so_op_div_float_mat2
  | op_mul_mat2_vec2 => so_op_mul_mat2_vec2
  | op_mul_vec2_mat2 => so_op_mul_vec2_mat2
  | op_div_mat2_vec2 => so_op_div_mat2_vec2
  | op_div_vec2_mat2 => so_op_div_vec2_mat2
  | mat2__op_add_assign_mat2 => so_mat2__op_add_assign_mat2
  | mat2__op_sub_assign_mat2 => so_mat2__op_sub_assign_mat2
  | mat2__op_mul_assign_mat2 => so_mat2__op_mul_assign_mat2
  | mat2__op_div_assign_mat2 => so_mat2__op_div_assign_mat2
  | op_eq_mat2_mat2 => so_op_eq_mat2_mat2
  | op_ne_mat2_mat2 => so_op_ne_mat2_mat2
  | make_mat2_float_ptr => so_make_mat2_float_ptr
  | mat3__default => so_mat3__default
  | mat3__no_init_t => so_mat3__no_init_t
  | mat3__float => so_mat3__float
  | mat3__mat2 => so_mat3__mat2
  | mat3__to_mat2 => so_mat3__to_mat2
  | mat3__vec3_vec3_vec3 => so_mat3__vec3_vec3_vec3
  | mat3__float_float_float_float_float_float_float_float_float => so_mat3__float_float_float_float_float_float_float_float_float
  | op_add_mat3_mat3 => so_op_add_mat3_mat3
  | op_sub_mat3_mat3 => so_op_sub_mat3_mat3
  | op_sub_mat3 => so_op_sub_mat3
  | op_add_mat3 => so_op_add_mat3
  | op_mul_mat3_mat3 => so_op_mul_mat3_mat3
  | op_div_mat3_mat3 => so_op_div_mat3_mat3
  | op_mul_mat3_float => so_op_mul_mat3_float
  | op_div_mat3_float => so_op_div_mat3_float
  | op_mul_float_mat3 => so_op_mul_float_mat3
  | op_div_float_mat3 => so_op_div_float_mat3
  | mat3__index => so_mat3__index
  | mat3__index_const => so_mat3__index_const
  | mat3__op_add_assign_mat3 => so_mat3__op_add_assign_mat3
  | mat3__op_sub_assign_mat3 => so_mat3__op_sub_assign_mat3
  | mat3__op_mul_assign_mat3 => so_mat3__op_mul_assign_mat3
  | mat3__op_div_assign_mat3 => so_mat3__op_div_assign_mat3
  | op_mul_mat3_vec3 => so_op_mul_mat3_vec3
  | op_mul_vec3_mat3 => so_op_mul_vec3_mat3
  | op_div_mat3_vec3 => so_op_div_mat3_vec3
  | op_div_vec3_mat3 => so_op_div_vec3_mat3
  | op_eq_mat3_mat3 => so_op_eq_mat3_mat3
  | op_ne_mat3_mat3 => so_op_ne_mat3_mat3
  | make_mat3_float_ptr => so_make_mat3_float_ptr
  | mat4__default => so_mat4__default
  | mat4__no_init_t => so_mat4__no_init_t
  | mat4__float => so_mat4__float
  | mat4__vec4_vec4_vec4_vec4 => so_mat4__vec4_vec4_vec4_vec4
  | mat4__float_float_float_float_float_float_float_float_float_float_float_float_float_float_float_float => so_mat4__float_float_float_float_float_float_float_float_float_float_float_float_float_float_float_float
  | mat4__mat3 => so_mat4__mat3
  | mat4__to_mat3 => so_mat4__to_mat3
  | op_add_mat4_mat4 => so_op_add_mat4_mat4
  | op_sub_mat4_mat4 => so_op_sub_mat4_mat4
  | op_sub_mat4 => so_op_sub_mat4
  | op_add_mat4 => so_op_add_mat4
  | op_mul_mat4_mat4 => so_op_mul_mat4_mat4
  | op_div_mat4_mat4 => so_op_div_mat4_mat4
  | op_mul_mat4_float => so_op_mul_mat4_float
  | op_div_mat4_float => so_op_div_mat4_float
  | op_mul_float_mat4 => so_op_mul_float_mat4
  | op_div_float_mat4 => so_op_div_float_mat4
  | mat4__op_add_assign_mat4 => so_mat4__op_add_assign_mat4
  | mat4__op_sub_assign_mat4 => so_mat4__op_sub_assign_mat4
  | mat4__op_mul_assign_mat4 => so_mat4__op_mul_assign_mat4
  | mat4__op_div_assign_mat4 => so_mat4__op_div_assign_mat4
  | mat4__index => so_mat4__index
  | mat4__index_const => so_mat4__index_const
  | op_mul_mat4_vec4 => so_op_mul_mat4_vec4
  | op_mul_vec4_mat4 => so_op_mul_vec4_mat4
  | op_div_mat4_vec4 => so_op_div_mat4_vec4
  | op_div_vec4_mat4 => so_op_div_vec4_mat4
  | op_eq_mat4_mat4 => so_op_eq_mat4_mat4
  | op_ne_mat4_mat4 => so_op_ne_mat4_mat4
  | make_mat4_float_ptr => so_make_mat4_float_ptr
  | quat__default => so_quat__default
  | quat__no_init_t => so_quat__no_init_t
  | quat__float_float_float_float => so_quat__float_float_float_float
  | quat__float_vec3 => so_quat__float_vec3
  | quat__vec3_float => so_quat__vec3_float
  | quat__wxyz_float_float_float_float => so_quat__wxyz_float_float_float_float
  | quat__vec3_vec3 => so_quat__vec3_vec3
  | quat__vec3 => so_quat__vec3
  | make_quat_float_ptr => so_make_quat_float_ptr
  | quat__index => so_quat__index
  | quat__index_const => so_quat__index_const
  | quat__op_add_assign_quat => so_quat__op_add_assign_quat
  | quat__op_sub_assign_quat => so_quat__op_sub_assign_quat
  | quat__op_mul_assign_quat => so_quat__op_mul_assign_quat
  | quat__op_mul_assign_float => so_quat__op_mul_assign_float
  | quat__op_div_assign_float => so_quat__op_div_assign_float
  | op_add_quat_quat => so_op_add_quat_quat
  | op_sub_quat_quat => so_op_sub_quat_quat
  | op_add_quat => so_op_add_quat
  | op_sub_quat => so_op_sub_quat
  | op_mul_quat_quat => so_op_mul_quat_quat
  | op_mul_quat_float => so_op_mul_quat_float
  | op_mul_float_quat => so_op_mul_float_quat
  | op_div_float_quat => so_op_div_float_quat
  | op_div_quat_float => so_op_div_quat_float
  | op_mul_quat_vec3 => so_op_mul_quat_vec3
  | op_mul_vec3_quat => so_op_mul_vec3_quat
  | op_eq_quat_quat => so_op_eq_quat_quat
  | op_ne_quat_quat => so_op_ne_quat_quat
  | abs_float => so_abs_float
  | abs_vec2 => so_abs_vec2
  | abs_vec3 => so_abs_vec3
  | abs_vec4 => so_abs_vec4
  | abs_int => so_abs_int
  | abs_ivec2 => so_abs_ivec2
  | abs_ivec3 => so_abs_ivec3
  | abs_ivec4 => so_abs_ivec4
  | ceil_float => so_ceil_float
  | ceil_vec2 => so_ceil_vec2
  | ceil_vec3 => so_ceil_vec3
  | ceil_vec4 => so_ceil_vec4
  | clamp_float_float_float => so_clamp_float_float_float
  | clamp_vec2_vec2_vec2 => so_clamp_vec2_vec2_vec2
  | clamp_vec3_vec3_vec3 => so_clamp_vec3_vec3_vec3
  | clamp_vec4_vec4_vec4 => so_clamp_vec4_vec4_vec4
  | clamp_int_int_int => so_clamp_int_int_int
  | clamp_ivec2_ivec2_ivec2 => so_clamp_ivec2_ivec2_ivec2
  | clamp_ivec3_ivec3_ivec3 => so_clamp_ivec3_ivec3_ivec3
  | clamp_ivec4_ivec4_ivec4 => so_clamp_ivec4_ivec4_ivec4
  | floor_float => so_floor_float
  | floor_vec2 => so_floor_vec2
  | floor_vec3 => so_floor_vec3
  | floor_vec4 => so_floor_vec4
  | fma_float_float_float => so_fma_float_float_float
  | fma_vec2_vec2_vec2 => so_fma_vec2_vec2_vec2
  | fma_vec3_vec3_vec3 => so_fma_vec3_vec3_vec3
  | fma_vec4_vec4_vec4 => so_fma_vec4_vec4_vec4
  | fract_float => so_fract_float
  | fract_vec2 => so_fract_vec2
  | fract_vec3 => so_fract_vec3
  | fract_vec4 => so_fract_vec4
  | max_float_float => so_max_float_float
  | max_vec2_vec2 => so_max_vec2_vec2
  | max_vec3_vec3 => so_max_vec3_vec3
  | max_vec4_vec4 => so_max_vec4_vec4
  | max_int_int => so_max_int_int
  | max_ivec2_ivec2 => so_max_ivec2_ivec2
  | max_ivec3_ivec3 => so_max_ivec3_ivec3
  | max_ivec4_ivec4 => so_max_ivec4_ivec4
  | min_float_float => so_min_float_float
  | min_vec2_vec2 => so_min_vec2_vec2
  | min_vec3_vec3 => so_min_vec3_vec3
  | min_vec4_vec4 => so_min_vec4_vec4
  | min_int_int => so_min_int_int
  | min_ivec2_ivec2 => so_min_ivec2_ivec2
  | min_ivec3_ivec3 => so_min_ivec3_ivec3
  | min_ivec4_ivec4 => so_min_ivec4_ivec4
  | mod_float_float => so_mod_float_float
  | mod_vec2_vec2 => so_mod_vec2_vec2
  | mod_vec3_vec3 => so_mod_vec3_vec3
  | mod_vec4_vec4 => so_mod_vec4_vec4
  | mod_vec2_float => so_mod_vec2_float
  | mod_vec3_float => so_mod_vec3_float
  | mod_vec4_float => so_mod_vec4_float
  | round_float => so_round_float
  | round_vec2 => so_round_vec2
  | round_vec3 => so_round_vec3
  | round_vec4 => so_round_vec4
  | roundEven_float => so_roundEven_float
  | roundEven_vec2 => so_roundEven_vec2
  | roundEven_vec3 => so_roundEven_vec3
  | roundEven_vec4 => so_roundEven_vec4
  | sign_float => so_sign_float
  | sign_vec2 => so_sign_vec2
  | sign_vec3 => so_sign_vec3
  | sign_vec4 => so_sign_vec4
  | sign_int => so_sign_int
  | sign_ivec2 => so_sign_ivec2
  | sign_ivec3 => so_sign_ivec3
  | sign_ivec4 => so_sign_ivec4
  | signNotZero_float => so_signNotZero_float
  | signNotZero_vec2 => so_signNotZero_vec2
  | signNotZero_vec3 => so_signNotZero_vec3
  | signNotZero_vec4 => so_signNotZero_vec4
  | signNotZero_int => so_signNotZero_int
  | signNotZero_ivec2 => so_signNotZero_ivec2
  | signNotZero_ivec3 => so_signNotZero_ivec3
  | signNotZero_ivec4 => so_signNotZero_ivec4
  | trunc_float => so_trunc_float
  | trunc_vec2 => so_trunc_vec2
  | trunc_vec3 => so_trunc_vec3
  | trunc_vec4 => so_trunc_vec4
  | smoothstep_float_float_float => so_smoothstep_float_float_float
  | smoothstep_vec2_vec2_vec2 => so_smoothstep_vec2_vec2_vec2
  | smoothstep_vec3_vec3_vec3 => so_smoothstep_vec3_vec3_vec3
  | smoothstep_vec4_vec4_vec4 => so_smoothstep_vec4_vec4_vec4
  | step_float_float => so_step_float_float
  | step_vec2_vec2 => so_step_vec2_vec2
  | step_vec3_vec3 => so_step_vec3_vec3
  | step_vec4_vec4 => so_step_vec4_vec4
  | mix_float_float_float => so_mix_float_float_float
  | mix_vec2_vec2_vec2 => so_mix_vec2_vec2_vec2
  | mix_vec3_vec3_vec3 => so_mix_vec3_vec3_vec3
  | mix_vec4_vec4_vec4 => so_mix_vec4_vec4_vec4
  | mix_vec2_vec2_float => so_mix_vec2_vec2_float
  | mix_vec3_vec3_float => so_mix_vec3_vec3_float
  | mix_vec4_vec4_float => so_mix_vec4_vec4_float
  | mix_float_float_bool => so_mix_float_float_bool
  | mix_vec2_vec2_bvec2 => so_mix_vec2_vec2_bvec2
  | mix_vec3_vec3_bvec3 => so_mix_vec3_vec3_bvec3
  | mix_vec4_vec4_bvec4 => so_mix_vec4_vec4_bvec4
  | isinf_float => so_isinf_float
  | isinf_vec2 => so_isinf_vec2
  | isinf_vec3 => so_isinf_vec3
  | isinf_vec4 => so_isinf_vec4
  | isinf_quat => so_isinf_quat
  | isnan_float => so_isnan_float
  | isnan_vec2 => so_isnan_vec2
  | isnan_vec3 => so_isnan_vec3
  | isnan_vec4 => so_isnan_vec4
  | isnan_quat => so_isnan_quat
  | lessThan_vec2_vec2 => so_lessThan_vec2_vec2
  | lessThan_vec3_vec3 => so_lessThan_vec3_vec3
  | lessThan_vec4_vec4 => so_lessThan_vec4_vec4
  | lessThanEqual_vec2_vec2 => so_lessThanEqual_vec2_vec2
  | lessThanEqual_vec3_vec3 => so_lessThanEqual_vec3_vec3
  | lessThanEqual_vec4_vec4 => so_lessThanEqual_vec4_vec4
  | greaterThan_vec2_vec2 => so_greaterThan_vec2_vec2
  | greaterThan_vec3_vec3 => so_greaterThan_vec3_vec3
  | greaterThan_vec4_vec4 => so_greaterThan_vec4_vec4
  | greaterThanEqual_vec2_vec2 => so_greaterThanEqual_vec2_vec2
  | greaterThanEqual_vec3_vec3 => so_greaterThanEqual_vec3_vec3
  | greaterThanEqual_vec4_vec4 => so_greaterThanEqual_vec4_vec4
  | equal_vec2_vec2 => so_equal_vec2_vec2
  | equal_vec3_vec3 => so_equal_vec3_vec3
  | equal_vec4_vec4 => so_equal_vec4_vec4
  | equal_quat_quat => so_equal_quat_quat
  | equal_bvec2_bvec2 => so_equal_bvec2_bvec2
  | equal_bvec3_bvec3 => so_equal_bvec3_bvec3
  | equal_bvec4_bvec4 => so_equal_bvec4_bvec4
  | notEqual_vec2_vec2 => so_notEqual_vec2_vec2
  | notEqual_vec3_vec3 => so_notEqual_vec3_vec3
  | notEqual_vec4_vec4 => so_notEqual_vec4_vec4
  | notEqual_quat_quat => so_notEqual_quat_quat
  | notEqual_bvec2_bvec2 => so_notEqual_bvec2_bvec2
  | notEqual_bvec3_bvec3 => so_notEqual_bvec3_bvec3
  | notEqual_bvec4_bvec4 => so_notEqual_bvec4_bvec4
  | all_bvec2 => so_all_bvec2
  | all_bvec3 => so_all_bvec3
  | all_bvec4 => so_all_bvec4
  | any_bvec2 => so_any_bvec2
  | any_bvec3 => so_any_bvec3
  | any_bvec4 => so_any_bvec4
  | dot_float_float => so_dot_float_float
  | dot_vec2_vec2 => so_dot_vec2_vec2
  | dot_vec3_vec3 => so_dot_vec3_vec3
  | dot_vec4_vec4 => so_dot_vec4_vec4
  | dot_quat_quat => so_dot_quat_quat
  | cross_vec3_vec3 => so_cross_vec3_vec3
  | normalize_vec2 => so_normalize_vec2
  | normalize_vec3 => so_normalize_vec3
  | normalize_vec4 => so_normalize_vec4
  | normalize_quat => so_normalize_quat
  | distance_float_float => so_distance_float_float
  | distance_vec2_vec2 => so_distance_vec2_vec2
  | distance_vec3_vec3 => so_distance_vec3_vec3
  | distance_vec4_vec4 => so_distance_vec4_vec4
  | faceforward_float_float_float => so_faceforward_float_float_float
  | faceforward_vec2_vec2_vec2 => so_faceforward_vec2_vec2_vec2
  | faceforward_vec3_vec3_vec3 => so_faceforward_vec3_vec3_vec3
  | faceforward_vec4_vec4_vec4 => so_faceforward_vec4_vec4_vec4
  | reflect_float_float => so_reflect_float_float
  | reflect_vec2_vec2 => so_reflect_vec2_vec2
  | reflect_vec3_vec3 => so_reflect_vec3_vec3
  | reflect_vec4_vec4 => so_reflect_vec4_vec4
  | refract_float_float_float => so_refract_float_float_float
  | refract_vec2_vec2_float => so_refract_vec2_vec2_float
  | refract_vec3_vec3_float => so_refract_vec3_vec3_float
  | refract_vec4_vec4_float => so_refract_vec4_vec4_float
  | length_float => so_length_float
  | length_vec2 => so_length_vec2
  | length_vec3 => so_length_vec3
  | length_vec4 => so_length_vec4
  | length_quat => so_length_quat
  | length2_float => so_length2_float
  | length2_vec2 => so_length2_vec2
  | length2_vec3 => so_length2_vec3
  | length2_vec4 => so_length2_vec4
  | length2_quat => so_length2_quat
  | distance2_float_float => so_distance2_float_float
  | distance2_vec2_vec2 => so_distance2_vec2_vec2
  | distance2_vec3_vec3 => so_distance2_vec3_vec3
  | distance2_vec4_vec4 => so_distance2_vec4_vec4
  | orthogonal_vec3 => so_orthogonal_vec3
  | orthogonal_branchless_vec3 => so_orthogonal_branchless_vec3
  | encode_octahedral_vec3 => so_encode_octahedral_vec3
  | decode_octahedral_vec2 => so_decode_octahedral_vec2
  | sqrt_float => so_sqrt_float
  | sqrt_vec2 => so_sqrt_vec2
  | sqrt_vec3 => so_sqrt_vec3
  | sqrt_vec4 => so_sqrt_vec4
  | sqrt_quat => so_sqrt_quat
  | pow_float_float => so_pow_float_float
  | pow_vec2_vec2 => so_pow_vec2_vec2
  | pow_vec3_vec3 => so_pow_vec3_vec3
  | pow_vec4_vec4 => so_pow_vec4_vec4
  | pow_quat_float => so_pow_quat_float
  | log_float => so_log_float
  | log_vec2 => so_log_vec2
  | log_vec3 => so_log_vec3
  | log_vec4 => so_log_vec4
  | log_quat => so_log_quat
  | log2_float => so_log2_float
  | log2_vec2 => so_log2_vec2
  | log2_vec3 => so_log2_vec3
  | log2_vec4 => so_log2_vec4
  | log2_quat => so_log2_quat
  | inversesqrt_float => so_inversesqrt_float
  | inversesqrt_vec2 => so_inversesqrt_vec2
  | inversesqrt_vec3 => so_inversesqrt_vec3
  | inversesqrt_vec4 => so_inversesqrt_vec4
  | inversesqrt_quat => so_inversesqrt_quat
  | exp_float => so_exp_float
  | exp_vec2 => so_exp_vec2
  | exp_vec3 => so_exp_vec3
  | exp_vec4 => so_exp_vec4
  | exp_quat => so_exp_quat
  | exp2_float => so_exp2_float
  | exp2_vec2 => so_exp2_vec2
  | exp2_vec3 => so_exp2_vec3
  | exp2_vec4 => so_exp2_vec4
  | exp2_quat => so_exp2_quat
  | cbrt_float => so_cbrt_float
  | cbrt_vec2 => so_cbrt_vec2
  | cbrt_vec3 => so_cbrt_vec3
  | cbrt_vec4 => so_cbrt_vec4
  | cbrt_quat => so_cbrt_quat
  | degreesf_float => so_degreesf_float
  | radiansf_float => so_radiansf_float
  | cos_float => so_cos_float
  | cos_vec2 => so_cos_vec2
  | cos_vec3 => so_cos_vec3
  | cos_vec4 => so_cos_vec4
  | sin_float => so_sin_float
  | sin_vec2 => so_sin_vec2
  | sin_vec3 => so_sin_vec3
  | sin_vec4 => so_sin_vec4
  | acos_float => so_acos_float
  | acos_vec2 => so_acos_vec2
  | acos_vec3 => so_acos_vec3
  | acos_vec4 => so_acos_vec4
  | acosh_float => so_acosh_float
  | acosh_vec2 => so_acosh_vec2
  | acosh_vec3 => so_acosh_vec3
  | acosh_vec4 => so_acosh_vec4
  | asin_float => so_asin_float
  | asin_vec2 => so_asin_vec2
  | asin_vec3 => so_asin_vec3
  | asin_vec4 => so_asin_vec4
  | asinh_float => so_asinh_float
  | asinh_vec2 => so_asinh_vec2
  | asinh_vec3 => so_asinh_vec3
  | asinh_vec4 => so_asinh_vec4
  | atan_float_float => so_atan_float_float
  | atan_vec2_vec2 => so_atan_vec2_vec2
  | atan_vec3_vec3 => so_atan_vec3_vec3
  | atan_vec4_vec4 => so_atan_vec4_vec4
  | atan_float => so_atan_float
  | atan_vec2 => so_atan_vec2
  | atan_vec3 => so_atan_vec3
  | atan_vec4 => so_atan_vec4
  | atanh_float => so_atanh_float
  | atanh_vec2 => so_atanh_vec2
  | atanh_vec3 => so_atanh_vec3
  | atanh_vec4 => so_atanh_vec4
  | cosh_float => so_cosh_float
  | cosh_vec2 => so_cosh_vec2
  | cosh_vec3 => so_cosh_vec3
  | cosh_vec4 => so_cosh_vec4
  | degrees_float => so_degrees_float
  | degrees_vec2 => so_degrees_vec2
  | degrees_vec3 => so_degrees_vec3
  | degrees_vec4 => so_degrees_vec4
  | radians_float => so_radians_float
  | radians_vec2 => so_radians_vec2
  | radians_vec3 => so_radians_vec3
  | radians_vec4 => so_radians_vec4
  | sinh_float => so_sinh_float
  | sinh_vec2 => so_sinh_vec2
  | sinh_vec3 => so_sinh_vec3
  | sinh_vec4 => so_sinh_vec4
  | tan_float => so_tan_float
  | tan_vec2 => so_tan_vec2
  | tan_vec3 => so_tan_vec3
  | tan_vec4 => so_tan_vec4
  | tanh_float => so_tanh_float
  | tanh_vec2 => so_tanh_vec2
  | tanh_vec3 => so_tanh_vec3
  | tanh_vec4 => so_tanh_vec4
  | compAdd_vec2 => so_compAdd_vec2
  | compAdd_vec3 => so_compAdd_vec3
  | compAdd_vec4 => so_compAdd_vec4
  | compAdd_ivec2 => so_compAdd_ivec2
  | compAdd_ivec3 => so_compAdd_ivec3
  | compAdd_ivec4 => so_compAdd_ivec4
  | compMul_vec2 => so_compMul_vec2
  | compMul_vec3 => so_compMul_vec3
  | compMul_vec4 => so_compMul_vec4
  | compMul_ivec2 => so_compMul_ivec2
  | compMul_ivec3 => so_compMul_ivec3
  | compMul_ivec4 => so_compMul_ivec4
  | compMin_vec2 => so_compMin_vec2
  | compMin_vec3 => so_compMin_vec3
  | compMin_vec4 => so_compMin_vec4
  | compMin_ivec2 => so_compMin_ivec2
  | compMin_ivec3 => so_compMin_ivec3
  | compMin_ivec4 => so_compMin_ivec4
  | compMax_vec2 => so_compMax_vec2
  | compMax_vec3 => so_compMax_vec3
  | compMax_vec4 => so_compMax_vec4
  | compMax_ivec2 => so_compMax_ivec2
  | compMax_ivec3 => so_compMax_ivec3
  | compMax_ivec4 => so_compMax_ivec4
  | epsilon => so_epsilon
  | zero => so_zero
  | one => so_one
  | pi => so_pi
  | two_pi => so_two_pi
  | root_pi => so_root_pi
  | half_pi => so_half_pi
  | three_over_two_pi => so_three_over_two_pi
  | quarter_pi => so_quarter_pi
  | one_over_pi => so_one_over_pi
  | one_over_two_pi => so_one_over_two_pi
  | two_over_pi => so_two_over_pi
  | four_over_pi => so_four_over_pi
  | two_over_root_pi => so_two_over_root_pi
  | one_over_root_two => so_one_over_root_two
  | root_half_pi => so_root_half_pi
  | root_two_pi => so_root_two_pi
  | root_ln_four => so_root_ln_four
  | e => so_e
  | euler => so_euler
  | root_two => so_root_two
  | root_three => so_root_three
  | root_five => so_root_five
  | ln_two => so_ln_two
  | ln_ten => so_ln_ten
  | ln_ln_two => so_ln_ln_two
  | third => so_third
  | two_thirds => so_two_thirds
  | golden_ratio => so_golden_ratio
  | convertLinearToSRGB_vec4_float => so_convertLinearToSRGB_vec4_float
  | convertLinearToSRGB_vec3_float => so_convertLinearToSRGB_vec3_float
  | convertLinearToSRGB_vec3 => so_convertLinearToSRGB_vec3
  | convertLinearToSRGB_vec4 => so_convertLinearToSRGB_vec4
  | convertSRGBToLinear_vec3_float => so_convertSRGBToLinear_vec3_float
  | convertSRGBToLinear_vec4_float => so_convertSRGBToLinear_vec4_float
  | convertSRGBToLinear_vec3 => so_convertSRGBToLinear_vec3
  | convertSRGBToLinear_vec4 => so_convertSRGBToLinear_vec4
  | matrixCompMult_mat2_mat2 => so_matrixCompMult_mat2_mat2
  | matrixCompMult_mat3_mat3 => so_matrixCompMult_mat3_mat3
  | matrixCompMult_mat4_mat4 => so_matrixCompMult_mat4_mat4
  | transpose_mat2 => so_transpose_mat2
  | transpose_mat3 => so_transpose_mat3
  | transpose_mat4 => so_transpose_mat4
  | determinant_mat2 => so_determinant_mat2
  | determinant_mat3 => so_determinant_mat3
  | determinant_mat4 => so_determinant_mat4
  | inverse_mat2 => so_inverse_mat2
  | inverse_mat3 => so_inverse_mat3
  | inverse_mat4 => so_inverse_mat4
  | adjugate_mat2 => so_adjugate_mat2
  | adjugate_mat3 => so_adjugate_mat3
  | adjugate_mat4 => so_adjugate_mat4
  | inverseTranspose_mat2 => so_inverseTranspose_mat2
  | inverseTranspose_mat3 => so_inverseTranspose_mat3
  | inverseTranspose_mat4 => so_inverseTranspose_mat4
  | adjugateTranspose_mat2 => so_adjugateTranspose_mat2
  | adjugateTranspose_mat3 => so_adjugateTranspose_mat3
  | adjugateTranspose_mat4 => so_adjugateTranspose_mat4
  | translate_mat4_vec3 => so_translate_mat4_vec3
  | rotate_mat4_float_vec3 => so_rotate_mat4_float_vec3
  | scale_mat4_vec3 => so_scale_mat4_vec3
  | lookAtRH_vec3_vec3_vec3 => so_lookAtRH_vec3_vec3_vec3
  | lookAtLH_vec3_vec3_vec3 => so_lookAtLH_vec3_vec3_vec3
  | ortho_float_float_float_float => so_ortho_float_float_float_float
  | orthoLH_ZO_float_float_float_float_float_float => so_orthoLH_ZO_float_float_float_float_float_float
  | orthoRH_ZO_float_float_float_float_float_float => so_orthoRH_ZO_float_float_float_float_float_float
  | orthoLH_NO_float_float_float_float_float_float => so_orthoLH_NO_float_float_float_float_float_float
  | orthoRH_NO_float_float_float_float_float_float => so_orthoRH_NO_float_float_float_float_float_float
  | perspectiveRH_ZO_float_float_float_float => so_perspectiveRH_ZO_float_float_float_float
  | perspectiveRH_NO_float_float_float_float => so_perspectiveRH_NO_float_float_float_float
  | perspectiveLH_ZO_float_float_float_float => so_perspectiveLH_ZO_float_float_float_float
  | perspectiveLH_NO_float_float_float_float => so_perspectiveLH_NO_float_float_float_float
  | decompose_orthogonal_mat4_vec3_quat_vec3 => so_decompose_orthogonal_mat4_vec3_quat_vec3
  | eulerAngles_quat => so_eulerAngles_quat
  | pitch_quat => so_pitch_quat
  | yaw_quat => so_yaw_quat
  | roll_quat => so_roll_quat
  | mat3_cast_quat => so_mat3_cast_quat
  | mat4_cast_quat => so_mat4_cast_quat
  | quat_cast_mat3 => so_quat_cast_mat3
  | quat_cast_mat4 => so_quat_cast_mat4
  | quatLookAtLH_vec3_vec3 => so_quatLookAtLH_vec3_vec3
  | quatLookAtRH_vec3_vec3 => so_quatLookAtRH_vec3_vec3
  | conjugate_quat => so_conjugate_quat
  | inverse_quat => so_inverse_quat
  | lerp_quat_quat_float => so_lerp_quat_quat_float
  | nlerp_quat_quat_float => so_nlerp_quat_quat_float
  | slerp_quat_quat_float => so_slerp_quat_quat_float
  | axis_quat => so_axis_quat
  | angle_quat => so_angle_quat
  | angleAxis_float_vec3 => so_angleAxis_float_vec3
  | rotate_quat_float_vec3 => so_rotate_quat_float_vec3
  end).
Qed.

(** calls go down in [rank] *)
Lemma calls_down : forall f, calls_s fn (fun g => Nat.ltb (rank g) (rank f)) (f_body (code f)) = true.
Proof. intro f. destruct f; vm_compute; reflexivity. Qed.

Lemma run_model : forall S b n f vs, forall2b has_ty (f_sig (code f)) vs = true -> (rank f < n)%nat ->
  run S fn code b n f vs = model S b f vs.
Proof.
  intros S b n. induction n as [|n IH]; intros f vs H R; [lia|]. cbn [run].
  rewrite <- (agrees_all f S b vs H).
  apply run_fun_cong with (p := fun g => Nat.ltb (rank g) (rank f)); [|apply calls_down].
  intros g ws Hg Hw. apply PeanoNat.Nat.ltb_lt in Hg. apply IH; [exact Hw|lia].
Qed.
Lemma bound_model : forall S b f bs,
  call_bound S b f bs = run_bound S fn b (fun g => f_sig (code g)) (model S b) (code f) bs.
Proof.
  intros S b f bs. unfold call_bound, run_bound.
  apply exec_cong with (p := fun g => Nat.ltb (rank g) (rank f)); [|apply calls_down|reflexivity].
  intros g ws Hg Hw. apply PeanoNat.Nat.ltb_lt in Hg. apply run_model; [exact Hw|lia].
Qed.

Lemma it_vec2__op_add_assign_vec2 : forall S b v, has_ty (Tcls Cvec2) v = true ->
  run_bound S fn b (fun g => f_sig (code g)) (model S b) (code vec2__op_add_assign_vec2) [BVal S v; BRef S "this" []] = model S b vec2__op_add_assign_vec2 [v; v].
Proof. intros S b v H. splitv H. destruct b; go; cases. Qed.
Lemma it_vec2__op_sub_assign_vec2 : forall S b v, has_ty (Tcls Cvec2) v = true ->
  run_bound S fn b (fun g => f_sig (code g)) (model S b) (code vec2__op_sub_assign_vec2) [BVal S v; BRef S "this" []] = model S b vec2__op_sub_assign_vec2 [v; v].
Proof. intros S b v H. splitv H. destruct b; go; cases. Qed.
Lemma it_vec2__op_mul_assign_vec2 : forall S b v, has_ty (Tcls Cvec2) v = true ->
  run_bound S fn b (fun g => f_sig (code g)) (model S b) (code vec2__op_mul_assign_vec2) [BVal S v; BRef S "this" []] = model S b vec2__op_mul_assign_vec2 [v; v].
Proof. intros S b v H. splitv H. destruct b; go; cases. Qed.
Lemma it_vec2__op_div_assign_vec2 : forall S b v, has_ty (Tcls Cvec2) v = true ->
  run_bound S fn b (fun g => f_sig (code g)) (model S b) (code vec2__op_div_assign_vec2) [BVal S v; BRef S "this" []] = model S b vec2__op_div_assign_vec2 [v; v].
Proof. intros S b v H. splitv H. destruct b; go; cases. Qed.
Lemma it_vec3__op_add_assign_vec3 : forall S b v, has_ty (Tcls Cvec3) v = true ->
  run_bound S fn b (fun g => f_sig (code g)) (model S b) (code vec3__op_add_assign_vec3) [BVal S v; BRef S "this" []] = model S b vec3__op_add_assign_vec3 [v; v].
Proof. intros S b v H. splitv H. destruct b; go; cases. Qed.
Lemma it_vec3__op_sub_assign_vec3 : forall S b v, has_ty (Tcls Cvec3) v = true ->
  run_bound S fn b (fun g => f_sig (code g)) (model S b) (code vec3__op_sub_assign_vec3) [BVal S v; BRef S "this" []] = model S b vec3__op_sub_assign_vec3 [v; v].
Proof. intros S b v H. splitv H. destruct b; go; cases. Qed.
Lemma it_vec3__op_mul_assign_vec3 : forall S b v, has_ty (Tcls Cvec3) v = true ->
  run_bound S fn b (fun g => f_sig (code g)) (model S b) (code vec3__op_mul_assign_vec3) [BVal S v; BRef S "this" []] = model S b vec3__op_mul_assign_vec3 [v; v].
Proof. intros S b v H. splitv H. destruct b; go; cases. Qed.
Lemma it_vec3__op_div_assign_vec3 : forall S b v, has_ty (Tcls Cvec3) v = true ->
  run_bound S fn b (fun g => f_sig (code g)) (model S b) (code vec3__op_div_assign_vec3) [BVal S v; BRef S "this" []] = model S b vec3__op_div_assign_vec3 [v; v].
Proof. intros S b v H. splitv H. destruct b; go; cases. Qed.
Lemma it_vec4__op_add_assign_vec4 : forall S b v, has_ty (Tcls Cvec4) v = true ->
  run_bound S fn b (fun g => f_sig (code g)) (model S b) (code vec4__op_add_assign_vec4) [BVal S v; BRef S "this" []] = model S b vec4__op_add_assign_vec4 [v; v].
Proof. intros S b v H. splitv H. destruct b; go; cases. Qed.
Lemma it_vec4__op_sub_assign_vec4 : forall S b v, has_ty (Tcls Cvec4) v = true ->
  run_bound S fn b (fun g => f_sig (code g)) (model S b) (code vec4__op_sub_assign_vec4) [BVal S v; BRef S "this" []] = model S b vec4__op_sub_assign_vec4 [v; v].
Proof. intros S b v H. splitv H. destruct b; go; cases. Qed.
Lemma it_vec4__op_mul_assign_vec4 : forall S b v, has_ty (Tcls Cvec4) v = true ->
  run_bound S fn b (fun g => f_sig (code g)) (model S b) (code vec4__op_mul_assign_vec4) [BVal S v; BRef S "this" []] = model S b vec4__op_mul_assign_vec4 [v; v].
Proof. intros S b v H. splitv H. destruct b; go; cases. Qed.
Lemma it_vec4__op_div_assign_vec4 : forall S b v, has_ty (Tcls Cvec4) v = true ->
  run_bound S fn b (fun g => f_sig (code g)) (model S b) (code vec4__op_div_assign_vec4) [BVal S v; BRef S "this" []] = model S b vec4__op_div_assign_vec4 [v; v].
Proof. intros S b v H. splitv H. destruct b; go; cases. Qed.
Lemma it_ivec2__op_add_assign_ivec2 : forall S b v, has_ty (Tcls Civec2) v = true ->
  run_bound S fn b (fun g => f_sig (code g)) (model S b) (code ivec2__op_add_assign_ivec2) [BVal S v; BRef S "this" []] = model S b ivec2__op_add_assign_ivec2 [v; v].
Proof. intros S b v H. splitv H. destruct b; go; cases. Qed.
Lemma it_ivec2__op_sub_assign_ivec2 : forall S b v, has_ty (Tcls Civec2) v = true ->
  run_bound S fn b (fun g => f_sig (code g)) (model S b) (code ivec2__op_sub_assign_ivec2) [BVal S v; BRef S "this" []] = model S b ivec2__op_sub_assign_ivec2 [v; v].
Proof. intros S b v H. splitv H. destruct b; go; cases. Qed.
Lemma it_ivec2__op_mul_assign_ivec2 : forall S b v, has_ty (Tcls Civec2) v = true ->
  run_bound S fn b (fun g => f_sig (code g)) (model S b) (code ivec2__op_mul_assign_ivec2) [BVal S v; BRef S "this" []] = model S b ivec2__op_mul_assign_ivec2 [v; v].
Proof. intros S b v H. splitv H. destruct b; go; cases. Qed.
Lemma it_ivec2__op_div_assign_ivec2 : forall S b v, has_ty (Tcls Civec2) v = true ->
  run_bound S fn b (fun g => f_sig (code g)) (model S b) (code ivec2__op_div_assign_ivec2) [BVal S v; BRef S "this" []] = model S b ivec2__op_div_assign_ivec2 [v; v].
Proof. intros S b v H. splitv H. destruct b; go; cases. Qed.
Lemma it_ivec2__op_rem_assign_ivec2 : forall S b v, has_ty (Tcls Civec2) v = true ->
  run_bound S fn b (fun g => f_sig (code g)) (model S b) (code ivec2__op_rem_assign_ivec2) [BVal S v; BRef S "this" []] = model S b ivec2__op_rem_assign_ivec2 [v; v].
Proof. intros S b v H. splitv H. destruct b; go; cases. Qed.
Lemma it_ivec2__op_or_assign_ivec2 : forall S b v, has_ty (Tcls Civec2) v = true ->
  run_bound S fn b (fun g => f_sig (code g)) (model S b) (code ivec2__op_or_assign_ivec2) [BVal S v; BRef S "this" []] = model S b ivec2__op_or_assign_ivec2 [v; v].
Proof. intros S b v H. splitv H. destruct b; go; cases. Qed.
Lemma it_ivec2__op_and_assign_ivec2 : forall S b v, has_ty (Tcls Civec2) v = true ->
  run_bound S fn b (fun g => f_sig (code g)) (model S b) (code ivec2__op_and_assign_ivec2) [BVal S v; BRef S "this" []] = model S b ivec2__op_and_assign_ivec2 [v; v].
Proof. intros S b v H. splitv H. destruct b; go; cases. Qed.
Lemma it_ivec2__op_xor_assign_ivec2 : forall S b v, has_ty (Tcls Civec2) v = true ->
  run_bound S fn b (fun g => f_sig (code g)) (model S b) (code ivec2__op_xor_assign_ivec2) [BVal S v; BRef S "this" []] = model S b ivec2__op_xor_assign_ivec2 [v; v].
Proof. intros S b v H. splitv H. destruct b; go; cases. Qed.
Lemma it_ivec2__op_shr_assign_ivec2 : forall S b v, has_ty (Tcls Civec2) v = true ->
  run_bound S fn b (fun g => f_sig (code g)) (model S b) (code ivec2__op_shr_assign_ivec2) [BVal S v; BRef S "this" []] = model S b ivec2__op_shr_assign_ivec2 [v; v].
Proof. intros S b v H. splitv H. destruct b; go; cases. Qed.
Lemma it_ivec2__op_shl_assign_ivec2 : forall S b v, has_ty (Tcls Civec2) v = true ->
  run_bound S fn b (fun g => f_sig (code g)) (model S b) (code ivec2__op_shl_assign_ivec2) [BVal S v; BRef S "this" []] = model S b ivec2__op_shl_assign_ivec2 [v; v].
Proof. intros S b v H. splitv H. destruct b; go; cases. Qed.
Lemma it_ivec3__op_add_assign_ivec3 : forall S b v, has_ty (Tcls Civec3) v = true ->
  run_bound S fn b (fun g => f_sig (code g)) (model S b) (code ivec3__op_add_assign_ivec3) [BVal S v; BRef S "this" []] = model S b ivec3__op_add_assign_ivec3 [v; v].
Proof. intros S b v H. splitv H. destruct b; go; cases. Qed.
Lemma it_ivec3__op_sub_assign_ivec3 : forall S b v, has_ty (Tcls Civec3) v = true ->
  run_bound S fn b (fun g => f_sig (code g)) (model S b) (code ivec3__op_sub_assign_ivec3) [BVal S v; BRef S "this" []] = model S b ivec3__op_sub_assign_ivec3 [v; v].
Proof. intros S b v H. splitv H. destruct b; go; cases. Qed.
Lemma it_ivec3__op_mul_assign_ivec3 : forall S b v, has_ty (Tcls Civec3) v = true ->
  run_bound S fn b (fun g => f_sig (code g)) (model S b) (code ivec3__op_mul_assign_ivec3) [BVal S v; BRef S "this" []] = model S b ivec3__op_mul_assign_ivec3 [v; v].
Proof. intros S b v H. splitv H. destruct b; go; cases. Qed.
Lemma it_ivec3__op_div_assign_ivec3 : forall S b v, has_ty (Tcls Civec3) v = true ->
  run_bound S fn b (fun g => f_sig (code g)) (model S b) (code ivec3__op_div_assign_ivec3) [BVal S v; BRef S "this" []] = model S b ivec3__op_div_assign_ivec3 [v; v].
Proof. intros S b v H. splitv H. destruct b; go; cases. Qed.
Lemma it_ivec3__op_rem_assign_ivec3 : forall S b v, has_ty (Tcls Civec3) v = true ->
  run_bound S fn b (fun g => f_sig (code g)) (model S b) (code ivec3__op_rem_assign_ivec3) [BVal S v; BRef S "this" []] = model S b ivec3__op_rem_assign_ivec3 [v; v].
Proof. intros S b v H. splitv H. destruct b; go; cases. Qed.
Lemma it_ivec3__op_or_assign_ivec3 : forall S b v, has_ty (Tcls Civec3) v = true ->
  run_bound S fn b (fun g => f_sig (code g)) (model S b) (code ivec3__op_or_assign_ivec3) [BVal S v; BRef S "this" []] = model S b ivec3__op_or_assign_ivec3 [v; v].
Proof. intros S b v H. splitv H. destruct b; go; cases. Qed.
Lemma it_ivec3__op_and_assign_ivec3 : forall S b v, has_ty (Tcls Civec3) v = true ->
  run_bound S fn b (fun g => f_sig (code g)) (model S b) (code ivec3__op_and_assign_ivec3) [BVal S v; BRef S "this" []] = model S b ivec3__op_and_assign_ivec3 [v; v].
Proof. intros S b v H. splitv H. destruct b; go; cases. Qed.
Lemma it_ivec3__op_xor_assign_ivec3 : forall S b v, has_ty (Tcls Civec3) v = true ->
  run_bound S fn b (fun g => f_sig (code g)) (model S b) (code ivec3__op_xor_assign_ivec3) [BVal S v; BRef S "this" []] = model S b ivec3__op_xor_assign_ivec3 [v; v].
Proof. intros S b v H. splitv H. destruct b; go; cases. Qed.
Lemma it_ivec3__op_shr_assign_ivec3 : forall S b v, has_ty (Tcls Civec3) v = true ->
  run_bound S fn b (fun g => f_sig (code g)) (model S b) (code ivec3__op_shr_assign_ivec3) [BVal S v; BRef S "this" []] = model S b ivec3__op_shr_assign_ivec3 [v; v].
Proof. intros S b v H. splitv H. destruct b; go; cases. Qed.
Lemma it_ivec3__op_shl_assign_ivec3 : forall S b v, has_ty (Tcls Civec3) v = true ->
  run_bound S fn b (fun g => f_sig (code g)) (model S b) (code ivec3__op_shl_assign_ivec3) [BVal S v; BRef S "this" []] = model S b ivec3__op_shl_assign_ivec3 [v; v].
Proof. intros S b v H. splitv H. destruct b; go; cases. Qed.
Lemma it_ivec4__op_add_assign_ivec4 : forall S b v, has_ty (Tcls Civec4) v = true ->
  run_bound S fn b (fun g => f_sig (code g)) (model S b) (code ivec4__op_add_assign_ivec4) [BVal S v; BRef S "this" []] = model S b ivec4__op_add_assign_ivec4 [v; v].
Proof. intros S b v H. splitv H. destruct b; go; cases. Qed.
Lemma it_ivec4__op_sub_assign_ivec4 : forall S b v, has_ty (Tcls Civec4) v = true ->
  run_bound S fn b (fun g => f_sig (code g)) (model S b) (code ivec4__op_sub_assign_ivec4) [BVal S v; BRef S "this" []] = model S b ivec4__op_sub_assign_ivec4 [v; v].
Proof. intros S b v H. splitv H. destruct b; go; cases. Qed.
Lemma it_ivec4__op_mul_assign_ivec4 : forall S b v, has_ty (Tcls Civec4) v = true ->
  run_bound S fn b (fun g => f_sig (code g)) (model S b) (code ivec4__op_mul_assign_ivec4) [BVal S v; BRef S "this" []] = model S b ivec4__op_mul_assign_ivec4 [v; v].
Proof. intros S b v H. splitv H. destruct b; go; cases. Qed.
Lemma it_ivec4__op_div_assign_ivec4 : forall S b v, has_ty (Tcls Civec4) v = true ->
  run_bound S fn b (fun g => f_sig (code g)) (model S b) (code ivec4__op_div_assign_ivec4) [BVal S v; BRef S "this" []] = model S b ivec4__op_div_assign_ivec4 [v; v].
Proof. intros S b v H. splitv H. destruct b; go; cases. Qed.
Lemma it_bvec2__op_and_assign_bvec2 : forall S b v, has_ty (Tcls Cbvec2) v = true ->
  run_bound S fn b (fun g => f_sig (code g)) (model S b) (code bvec2__op_and_assign_bvec2) [BVal S v; BRef S "this" []] = model S b bvec2__op_and_assign_bvec2 [v; v].
Proof. intros S b v H. splitv H. destruct b; go; cases. Qed.
Lemma it_bvec2__op_or_assign_bvec2 : forall S b v, has_ty (Tcls Cbvec2) v = true ->
  run_bound S fn b (fun g => f_sig (code g)) (model S b) (code bvec2__op_or_assign_bvec2) [BVal S v; BRef S "this" []] = model S b bvec2__op_or_assign_bvec2 [v; v].
Proof. intros S b v H. splitv H. destruct b; go; cases. Qed.
Lemma it_bvec2__op_xor_assign_bvec2 : forall S b v, has_ty (Tcls Cbvec2) v = true ->
  run_bound S fn b (fun g => f_sig (code g)) (model S b) (code bvec2__op_xor_assign_bvec2) [BVal S v; BRef S "this" []] = model S b bvec2__op_xor_assign_bvec2 [v; v].
Proof. intros S b v H. splitv H. destruct b; go; cases. Qed.
Lemma it_bvec3__op_and_assign_bvec3 : forall S b v, has_ty (Tcls Cbvec3) v = true ->
  run_bound S fn b (fun g => f_sig (code g)) (model S b) (code bvec3__op_and_assign_bvec3) [BVal S v; BRef S "this" []] = model S b bvec3__op_and_assign_bvec3 [v; v].
Proof. intros S b v H. splitv H. destruct b; go; cases. Qed.
Lemma it_bvec3__op_or_assign_bvec3 : forall S b v, has_ty (Tcls Cbvec3) v = true ->
  run_bound S fn b (fun g => f_sig (code g)) (model S b) (code bvec3__op_or_assign_bvec3) [BVal S v; BRef S "this" []] = model S b bvec3__op_or_assign_bvec3 [v; v].
Proof. intros S b v H. splitv H. destruct b; go; cases. Qed.
Lemma it_bvec3__op_xor_assign_bvec3 : forall S b v, has_ty (Tcls Cbvec3) v = true ->
  run_bound S fn b (fun g => f_sig (code g)) (model S b) (code bvec3__op_xor_assign_bvec3) [BVal S v; BRef S "this" []] = model S b bvec3__op_xor_assign_bvec3 [v; v].
Proof. intros S b v H. splitv H. destruct b; go; cases. Qed.
Lemma it_bvec4__op_and_assign_bvec4 : forall S b v, has_ty (Tcls Cbvec4) v = true ->
  run_bound S fn b (fun g => f_sig (code g)) (model S b) (code bvec4__op_and_assign_bvec4) [BVal S v; BRef S "this" []] = model S b bvec4__op_and_assign_bvec4 [v; v].
Proof. intros S b v H. splitv H. destruct b; go; cases. Qed.
Lemma it_bvec4__op_or_assign_bvec4 : forall S b v, has_ty (Tcls Cbvec4) v = true ->
  run_bound S fn b (fun g => f_sig (code g)) (model S b) (code bvec4__op_or_assign_bvec4) [BVal S v; BRef S "this" []] = model S b bvec4__op_or_assign_bvec4 [v; v].
Proof. intros S b v H. splitv H. destruct b; go; cases. Qed.
Lemma it_bvec4__op_xor_assign_bvec4 : forall S b v, has_ty (Tcls Cbvec4) v = true ->
  run_bound S fn b (fun g => f_sig (code g)) (model S b) (code bvec4__op_xor_assign_bvec4) [BVal S v; BRef S "this" []] = model S b bvec4__op_xor_assign_bvec4 [v; v].
Proof. intros S b v H. splitv H. destruct b; go; cases. Qed.
Lemma it_mat2__op_add_assign_mat2 : forall S b v, has_ty (Tcls Cmat2) v = true ->
  run_bound S fn b (fun g => f_sig (code g)) (model S b) (code mat2__op_add_assign_mat2) [BVal S v; BRef S "this" []] = model S b mat2__op_add_assign_mat2 [v; v].
Proof. intros S b v H. splitv H. destruct b; go; cases. Qed.
Lemma it_mat2__op_sub_assign_mat2 : forall S b v, has_ty (Tcls Cmat2) v = true ->
  run_bound S fn b (fun g => f_sig (code g)) (model S b) (code mat2__op_sub_assign_mat2) [BVal S v; BRef S "this" []] = model S b mat2__op_sub_assign_mat2 [v; v].
Proof. intros S b v H. splitv H. destruct b; go; cases. Qed.
Lemma it_mat2__op_mul_assign_mat2 : forall S b v, has_ty (Tcls Cmat2) v = true ->
  run_bound S fn b (fun g => f_sig (code g)) (model S b) (code mat2__op_mul_assign_mat2) [BVal S v; BRef S "this" []] = model S b mat2__op_mul_assign_mat2 [v; v].
Proof. intros S b v H. splitv H. destruct b; go; cases. Qed.
Lemma it_mat2__op_div_assign_mat2 : forall S b v, has_ty (Tcls Cmat2) v = true ->
  run_bound S fn b (fun g => f_sig (code g)) (model S b) (code mat2__op_div_assign_mat2) [BVal S v; BRef S "this" []] = model S b mat2__op_div_assign_mat2 [v; v].
Proof. intros S b v H. splitv H. destruct b; go; cases. Qed.
Lemma it_mat3__op_add_assign_mat3 : forall S b v, has_ty (Tcls Cmat3) v = true ->
  run_bound S fn b (fun g => f_sig (code g)) (model S b) (code mat3__op_add_assign_mat3) [BVal S v; BRef S "this" []] = model S b mat3__op_add_assign_mat3 [v; v].
Proof. intros S b v H. splitv H. destruct b; go; cases. Qed.
Lemma it_mat3__op_sub_assign_mat3 : forall S b v, has_ty (Tcls Cmat3) v = true ->
  run_bound S fn b (fun g => f_sig (code g)) (model S b) (code mat3__op_sub_assign_mat3) [BVal S v; BRef S "this" []] = model S b mat3__op_sub_assign_mat3 [v; v].
Proof. intros S b v H. splitv H. destruct b; go; cases. Qed.
Lemma it_mat3__op_mul_assign_mat3 : forall S b v, has_ty (Tcls Cmat3) v = true ->
  run_bound S fn b (fun g => f_sig (code g)) (model S b) (code mat3__op_mul_assign_mat3) [BVal S v; BRef S "this" []] = model S b mat3__op_mul_assign_mat3 [v; v].
Proof. intros S b v H. splitv H. destruct b; go; cases. Qed.
Lemma it_mat3__op_div_assign_mat3 : forall S b v, has_ty (Tcls Cmat3) v = true ->
  run_bound S fn b (fun g => f_sig (code g)) (model S b) (code mat3__op_div_assign_mat3) [BVal S v; BRef S "this" []] = model S b mat3__op_div_assign_mat3 [v; v].
Proof. intros S b v H. splitv H. destruct b; go; cases. Qed.
Lemma it_mat4__op_add_assign_mat4 : forall S b v, has_ty (Tcls Cmat4) v = true ->
  run_bound S fn b (fun g => f_sig (code g)) (model S b) (code mat4__op_add_assign_mat4) [BVal S v; BRef S "this" []] = model S b mat4__op_add_assign_mat4 [v; v].
Proof. intros S b v H. splitv H. destruct b; go; cases. Qed.
Lemma it_mat4__op_sub_assign_mat4 : forall S b v, has_ty (Tcls Cmat4) v = true ->
  run_bound S fn b (fun g => f_sig (code g)) (model S b) (code mat4__op_sub_assign_mat4) [BVal S v; BRef S "this" []] = model S b mat4__op_sub_assign_mat4 [v; v].
Proof. intros S b v H. splitv H. destruct b; go; cases. Qed.
Lemma it_mat4__op_mul_assign_mat4 : forall S b v, has_ty (Tcls Cmat4) v = true ->
  run_bound S fn b (fun g => f_sig (code g)) (model S b) (code mat4__op_mul_assign_mat4) [BVal S v; BRef S "this" []] = model S b mat4__op_mul_assign_mat4 [v; v].
Proof. intros S b v H. splitv H. destruct b; go; cases. Qed.
Lemma it_mat4__op_div_assign_mat4 : forall S b v, has_ty (Tcls Cmat4) v = true ->
  run_bound S fn b (fun g => f_sig (code g)) (model S b) (code mat4__op_div_assign_mat4) [BVal S v; BRef S "this" []] = model S b mat4__op_div_assign_mat4 [v; v].
Proof. intros S b v H. splitv H. destruct b; go; cases. Qed.
Lemma it_quat__op_add_assign_quat : forall S b v, has_ty (Tcls Cquat) v = true ->
  run_bound S fn b (fun g => f_sig (code g)) (model S b) (code quat__op_add_assign_quat) [BVal S v; BRef S "this" []] = model S b quat__op_add_assign_quat [v; v].
Proof. intros S b v H. splitv H. destruct b; go; cases. Qed.
Lemma it_quat__op_sub_assign_quat : forall S b v, has_ty (Tcls Cquat) v = true ->
  run_bound S fn b (fun g => f_sig (code g)) (model S b) (code quat__op_sub_assign_quat) [BVal S v; BRef S "this" []] = model S b quat__op_sub_assign_quat [v; v].
Proof. intros S b v H. splitv H. destruct b; go; cases. Qed.
Lemma it_quat__op_mul_assign_quat : forall S b v, has_ty (Tcls Cquat) v = true ->
  run_bound S fn b (fun g => f_sig (code g)) (model S b) (code quat__op_mul_assign_quat) [BVal S v; BRef S "this" []] = model S b quat__op_mul_assign_quat [v; v].
Proof. intros S b v H. splitv H. destruct b; go; cases. Qed.
Lemma on_itself : forall S b f c v, compound f = Some c -> has_ty (Tcls c) v = true ->
  run_bound S fn b (fun g => f_sig (code g)) (model S b) (code f) [BVal S v; BRef S "this" []] = model S b f [v; v].
Proof.
  intros S b f c v Hc H. destruct f; try discriminate Hc; injection Hc as <-.
  - exact (it_vec2__op_add_assign_vec2 S b v H).
  - exact (it_vec2__op_sub_assign_vec2 S b v H).
  - exact (it_vec2__op_mul_assign_vec2 S b v H).
  - exact (it_vec2__op_div_assign_vec2 S b v H).
  - exact (it_vec3__op_add_assign_vec3 S b v H).
  - exact (it_vec3__op_sub_assign_vec3 S b v H).
  - exact (it_vec3__op_mul_assign_vec3 S b v H).
  - exact (it_vec3__op_div_assign_vec3 S b v H).
  - exact (it_vec4__op_add_assign_vec4 S b v H).
  - exact (it_vec4__op_sub_assign_vec4 S b v H).
  - exact (it_vec4__op_mul_assign_vec4 S b v H).
  - exact (it_vec4__op_div_assign_vec4 S b v H).
  - exact (it_ivec2__op_add_assign_ivec2 S b v H).
  - exact (it_ivec2__op_sub_assign_ivec2 S b v H).
  - exact (it_ivec2__op_mul_assign_ivec2 S b v H).
  - exact (it_ivec2__op_div_assign_ivec2 S b v H).
  - exact (it_ivec2__op_rem_assign_ivec2 S b v H).
  - exact (it_ivec2__op_or_assign_ivec2 S b v H).
  - exact (it_ivec2__op_and_assign_ivec2 S b v H).
  - exact (it_ivec2__op_xor_assign_ivec2 S b v H).
  - exact (it_ivec2__op_shr_assign_ivec2 S b v H).
  - exact (it_ivec2__op_shl_assign_ivec2 S b v H).
  - exact (it_ivec3__op_add_assign_ivec3 S b v H).
  - exact (it_ivec3__op_sub_assign_ivec3 S b v H).
  - exact (it_ivec3__op_mul_assign_ivec3 S b v H).
  - exact (it_ivec3__op_div_assign_ivec3 S b v H).
  - exact (it_ivec3__op_rem_assign_ivec3 S b v H).
  - exact (it_ivec3__op_or_assign_ivec3 S b v H).
  - exact (it_ivec3__op_and_assign_ivec3 S b v H).
  - exact (it_ivec3__op_xor_assign_ivec3 S b v H).
  - exact (it_ivec3__op_shr_assign_ivec3 S b v H).
  - exact (it_ivec3__op_shl_assign_ivec3 S b v H).
  - exact (it_ivec4__op_add_assign_ivec4 S b v H).
  - exact (it_ivec4__op_sub_assign_ivec4 S b v H).
  - exact (it_ivec4__op_mul_assign_ivec4 S b v H).
  - exact (it_ivec4__op_div_assign_ivec4 S b v H).
  - exact (it_bvec2__op_and_assign_bvec2 S b v H).
  - exact (it_bvec2__op_or_assign_bvec2 S b v H).
  - exact (it_bvec2__op_xor_assign_bvec2 S b v H).
  - exact (it_bvec3__op_and_assign_bvec3 S b v H).
  - exact (it_bvec3__op_or_assign_bvec3 S b v H).
  - exact (it_bvec3__op_xor_assign_bvec3 S b v H).
  - exact (it_bvec4__op_and_assign_bvec4 S b v H).
  - exact (it_bvec4__op_or_assign_bvec4 S b v H).
  - exact (it_bvec4__op_xor_assign_bvec4 S b v H).
  - exact (it_mat2__op_add_assign_mat2 S b v H).
  - exact (it_mat2__op_sub_assign_mat2 S b v H).
  - exact (it_mat2__op_mul_assign_mat2 S b v H).
  - exact (it_mat2__op_div_assign_mat2 S b v H).
  - exact (it_mat3__op_add_assign_mat3 S b v H).
  - exact (it_mat3__op_sub_assign_mat3 S b v H).
  - exact (it_mat3__op_mul_assign_mat3 S b v H).
  - exact (it_mat3__op_div_assign_mat3 S b v H).
  - exact (it_mat4__op_add_assign_mat4 S b v H).
  - exact (it_mat4__op_sub_assign_mat4 S b v H).
  - exact (it_mat4__op_mul_assign_mat4 S b v H).
  - exact (it_mat4__op_div_assign_mat4 S b v H).
  - exact (it_quat__op_add_assign_quat S b v H).
  - exact (it_quat__op_sub_assign_quat S b v H).
  - exact (it_quat__op_mul_assign_quat S b v H).
Qed.
