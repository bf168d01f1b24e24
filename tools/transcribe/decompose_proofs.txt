Lemma decompose_tail : forall S b m a1 a2 a3 b1 b2 b3 c1 c2 c3 s q1 q2 q3 q4 t,
  exec S fn b (fun g => f_sig (code g)) (model S b) (rest_stmts fn 10 (f_body c_decompose_orthogonal_mat4_vec3_quat_vec3))
    [("Row", BVal S (Arr [Obj Cvec3 [VF a1; VF a2; VF a3]; Obj Cvec3 [VF b1; VF b2; VF b3]; Obj Cvec3 [VF c1; VF c2; VF c3]]));
     ("model_mat", BVal S m); ("scale", BVal S s); ("orientation", BVal S (Obj Cquat [VF q1; VF q2; VF q3; VF q4])); ("translation", BVal S t)]
    (leave S fn c_decompose_orthogonal_mat4_vec3_quat_vec3) =
  Ret (Void, [s; eQ S (ModelTransform.orientation_of S (M3 (V3 a1 a2 a3) (V3 b1 b2 b3) (V3 c1 c2 c3))); t]).
Proof.
  intros.
  assert (E : exists R, ModelTransform.orientation_of S (M3 (V3 a1 a2 a3) (V3 b1 b2 b3) (V3 c1 c2 c3)) = R) by (eexists; reflexivity).
  destruct E as [R E]. rewrite E. destruct b; go.
  - unfold ModelTransform.orientation_of in E. cbn [col3 x3 y3 z3 m3c0 m3c1 m3c2] in E. unfold sgt in E.
    match goal with |- (if ?c then _ else _) = _ => destruct c end.
    + rewrite <- E. reflexivity.
    + match goal with |- (if ?c then _ else _) = _ => destruct c end; cbv [at3 el3 col3 x3 y3 z3 m3c0 m3c1 m3c2] in E.
     * match goal with |- (if ?c then _ else _) = _ => destruct c end; rewrite <- E; reflexivity.
     * match goal with |- (if ?c then _ else _) = _ => destruct c end; rewrite <- E; reflexivity.
  - unfold ModelTransform.orientation_of in E. cbn [col3 x3 y3 z3 m3c0 m3c1 m3c2] in E. unfold sgt in E.
    match goal with |- (if ?c then _ else _) = _ => destruct c end.
    + rewrite <- E. reflexivity.
    + match goal with |- (if ?c then _ else _) = _ => destruct c end; cbv [at3 el3 col3 x3 y3 z3 m3c0 m3c1 m3c2] in E.
     * match goal with |- (if ?c then _ else _) = _ => destruct c end; rewrite <- E; reflexivity.
     * match goal with |- (if ?c then _ else _) = _ => destruct c end; rewrite <- E; reflexivity.
Qed.

Lemma ag_decompose_orthogonal_mat4_vec3_quat_vec3 : agrees decompose_orthogonal_mat4_vec3_quat_vec3.
Proof.
  start c_decompose_orthogonal_mat4_vec3_quat_vec3.
  all: unfold run_fun; change (code decompose_orthogonal_mat4_vec3_quat_vec3) with c_decompose_orthogonal_mat4_vec3_quat_vec3; rewrite (exec_split 10);
  match goal with |- exec _ _ ?b ?sg ?c _ ?en ?k = _ =>
   pose proof (decompose_tail S b) as HT;
   set (T := exec S fn b sg c (rest_stmts fn 10 (f_body c_decompose_orthogonal_mat4_vec3_quat_vec3))) in *; clearbody T; set (K := leave S fn c_decompose_orthogonal_mat4_vec3_quat_vec3) in *; clearbody K end;
  unfold model; unfold on, on0; cbv [dM4 dV4 dV3 dQ]; unfold ModelTransform.decompose_orthogonal;
  lazymatch goal with |- _ = ?r => set (R := r) end;
  cbv -[slit sofZ sadd ssub smul sdiv sneg slt sle seq ssqrt ModelGeom.length3 ModelGeom.dot3 R];
  subst R;
  cbv [at4 at3 col4 col3 el4 el3 Types.x4 Types.y4 Types.z4 Types.w4 Types.x3 Types.y3 Types.z3 m4c0 m4c1 m4c2 m4c3 ModelVec.vec3_div_assign_sc ModelVec.vec3_mul_assign_sc ModelVec.IMPL_V3_COMPOUND_SC_OP set3 ModelGeom.cross];
  match goal with |- (if ?c then _ else _) = _ => destruct c eqn:E end; rewrite HT;
  match type of E with ?c = _ =>
    match goal with |- context [if ?c' then _ else _] => change c' with c end end; rewrite E; reflexivity.
Qed.

Lemma decompose_tail_shared : forall S b m a1 a2 a3 b1 b2 b3 c1 c2 c3 s q1 q2 q3 q4,
  exec S fn b (fun g => f_sig (code g)) (model S b) (rest_stmts fn 10 (f_body c_decompose_orthogonal_mat4_vec3_quat_vec3))
    [("Row", BVal S (Arr [Obj Cvec3 [VF a1; VF a2; VF a3]; Obj Cvec3 [VF b1; VF b2; VF b3]; Obj Cvec3 [VF c1; VF c2; VF c3]]));
     ("model_mat", BVal S m); ("scale", BVal S s); ("orientation", BVal S (Obj Cquat [VF q1; VF q2; VF q3; VF q4])); ("translation", BRef S "scale" [])]
    (leave S fn c_decompose_orthogonal_mat4_vec3_quat_vec3) =
  Ret (Void, [s; eQ S (ModelTransform.orientation_of S (M3 (V3 a1 a2 a3) (V3 b1 b2 b3) (V3 c1 c2 c3))); s]).
Proof.
  intros.
  assert (E : exists R, ModelTransform.orientation_of S (M3 (V3 a1 a2 a3) (V3 b1 b2 b3) (V3 c1 c2 c3)) = R) by (eexists; reflexivity).
  destruct E as [R E]. rewrite E. destruct b; go.
  - unfold ModelTransform.orientation_of in E. cbn [col3 x3 y3 z3 m3c0 m3c1 m3c2] in E. unfold sgt in E.
    match goal with |- (if ?c then _ else _) = _ => destruct c end.
    + rewrite <- E. reflexivity.
    + match goal with |- (if ?c then _ else _) = _ => destruct c end; cbv [at3 el3 col3 x3 y3 z3 m3c0 m3c1 m3c2] in E.
     * match goal with |- (if ?c then _ else _) = _ => destruct c end; rewrite <- E; reflexivity.
     * match goal with |- (if ?c then _ else _) = _ => destruct c end; rewrite <- E; reflexivity.
  - unfold ModelTransform.orientation_of in E. cbn [col3 x3 y3 z3 m3c0 m3c1 m3c2] in E. unfold sgt in E.
    match goal with |- (if ?c then _ else _) = _ => destruct c end.
    + rewrite <- E. reflexivity.
    + match goal with |- (if ?c then _ else _) = _ => destruct c end; cbv [at3 el3 col3 x3 y3 z3 m3c0 m3c1 m3c2] in E.
     * match goal with |- (if ?c then _ else _) = _ => destruct c end; rewrite <- E; reflexivity.
     * match goal with |- (if ?c then _ else _) = _ => destruct c end; rewrite <- E; reflexivity.
Qed.
