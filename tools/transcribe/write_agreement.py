import sys
sys.path.insert(0,__file__.rsplit('/',1)[0])
from emit import *
TH='/verif/rocq/theories/'
dec=open(__file__.rsplit('/',1)[0]+'/decompose_proofs.txt').read()
s='''(** * Proofs: the source and the model agree on every function *)
From Coq Require Import ZArith NArith Bool List String Lia.
From Verif Require Import Scalar Outcome Types Int32 Cpp CppNames CppCode1 CppCode2 CppCode3 CppProgram CppModel SpecCpp CppTac CppCong.
From Verif Require Import CppAgree1 CppAgree2 CppAgree3 CppAgree4.
Import ListNotations.
Local Open Scope string_scope.

'''+dec+'''
Lemma shared_decompose : forall S b m s q t, has_ty (Tcls Cmat4) m = true -> has_ty (Tcls Cvec3) s = true -> has_ty (Tcls Cquat) q = true ->
  has_ty (Tcls Cvec3) t = true ->
  run_bound S fn b (fun g => f_sig (code g)) (model S b) (code decompose_orthogonal_mat4_vec3_quat_vec3)
    [BVal S m; BVal S s; BVal S q; BRef S "scale" []] =
  match model S b decompose_orthogonal_mat4_vec3_quat_vec3 [m; s; q; t] with
  | Ret (v, [s; q; t]) => Ret (v, [s; q; s])
  | _ => Undefined
  end.
Proof.
  intros S b m s q t H1 H2 H3 H4. splitv H1. splitv H2. splitv H3. splitv H4. destruct b.
  all: unfold run_bound; change (code decompose_orthogonal_mat4_vec3_quat_vec3) with c_decompose_orthogonal_mat4_vec3_quat_vec3; rewrite (exec_split 10);
  match goal with |- exec _ _ ?b ?sg ?c _ ?en ?k = _ =>
   pose proof (decompose_tail_shared S b) as HT;
   set (T := exec S fn b sg c (rest_stmts fn 10 (f_body c_decompose_orthogonal_mat4_vec3_quat_vec3))) in *; clearbody T; set (K := leave S fn c_decompose_orthogonal_mat4_vec3_quat_vec3) in *; clearbody K end;
  unfold model; unfold on, on0; cbv [dM4 dV4 dV3 dQ]; unfold ModelTransform.decompose_orthogonal;
  lazymatch goal with |- _ = ?r => set (R := r) end;
  cbv -[slit sofZ sadd ssub smul sdiv sneg slt sle seq ssqrt ModelGeom.length3 ModelGeom.dot3 R];
  subst R;
  cbv [at4 at3 col4 col3 el4 el3 Types.x4 Types.y4 Types.z4 Types.w4 Types.x3 Types.y3 Types.z3 m4c0 m4c1 m4c2 m4c3 ModelVec.vec3_div_assign_sc ModelVec.vec3_mul_assign_sc ModelVec.IMPL_V3_COMPOUND_SC_OP set3 ModelGeom.cross];
  match goal with |- (if ?c then _ else _) = _ => destruct c eqn:E end; rewrite HT;
  match type of E with ?c = _ =>
    match goal with |- context [if ?c' then _ else _] => change c' with c end end; rewrite E; reflexivity.
Qed.
Lemma so_decompose_orthogonal_mat4_vec3_quat_vec3 : sound decompose_orthogonal_mat4_vec3_quat_vec3.
Proof.
  intros S b vs H. cbv [c_decompose_orthogonal_mat4_vec3_quat_vec3 code f_sig] in H. splitv H.
  unfold model, on, on0. cbv [dM4 dV4 dV3 dQ].
  match goal with |- context [ModelTransform.decompose_orthogonal S ?m] => destruct (ModelTransform.decompose_orthogonal S m) as [[s q] t] end.
  reflexivity.
Qed.

Lemma agrees_all : forall f, agrees f.
Proof.
  exact (fun f => match f return agrees f with
'''+''.join(f"  | {f['id']} => ag_{f['id']}\n" for f in FS)+'''  end).
Qed.
Lemma sound_all : forall f, sound f.
Proof.
  exact (fun f => match f return sound f with
'''+''.join(f"  | {f['id']} => so_{f['id']}\n" for f in FS)+'''  end).
Qed.

(** calls go down in [rank] *)
Lemma calls_down : forall f, calls_s fn (fun g => Nat.ltb (rank g) (rank f)) (f_body (code f)) = true.
Proof. intro f. destruct f; vm_compute; reflexivity. Qed.

Lemma run_model : forall S b n f vs, forall2b has_ty (f_sig (code f)) vs = true -> (rank f < n)%nat ->
  run S fn code b n f vs = model S b f vs.
Proof.
  intros S b n. induction n as [|n IH]; intros f vs H R; [lia|]. cbn [run].
  rewrite <- (agrees_all f S b vs H).
  apply run_fun_cong with (p := fun g => Nat.ltb (rank g) (rank f)); [|apply calls_down].
  intros g ws Hg Hw. apply PeanoNat.Nat.ltb_lt in Hg. apply IH; [exact Hw|lia].
Qed.
Lemma bound_model : forall S b f bs,
  call_bound S b f bs = run_bound S fn b (fun g => f_sig (code g)) (model S b) (code f) bs.
Proof.
  intros S b f bs. unfold call_bound, run_bound.
  apply exec_cong with (p := fun g => Nat.ltb (rank g) (rank f)); [|apply calls_down|reflexivity].
  intros g ws Hg Hw. apply PeanoNat.Nat.ltb_lt in Hg. apply run_model; [exact Hw|lia].
Qed.

'''
# compound functions
comp=[f for f in FS if f['outs']==['this'] and len(f['psig'])==2 and f['psig'][0]==f['psig'][1]]
print(len(comp))
for f in comp:
    c=f['psig'][0]; i=f['id']
    s+=f'''Lemma it_{i} : forall S b v, has_ty (Tcls C{c}) v = true ->
  run_bound S fn b (fun g => f_sig (code g)) (model S b) (code {i}) [BVal S v; BRef S "this" []] = model S b {i} [v; v].
Proof. intros S b v H. splitv H. destruct b; go; cases. Qed.
'''
s+='''Lemma on_itself : forall S b f c v, compound f = Some c -> has_ty (Tcls c) v = true ->
  run_bound S fn b (fun g => f_sig (code g)) (model S b) (code f) [BVal S v; BRef S "this" []] = model S b f [v; v].
Proof.
  intros S b f c v Hc H. destruct f; try discriminate Hc; injection Hc as <-.
'''+''.join(f"  - exact (it_{f['id']} S b v H).\n" for f in comp)+'''Qed.
'''
open(TH+'CppAgree.v','w').write(s)
