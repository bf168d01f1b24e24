TH='/verif/rocq/theories/'
s='''(** * Proofs about the C++ semantics: taking typed arguments apart, and symbolic execution *)
From Coq Require Import ZArith NArith Bool List String.
From Verif Require Import Scalar Outcome Types Int32 Cpp CppNames CppProgram CppModel.
Import ListNotations.

Section Inversion.
Variable S : Scalar.
Lemma inv_nil : forall vs : list (val S), forall2b has_ty [] vs = true -> vs = [].
Proof. intros [|v vs]; [reflexivity|discriminate]. Qed.
Lemma inv_cons : forall t ts (vs : list (val S)), forall2b has_ty (t :: ts) vs = true ->
  exists v vs', vs = v :: vs' /\\ has_ty t v = true /\\ forall2b has_ty ts vs' = true.
Proof.
  intros t ts [|v vs]; [discriminate|]. simpl. intro H. apply andb_true_iff in H.
  exists v, vs. tauto.
Qed.
Lemma inv_float : forall v : val S, has_ty Tfloat v = true -> exists x, v = VF x.
Proof. intros [] H; try discriminate H. eexists; reflexivity. Qed.
Lemma inv_int : forall v : val S, has_ty Tint v = true -> exists x, v = VI x.
Proof. intros [] H; try discriminate H. eexists; reflexivity. Qed.
Lemma inv_uint : forall v : val S, has_ty Tuint v = true -> exists x, v = VU x.
Proof. intros [] H; try discriminate H. eexists; reflexivity. Qed.
Lemma inv_bool : forall v : val S, has_ty Tbool v = true -> exists x, v = VB x.
Proof. intros [] H; try discriminate H. eexists; reflexivity. Qed.
Lemma forall2b_cons : forall {A B} (p : A -> B -> bool) a l m, forall2b p (a :: l) m = true ->
  exists b m', m = b :: m' /\\ p a b = true /\\ forall2b p l m' = true.
Proof.
  intros A B p a l [|b m]; [discriminate|]. simpl. intro H. apply andb_true_iff in H.
  exists b, m. tauto.
Qed.
Lemma forall2b_nil : forall {A B} (p : A -> B -> bool) m, forall2b p [] m = true -> m = [].
Proof. intros A B p [|b m]; [reflexivity|discriminate]. Qed.
Lemma has_ty_obj : forall c (v : val S), has_ty (Tcls c) v = true ->
  exists fs, v = Obj c fs /\\ forall2b ty_vec (fields c) fs = true.
Proof.
  intros c [] H; try discriminate H. simpl in H. apply andb_true_iff in H. destruct H as [H1 H2].
  assert (c = c0) as -> by (destruct c, c0; try discriminate H1; reflexivity).
  eexists; split; [reflexivity|exact H2].
Qed.
Lemma ty_vec_obj : forall c (v : val S), ty_vec (Tcls c) v = true ->
  exists fs, v = Obj c fs /\\ forall2b ty_scalar (fields c) fs = true.
Proof.
  intros c [] H; try discriminate H. simpl in H. apply andb_true_iff in H. destruct H as [H1 H2].
  assert (c = c0) as -> by (destruct c, c0; try discriminate H1; reflexivity).
  eexists; split; [reflexivity|exact H2].
Qed.
Lemma inv_scalar : forall t (v : val S), ty_scalar t v = true ->
  match t with
  | Tfloat => exists x, v = VF x | Tint => exists x, v = VI x | Tuint => exists x, v = VU x | Tbool => exists x, v = VB x
  | _ => False
  end.
Proof. intros [] [] H; try discriminate H; eexists; reflexivity. Qed.
Lemma inv_vec_scalar : forall t (v : val S), ty_vec t v = true ->
  match t with Tcls _ => True | _ => ty_scalar t v = true end.
Proof. intros [] v H; try exact H. exact I. Qed.
End Inversion.

Ltac splitv H :=
  first
  [ apply forall2b_nil in H; subst
  | apply forall2b_cons in H; let v := fresh "v" in let m := fresh "m" in let H1 := fresh "H" in
    destruct H as (v & m & -> & H1 & H); splitv H; splitv H1
  | apply inv_float in H; let x := fresh "x" in destruct H as (x & ->)
  | apply inv_int in H; let x := fresh "x" in destruct H as (x & ->)
  | apply inv_uint in H; let x := fresh "n" in destruct H as (x & ->)
  | apply inv_bool in H; let x := fresh "c" in destruct H as (x & ->)
  | apply has_ty_obj in H; let fs := fresh "fs" in destruct H as (fs & -> & H); cbv [fields] in H; splitv H
  | apply ty_vec_obj in H; let fs := fresh "fs" in destruct H as (fs & -> & H); cbv [fields] in H; splitv H
  | apply inv_scalar in H; let x := fresh "x" in destruct H as (x & ->)
  | apply inv_vec_scalar in H; splitv H
  | idtac ].

(** everything is executed except the operations of the scalar type and of the 32-bit integers *)
Ltac go :=
  cbv -[slit sofZ sadd ssub smul sdiv sneg slt sle seq sabs ssqrt sfma sfloor sceil strunc sround snearbyint sisnan sisinf
        mcos msin mtan macos masin matan matan2 mcosh msinh mtanh macosh masinh matanh mpow mexp mlog mlog2 mcbrt
        i32_add i32_sub i32_mul i32_neg i32_div i32_rem i32_or i32_and i32_xor i32_shr i32_shl chk
        Z.abs Z.eqb Z.ltb Z.leb Z.gtb Z.geb Z.max Z.min].
Ltac cases :=
  repeat (try reflexivity;
    match goal with
    | |- context [match ?c with true => _ | false => _ end] =>
        lazymatch c with context [match _ with _ => _ end] => fail | _ => destruct c end
    | |- context [match ?m with Ret _ => _ | AssertFail => _ | Undefined => _ end] =>
        lazymatch m with context [match _ with _ => _ end] => fail | _ => destruct m end
    end).
Ltac start f := let S := fresh "S" in let b := fresh "b" in let vs := fresh "vs" in let H := fresh "H" in
  intros S b vs H; cbv [f code f_sig] in H; splitv H; destruct b.
Ltac agree f := start f; go; cases.
'''
open(TH+'CppTac.v','w').write(s)
EXTRA='''
(** the body of [f], with calls answered by the model, does what the model of [f] does *)
Definition agrees (f : fn) : Prop := forall S b vs, forall2b has_ty (f_sig (code f)) vs = true ->
  run_fun S fn b (fun g => f_sig (code g)) (model S b) (code f) vs = model S b f vs.
(** the model's results have the declared types, and only some functions can fail *)
Definition sound (f : fn) : Prop := forall S b vs, forall2b has_ty (f_sig (code f)) vs = true ->
  match model S b f vs with
  | Ret r => uninitialised f || result_ok f vs r
  | AssertFail => can_abort b f
  | Undefined => can_be_undefined b f
  end = true.
Lemma chk_no_abort : forall z, chk z = AssertFail -> False.
Proof. intro z. unfold chk. destruct (in_i32 z); discriminate. Qed.
Ltac no_abort H :=
  exfalso; revert H;
  cbv delta [i32_add i32_sub i32_mul i32_neg i32_div i32_rem i32_or i32_and i32_xor i32_shr i32_shl] beta;
  repeat match goal with |- context [if ?c then _ else _] => destruct c end;
  first [discriminate | exact (chk_no_abort _)].
Ltac int_cases :=
  repeat (try reflexivity;
    match goal with
    | |- context [match ?c with true => _ | false => _ end] =>
        lazymatch c with context [match _ with _ => _ end] => fail | _ => destruct c end
    | |- context [match ?m with Ret _ => _ | AssertFail => _ | Undefined => _ end] =>
        lazymatch m with
        | context [match _ with _ => _ end] => fail
        | _ => let H := fresh "H" in destruct m eqn:H; [clear H|solve [no_abort H]|clear H]
        end
    end).
Ltac sound f := start f; go; int_cases.

Ltac agree_index f := start f; match goal with n : N |- _ => destruct n as [|[[[]|[]|]|[[]|[]|]|]] end; reflexivity.
Ltac agree_bool f := start f; repeat match goal with c : bool |- _ => destruct c end; reflexivity.

Section Pointers.
Variable S : Scalar.
'''
for (T,V,d,n) in (('Tfloat','VF','dPF','float'),('Tint','VI','dPI','int'),('Tbool','VB','dPB','bool')):
    EXTRA+=f'''Lemma inv_ptr_{n} : forall v : val S, has_ty (Tptr {T}) v = true -> exists p, v = VP (option_map (map {V}) p).
Proof.
  intros [| | | |[l|]| | | | |] H; try discriminate H; [|exists None; reflexivity].
  assert (exists m, l = map {V} m) as [m ->]; [|exists (Some m); reflexivity].
  change (forallb (ty_scalar {T}) l = true) in H. induction l as [|v l IH]; [exists []; reflexivity|].
  apply andb_true_iff in H. destruct H as [H1 H2]. destruct (IH H2) as [m ->].
  destruct v; try discriminate H1. eexists (_ :: m); reflexivity.
Qed.
Lemma {d}_map : forall p, {d} S (VP (option_map (map {V}) p)) = Some p.
Proof.
  intros [l|]; [|reflexivity]. cbn [option_map {d} dP].
  replace (dlist S (d{V[1]} S) (map {V} l)) with (Some l); [reflexivity|].
  induction l as [|x l IH]; [reflexivity|]. cbn [map dlist d{V[1]}]. rewrite <- IH. reflexivity.
Qed.
'''
EXTRA+='''End Pointers.
Ltac elements n l := match n with O => idtac | Datatypes.S ?n => let a := fresh "a" in let m := fresh "m" in destruct l as [|a m]; [|elements n m] end.
Ltac start_ptr f inv dec n :=
  let S := fresh "S" in let b := fresh "b" in let vs := fresh "vs" in let H := fresh "H" in
  intros S b vs H; cbv [f code f_sig] in H;
  apply inv_cons in H; let v := fresh "v" in let w := fresh "w" in let H1 := fresh "H" in destruct H as (v & w & -> & H1 & H);
  apply inv_nil in H; subst; apply inv in H1; let p := fresh "p" in destruct H1 as [p ->];
  unfold model, on, on0; rewrite dec;
  let l := fresh "l" in destruct p as [l|]; destruct b; [elements n l|elements n l| |]; reflexivity.
'''
s=open(TH+'CppTac.v').read()
s=s.replace('CppProgram CppModel.','CppProgram CppModel SpecCpp.')
open(TH+'CppTac.v','w').write(s+EXTRA)

import sys
sys.path.insert(0,__file__.rsplit('/',1)[0])
from emit import *
HD='''From Coq Require Import ZArith NArith Bool List String.
From Verif Require Import Scalar Outcome Types Int32 Cpp CppNames CppCode1 CppCode2 CppCode3 CppProgram CppModel SpecCpp CppTac.
Import ListNotations.
'''
NPTR={'vec2':2,'vec3':3,'vec4':4,'quat':4,'mat2':4,'mat3':9,'mat4':16,'ivec2':2,'ivec3':3,'ivec4':4,'bvec2':2,'bvec3':3,'bvec4':4}
def tac(f):
    i=f['id']
    if i.endswith('__index') or i.endswith('__index_const'): return 'agree_index c_'+i,'agree_index c_'+i
    if i.startswith('make_') and i.endswith('_ptr'):
        k=i.split('_')[1]; t=i.split('_')[2]
        a=f"start_ptr c_{i} inv_ptr_{t} dP{t[0].upper()}_map {NPTR[k]}"
        return a,a
    if (i.startswith('op_eq_bvec') or i.startswith('notEqual_bvec')): return 'agree_bool c_'+i,'sound c_'+i
    return 'agree c_'+i,'sound c_'+i
L=[f for f in FS if f['name']!='decompose_orthogonal']
N=4
for k in range(N):
    s=f'(** * Proofs: the source of each function and its model agree (part {k+1} of {N}) *)\n'+HD
    for f in L[k::N]:
        a,b=tac(f)
        s+=f"Lemma ag_{f['id']} : agrees {f['id']}.\nProof. {a}. Qed.\nLemma so_{f['id']} : sound {f['id']}.\nProof. {b}. Qed.\n"
    open(TH+f'CppAgree{k+1}.v','w').write(s)
