import sys,re
sys.path.insert(0,__file__.rsplit('/',1)[0])
from emit import *
TH='/verif/rocq/theories/'
def wrap(s,n=150,ind='    '):
    out=[];cur=''
    for w in s.split(' '):
        if len(cur)+len(w)+1>n and cur: out.append(cur); cur=ind+w
        else: cur=cur+' '+w if cur else w
    out.append(cur); return '\n'.join(out)
def ql(l): return '['+'; '.join(f'"{x}"' for x in l)+']'
def rty(f):
    if f['rt']=='void': return 'RVoid'
    k='RRef' if f['kind']=='method' and '&' in f['ret'][2] and not f['const'] else 'RVal'
    return f"({k} {cty(f['rt'])})"
# names
byfile={}
for f in FS: byfile.setdefault(f['file'],[]).append(f)
s='''(** * The functions of /repo/src, by name, class and parameter types

    [T__...] is a constructor or member function of class T ([T__default] the
    default constructor), [op_...] an operator, anything else a free function.
    hash.cpp, type_ptr.cpp and the accessor classes are modelled in ModelHash.v,
    ModelAccess.v and ModelSwizzle.v only. *)
Inductive fn : Type :=
'''
for fl,l in byfile.items():
    s+=f'(* {fl} *)\n'+wrap(' '.join('| '+f['id'] for f in l),ind='')+'\n'
s=s.rstrip()+'.\n'
open(TH+'CppNames.v','w').write(s)
GROUPS=[('CppCode1','vectors',['vec2','vec3','vec4','ivec2','ivec3','ivec4','bvec2','bvec3','bvec4']),
 ('CppCode2','matrices, quaternions and scalar functions',['mat2','mat3','mat4','quat','common','geometric','exponential','angle_and_trigonometry','component_wise','constants']),
 ('CppCode3','colours, matrix functions, transforms and quaternion functions',['color_space','matrix','matrix_transform','quaternion'])]
for g,title,files in GROUPS:
    s=f'''(** * The source code, statement by statement: {title}

    Every definition is the function at the cited lines of /repo, in the syntax of Cpp.v. *)
From Coq Require Import ZArith NArith List String.
From Verif Require Import Cpp CppNames.
Import ListNotations.
Local Open Scope string_scope.
Local Open Scope cpp_scope.
'''
    for fl in files:
        s+=f'\n(** ** src/{fl}.cpp *)\n'
        for f in byfile[f'src/{fl}.cpp']:
            ln=str(f['line']) if f['line']==f['end'] else f"{f['line']}-{f['end']}"
            sig='['+'; '.join(re.sub(r'^\((.*)\)$',r'\1',cty(t)) for t in f['psig'])+']'
            body=';;\n'.join('  '+wrap(x) for x in f['coq'])
            s+=f"(** {f['file']} {ln} *)\nDefinition c_{f['id']} : fundef fn := Fun {ql(f['pnames'])} {sig} {rty(f)} {ql(f['outs'])} (\n{body}).\n"
    open(TH+g+'.v','w').write(s)
# rank
idx={f['id']:f for f in FS}; rk={}
def rank(i,stk=()):
    if i in rk: return rk[i]
    assert i not in stk,stk
    rk[i]=1+max([rank(c,stk+(i,)) for c in idx[i]['calls']],default=-1); return rk[i]
for i in idx: rank(i)
print('max rank',max(rk.values()))
s='''(** * The program: the code of every function, and a depth for every function

    [rank] is larger than the rank of every function called; that it is so is
    checked in PfCpp.v.  No function is recursive. *)
From Verif Require Import Cpp CppNames CppCode1 CppCode2 CppCode3.
Definition code (f : fn) : fundef fn :=
  match f with
'''
for f in FS: s+=f"  | {f['id']} => c_{f['id']}\n"
s+='  end.\nDefinition rank (f : fn) : nat :=\n  match f with\n'
for r in sorted(set(rk.values())):
    if r==0: continue
    s+=wrap(' '.join(f'| {i}' for i in idx if rk[i]==r),ind='  ')+f'\n    => {r}\n'
s+='  | _ => 0\n  end.\n'
open(TH+'CppProgram.v','w').write(s)
# table
s='''(** * The model function of every function of the source

    [model S b f args] is what the model says a call of [f] does.  The decoders
    [d..] take a value of a C++ type apart, the encoders [e..] build one. *)
From Coq Require Import ZArith NArith Bool List.
From Verif Require Import Scalar Outcome Types Int32.
From Verif Require '''+' '.join('Model'+m for m in ORDER)+'''.
From Verif Require Import Cpp CppNames.
Import ListNotations.
Local Open Scope outcome_scope.

Section Coding.
Variable S : Scalar.
Notation val := (val S).
Notation result := (result S).

Definition eF (x : S) : val := VF x.
Definition eI (n : Z) : val := VI n.
Definition eB (b : bool) : val := VB b.
Definition dF (v : val) : option S := match v with VF x => Some x | _ => None end.
Definition dI (v : val) : option Z := match v with VI n => Some n | _ => None end.
Definition dU (v : val) : option N := match v with VU n => Some n | _ => None end.
Definition dB (v : val) : option bool := match v with VB b => Some b | _ => None end.
'''
for p,q,c,k in(('vec','V','S','VF'),('ivec','I','Z','VI'),('bvec','B','bool','VB')):
    for n in (2,3,4):
        xs='abcd'[:n]; fl=['x','y','z','w'][:n]
        s+=f"Definition e{q}{n} (v : vec{n} {c}) : val := Obj C{p}{n} [{'; '.join(f'{k} ({z}{n} v)' for z in fl)}].\n"
        s+=f"Definition d{q}{n} (v : val) : option (vec{n} {c}) :=\n  match v with Obj C{p}{n} [{'; '.join(f'{k} {x}' for x in xs)}] => Some (V{n} {' '.join(xs)}) | _ => None end.\n"
s+="Definition eQ (q : quat S) : val := Obj Cquat [VF (qx q); VF (qy q); VF (qz q); VF (qw q)].\n"
s+="Definition dQ (v : val) : option (quat S) :=\n  match v with Obj Cquat [VF x; VF y; VF z; VF w] => Some (Quat x y z w) | _ => None end.\n"
for n in (2,3,4):
    s+=f"Definition eM{n} (m : mat{n} S) : val := Obj Cmat{n} [{'; '.join(f'eV{n} (m{n}c{i} m)' for i in range(n))}].\n"
    ws='stuv'[:n]; xs='abcd'[:n]
    s+=f"Definition dM{n} (v : val) : option (mat{n} S) :=\n  match v with\n  | Obj Cmat{n} [{'; '.join(ws)}] =>\n      match {', '.join(f'dV{n} {w}' for w in ws)} with {', '.join('Some '+x for x in xs)} => Some (M{n} {' '.join(xs)}) | {', '.join('_'*n)} => None end\n  | _ => None\n  end.\n"
s+='''(** the array behind a pointer *)
Fixpoint dlist {A} (d : val -> option A) (l : list val) : option (list A) :=
  match l with
  | [] => Some []
  | v :: l => match d v, dlist d l with Some a, Some r => Some (a :: r) | _, _ => None end
  end.
Definition dP {A} (d : val -> option A) (v : val) : option (option (list A)) :=
  match v with
  | VP None => Some None
  | VP (Some l) => match dlist d l with Some r => Some (Some r) | None => None end
  | _ => None
  end.
Definition dPF := dP dF.
Definition dPI := dP dI.
Definition dPB := dP dB.

(** a function of decoded arguments *)
Definition on0 (r : outcome result) (vs : list val) : outcome result :=
  match vs with [] => r | _ => Undefined end.
Definition on {A} (d : val -> option A) (f : A -> list val -> outcome result) (vs : list val) : outcome result :=
  match vs with
  | v :: vs => match d v with Some a => f a vs | None => Undefined end
  | [] => Undefined
  end.

(** what a call returns: a value, a new value of the object, both, or a reference into the object *)
Definition ret {A} (e : A -> val) (a : A) : outcome result := Ret (e a, []).
Definition mutate {A} (e : A -> val) (a : A) : outcome result := Ret (Void, [e a]).
Definition pre {A} (e : A -> val) (p : A * A) : outcome result := Ret (Ref [], [e (fst p)]).
Definition post {A} (e : A -> val) (p : A * A) : outcome result := Ret (e (snd p), [e (fst p)]).
Definition at_index (m : outcome (list nat)) : outcome result := do p <- m; Ret (Ref p, []).
Definition lift {A} (k : A -> outcome result) (m : outcome A) : outcome result := do a <- m; k a.
End Coding.

(** the model *)
Definition model (S : Scalar) (b : build) (f : fn) : list (val S) -> outcome (result S) :=
  match f with
'''
def clampi(f):
    c=f['cls']
    return f'(N.min a1 {DIM[c]-1})' if c=='quat' or c.startswith('bvec') else 'a1'
modof={nm:m for m,nm,c,t in MODELS}
for f in FS:
    c=pair(f)
    vs=[f'a{i}' for i in range(len(f['psig']))]
    if f['id'].endswith('no_init_t'):
        c0=f['cls']
        if c0.startswith('mat'):
            n=c0[-1]
            e=f"on0 S (Ret (Obj C{c0} [{'; '.join([f'eV{n} S (ModelVec.vec{n}_default S)']*int(n))}], []))"
        else: e=f'on0 S (Ret (blank C{c0}, []))'
    elif not c:
        assert f['name']=='decompose_orthogonal'
        e="on S (dM4 S) (fun m => on S (dV3 S) (fun _ => on S (dQ S) (fun _ => on S (dV3 S) (fun _ => on0 S (\n      let '(s, q, t) := ModelTransform.decompose_orthogonal S m in Ret (Void, [eV3 S s; eQ S q; eV3 S t]))))))"
    else:
        nm,prea,kind,out,r=c[0]
        head=f'Model{modof[nm]}.{nm}'+''.join(' '+x for x in prea)
        if kind=='mutate': app=f'{head} (fun _ => a1) a0'
        else: app=' '.join([head]+vs)
        if kind=='index_ref':
            inner=f'at_index S (do _ <- {app}; Ret [index {clampi(f)}])'
        else:
            k={'index':'ret'}.get(kind,kind); enc=ENC[f['psig'][0] if k in('mutate','pre','post') else f['rt']]
            kk=f'{k} S ({enc} S)'
            inner=f'lift S ({kk}) ({app})' if out else f'{kk} ({app})'
        e=inner
        e=f'on0 S ({e})'
        for x,t in reversed(list(zip(vs,f['psig']))): e=f'on S ({DEC[t]} S) (fun {x} => {e})'
    s+=f"  | {f['id']} =>\n      {e}\n"
s+='  end.\n'
open(TH+'CppModel.v','w').write(s)
