#!/usr/bin/env python3
import re,sys,collections
sys.path.insert(0,__file__.rsplit('/',1)[0])
from parse import load
OPN={'+':'add','-':'sub','*':'mul','/':'div','%':'rem','|':'or','&':'and','^':'xor','>>':'shr','<<':'shl','==':'eq','!=':'ne','<':'lt','>':'gt','<=':'le','>=':'ge','!':'not','&&':'land','||':'lor','++':'inc','--':'dec'}
BIN={'+':'Oadd','-':'Osub','*':'Omul','/':'Odiv','%':'Orem','&':'Oand','|':'Oor','^':'Oxor','<<':'Oshl','>>':'Oshr','<':'Olt','>':'Ogt','<=':'Ole','>=':'Oge','==':'Oeq','!=':'One'}
SCAL={'float','int','unsigned','bool'}
DIM={}
for p in('vec','ivec','bvec','mat'):
    for n in (2,3,4): DIM[f'{p}{n}']=n
DIM['quat']=4
ELT={}
for n in (2,3,4): ELT[f'vec{n}']='float';ELT[f'ivec{n}']='int';ELT[f'bvec{n}']='bool';ELT[f'mat{n}']=f'vec{n}'
ELT['quat']='float'
COMP={'x':0,'y':1,'z':2,'w':3,'r':0,'g':1,'b':2,'a':3,'s':0,'t':1,'p':2,'q':3}
PRIM={k:(['float']*n,'float') for k,n in dict(fabsf=1,ceilf=1,floorf=1,roundf=1,truncf=1,sqrtf=1,powf=2,logf=1,log2f=1,expf=1,cbrtf=1,atan2f=2,cosf=1,sinf=1,tanf=1,acosf=1,asinf=1,atanf=1,coshf=1,sinhf=1,tanhf=1,acoshf=1,asinhf=1,atanhf=1).items()}
PRIM['std::fma']=(['float']*3,'float');PRIM['std::nearbyint']=(['float'],'float');PRIM['std::isinf']=(['float'],'bool');PRIM['std::isnan']=(['float'],'bool');PRIM['std::abs']=(['int'],'int')
def cty(t):
    if t in SCAL: return 'T'+{'unsigned':'uint'}.get(t,t)
    if t.endswith('*'): return f'(Tptr {cty(t[:-1])})'
    return f'(Tcls C{t})'
def par(s): return s if re.fullmatch(r'[\w]+|\(.*\)|<<.*>>|"[^"]*"',s) and balanced(s) else f'({s})'
def balanced(s):
    if not s.startswith('('): return True
    d=0
    for i,c in enumerate(s):
        d+=c=='('; d-=c==')'
        if d==0 and i<len(s)-1: return False
    return True
def es(l): return '<<'+'; '.join(l)+'>>' if l else 'ENil'
class Err(Exception): pass
FS=load()
# explicit constructors (headers)
EXPL={('mat2',('float',)),('mat3',('float',)),('mat4',('float',)),('mat3',('mat2',)),('mat4',('mat3',)),('quat',('vec3',)),('bvec2',('bool',)),('bvec3',('bool',)),('bvec4',('bool',))}
def ptype(t): return t[0]+('*' if '*' in t[2] else '')
for f in FS:
    f['pt']=[ptype(t) for t,_ in f['params']]
    n=f['name']; c=f['cls']
    if n=='ctor': nm=f'{c}__'+('_'.join(f['pt']) or 'default'); f['kind']='ctor'; f['rt']=c
    elif n=='conv': nm=f'{c}__to_{f["ret"][0]}'; f['kind']='method'; f['rt']=f['ret'][0]
    else:
        f['rt']=f['ret'][0]; f['kind']='method' if c and not n=='wxyz' else 'free'
        if n=='operator[]': nm=f'{c}__index'+('_const' if f['const'] else '')
        elif n.startswith('operator'):
            o=n[8:]
            if o.endswith('=') and o[:-1] in OPN and o not in('==','!=','<=','>='): b='op_'+OPN[o[:-1]]+'_assign'
            else: b='op_'+OPN[o]
            if o in('++','--'): b=('pre' if not f['pt'] else 'post')+OPN[o]
            nm=(f'{c}__' if f['kind']=='method' else '')+b+('_'+'_'.join(f['pt']) if f['pt'] and o not in('++','--') else '')
        else: nm=(f'{c}__' if c else '')+n+('_'+'_'.join(f['pt']) if f['pt'] else '')
    f['id']=nm.replace('*','_ptr')
    f['mut']=f['kind']=='method' and not f['const']
cnt=collections.Counter(f['id'] for f in FS)
dup=[k for k,v in cnt.items() if v>1]
assert not dup,dup
BYNAME=collections.defaultdict(list)
for f in FS:
    if f['kind']=='ctor': BYNAME[f['cls']+'::ctor'].append(f)
    elif f['name']=='wxyz': BYNAME['quat::wxyz'].append(f)
    elif f['kind']=='method': BYNAME[f['cls']+'::'+f['name']].append(f)
    else: BYNAME[f['name']].append(f)
    if f['name']=='conv': BYNAME[f['cls']+'::to_'+f['rt']].append(f)
def convcost(a,b,explicit=False):
    """cost of converting a to b, None if impossible"""
    if a==b: return 0
    if a in SCAL and b in SCAL:
        if (a,b)==('bool','int'): return 1
        return 2
    if b in DIM:
        best=None
        for f in BYNAME[b+'::ctor']:
            if len(f['pt'])==1 and f['pt'][0]!='no_init_t':
                if (b,tuple(f['pt'])) in EXPL and not explicit: continue
                if f['pt'][0] in DIM: c=0 if f['pt'][0]==a else None
                elif a in SCAL: c=convcost(a,f['pt'][0])
                else: c=None
                if c is not None:
                    c+=10
                    if best is None or c<best: best=c
        return best
    if b=='bool' and a.endswith('*'): return 2
    return None
class Tr:
    def __init__(s,f):
        s.f=f; s.vars={}; s.calls=set()
    def err(s,m): raise Err(f"{s.f['file']}:{s.f['line']} {s.f['id']}: {m}")
    def pick(s,cands,args,what):
        """args: list of types"""
        best=[];bc=None
        for g in cands:
            if len(g['pt'])!=len(args): continue
            cs=[convcost(a,p) for a,p in zip(args,g['pt'])]
            if None in cs: continue
            c=sum(cs)
            if bc is None or c<bc: best=[g];bc=c
            elif c==bc: best.append(g)
        if len(best)!=1: s.err(f'overload {what} {args}: {[g["id"] for g in best]}')
        return best[0]
    def call(s,g,args):
        s.calls.add(g['id'])
        return g['rt'],f"Call {g['id']} {es(args)}"
    def conv(s,te,b):
        a,e=te
        if a==b: return e
        if a in SCAL and b in SCAL:
            if b=='unsigned':
                m=re.fullmatch(r'Int (\d+)',e)
                if m: return f'UInt {m.group(1)}'
                if a!='int': s.err('conv '+a+' '+b)
            if (a,b) in(('int','float'),('bool','int'),('int','bool'),('int','unsigned')): return f'Conv {cty(b)} {par(e)}'
            s.err(f'conv {a} {b}')
        if a.endswith('*') and b=='bool': return f'Conv Tbool {par(e)}'
        if b in DIM:
            g=s.pick([g for g in BYNAME[b+'::ctor'] if len(g['pt'])==1 and g['pt'][0]!='no_init_t'],[a],'conv')
            return s.call(g,[s.conv((a,e),g['pt'][0])])[1]
        s.err(f'conv {a} -> {b}')
    def cond(s,e): 
        return s.conv(s.ex(e),'bool')
    def construct(s,c,args):
        """make a c from argument ASTs"""
        if len(args)==1 and args[0]==('make','no_init_t',[]):
            g=[g for g in BYNAME[c+'::ctor'] if g['pt']==['no_init_t']][0]
            return s.call(g,[])
        if c in SCAL:
            assert len(args)==1
            return c,s.conv(s.ex(args[0]),c)
        ts=[s.ex(a) for a in args]
        if len(ts)==1 and ts[0][0]==c: return ts[0]
        if len(ts)==1 and ts[0][0] in DIM and BYNAME.get(ts[0][0]+'::to_'+c):
            return s.call(BYNAME[ts[0][0]+'::to_'+c][0],[ts[0][1]])
        cands=[g for g in BYNAME[c+'::ctor'] if g['pt']!=['no_init_t']]
        g=s.pick(cands,[t for t,_ in ts],c+' ctor')
        return s.call(g,[s.conv(t,p) for t,p in zip(ts,g['pt'])])
    def ini(s,t,e):
        """value of type t from initializer e"""
        if e[0]=='braces': return s.construct(t,e[1])[1]
        return s.conv(s.ex(e),t)
    # lvalues: returns (type, const, lval) or None
    def lv(s,e):
        k=e[0]
        if k=='name' and e[1] in s.vars:
            t,c=s.vars[e[1]]; return t,c,f'LVar "{e[1]}"'
        if k=='name' and s.f['cls'] and e[1] in ('_data','_columns'): return 'fields:'+s.f['cls'],s.f['const'],'LVar "this"'
        if k=='name' and s.f['cls'] and e[1] in COMP and s.f['name']!='wxyz':
            return ELT[s.f['cls']],s.f['const'],f'LFld (LVar "this") {COMP[e[1]]}'
        if k=='un' and e[1]=='*' and e[2]==('this',): return s.f['cls'],s.f['const'],'LVar "this"'
        if k=='mem':
            b=s.lv(e[1]) or s.tmp(e[1])
            t,c,l=b
            if e[2] in('_data','_columns'): return 'fields:'+t,c,l
            if e[2] in COMP and COMP[e[2]]<DIM[t]: return ELT[t],c,f'LFld {par(l)} {COMP[e[2]]}'
            return None
        if k=='idx':
            b=s.lv(e[1]) or s.tmp(e[1])
            t,c,l=b
            if t.endswith('*'): return None
            i=s.ex(e[2])
            if t.startswith('fields:') or t.endswith(']'):
                et=ELT[t[7:]] if t.startswith('fields:') else t[:-2]
                m=re.fullmatch(r'Int (\d+)',i[1])
                if m: return et,c,f'LFld {par(l)} {m.group(1)}'
                assert i[0] in('int','unsigned')
                return et,c,f'LSub {par(l)} {par(i[1])}'
            g=[g for g in BYNAME[t+'::operator[]'] if g['const']==c][0]
            ie=s.conv(i,'unsigned')
            s.calls.add(g['id'])
            if c:
                ref='&' in g['ret'][2]
                return g['rt'],ref,f'LTmp (Call {g["id"]} <<{s.read(l)}; {ie}>>)'
            return g['rt'],False,f'LIdx {g["id"]} {par(l)} {par(ie)}'
        return None
    def tmp(s,e):
        t,x=s.ex(e)
        return t,False,f'LTmp {par(x)}'
    def read(s,l):
        m=re.fullmatch(r'LTmp \((.*)\)',l,flags=re.S)
        if m and balanced('('+m.group(1)+')'): return m.group(1)
        m=re.fullmatch(r'LVar ("\w+")',l)
        if m: return f'Var {m.group(1)}'
        return f'Read {par(l)}'
    def ex(s,e):
        k=e[0]
        if k=='num':
            v=e[1]
            if re.fullmatch(r'\d+',v): return 'int',f'Int {v}'
            if re.fullmatch(r'\d+[uU]',v): return 'unsigned',f'UInt {v[:-1]}'
            m=re.fullmatch(r'(\d*)\.?(\d*)(?:[eE]([+-]?\d+))?[fF]',v)
            if not m: s.err('literal '+v)
            ip,fp,ep=m.group(1),m.group(2),int(m.group(3) or 0)
            if set(fp)<={'0'}: fp=''
            n=int((ip+fp) or '0'); x=ep-len(fp)
            return 'float',f'Lit {n} {x if x>=0 else "(%d)"%x}'
        if k=='bool': return 'bool','Bool '+e[1]
        if k=='name' or k=='idx' or (k=='mem') or (k=='un' and e[1]=='*'):
            if k=='idx':
                b=s.lv(e[1])
                if b and b[0].endswith('*'):
                    i=s.ex(e[2])[1]; m=re.fullmatch(r'Int (\d+)',i)
                    return b[0][:-1],f'Deref ({s.read(b[2])}) {m.group(1)}'
            if k=='mem' and re.fullmatch('[xyzw]{2,4}|[rgba]{2,4}|[stpq]{2,4}',e[2]):
                t,c,l=s.lv(e[1])
                n=len(e[2]); return f'vec{n}',f'New Cvec{n} '+es([f'Read (LFld {par(l)} {COMP[z]})' for z in e[2]])
            r=s.lv(e)
            if r is None: s.err('lvalue '+str(e))
            return r[0],s.read(r[2])
        if k=='un':
            op=e[1]; t,x=s.ex(e[2])
            if t in DIM:
                g=s.pick([g for g in BYNAME['operator'+op] if len(g['pt'])==1],[t],'operator'+op); return s.call(g,[x])
            if op=='!': return 'bool',f'Un Onot {par(s.conv((t,x),"bool"))}'
            if t=='bool': x=s.conv((t,x),'int'); t='int'
            return t,f'Un {dict([("-","Oneg"),("+","Oplus")])[op]} {par(x)}'
        if k=='bin':
            op=e[1]; l=s.ex(e[2]); r=s.ex(e[3])
            if l[0] in DIM or r[0] in DIM:
                g=s.pick([g for g in BYNAME['operator'+op] if len(g['pt'])==2 and g['kind']=='free'],[l[0],r[0]],'operator'+op)
                return s.call(g,[s.conv(t,p) for t,p in zip((l,r),g['pt'])])
            if op in('&&','||'):
                return 'bool',('And' if op=='&&' else 'Or')+f' {par(s.conv(l,"bool"))} {par(s.conv(r,"bool"))}'
            t=s.arith(l[0],r[0])
            rt='bool' if op in('<','>','<=','>=','==','!=') else t
            return rt,f'Bin {BIN[op]} {par(s.conv(l,t))} {par(s.conv(r,t))}'
        if k=='cond':
            c=s.cond(e[1]); a=s.ex(e[2]); b=s.ex(e[3])
            t=a[0] if a[0]==b[0] else s.arith(a[0],b[0])
            return t,f'Cond {par(c)} {par(s.conv(a,t))} {par(s.conv(b,t))}'
        if k=='make': return s.construct(e[1],e[2])
        if k=='cast': return s.construct(e[1],[e[2]])
        if k=='call':
            if e[1][0]!='name': s.err('call '+str(e[1]))
            n=e[1][1]
            if n=='std::numeric_limits::epsilon': return 'float','Lit 11920928955078125 (-23)'
            if n in PRIM:
                ps,rt=PRIM[n]; ts=[s.ex(a) for a in e[2]]
                assert len(ts)==len(ps)
                return rt,f'Prim P{n.replace("std::","")} {es([s.conv(t,p) for t,p in zip(ts,ps)])}'
            if n=='detail::applyOp':
                # src/detail/utils.hpp 11-33, expanded
                opn=e[2][1][1].split('::')[-1]
                v=s.lv(e[2][0]); t=v[0]
                def ap(x):
                    if opn in PRIM: return f'Prim P{opn} <<{x}>>'
                    g=BYNAME[opn][0]; return s.call(g,[x])[1]
                if t=='float': return 'float',ap(s.read(v[2]))
                g=s.pick(BYNAME[t+'::ctor'],['float']*DIM[t],'applyOp')
                return s.call(g,[ap(f'Read (LFld {par(v[2])} {i})') for i in range(DIM[t])])
            ts=[s.ex(a) for a in e[2]]
            n=n.replace('detail::','')
            g=s.pick(BYNAME[n],[t for t,_ in ts],n)
            return s.call(g,[s.conv(t,p) for t,p in zip(ts,g['pt'])])
        s.err('expr '+str(e)[:100])
    def arith(s,a,b):
        if 'float' in(a,b): return 'float'
        if a=='unsigned' or b=='unsigned': return 'unsigned'
        return 'int'
    # statements -> list of coq stmts
    def st(s,n):
        k=n[0]
        if k=='block':
            sv=dict(s.vars); b=s.seq(n[1]); s.vars=sv
            return [f'Block ({b})'] if any(x[0]=='decl' for x in n[1]) else [b]
        if k=='return':
            f=s.f
            if f['kind']=='method' and '&' in f['ret'][2] and not f['const']:
                t,c,l=s.lv(n[1]); return [f'ReturnRef {par(l)}']
            return [f'Return {par(s.ini(f["rt"],n[1]))}']
        if k=='if':
            c=s.cond(n[1]); a=s.body(n[2]); b=s.body(n[3]) if n[3] else 'Skip'
            return [f'If {par(c)} {par(a)} {par(b)}']
        if k=='switch':
            t,c=s.ex(n[1]); out='Skip'
            for v,b in reversed(n[2]):
                assert b[-1][0]=='return' or (b[-1][0]=='block' and b[-1][1][-1][0]=='return'),b
                lit=s.conv(('int',f'Int {v}'),t)
                out=f'If (Bin Oeq {par(c)} ({lit})) {par(s.seq(b))} {par(out)}'
            return [out]
        if k=='for':
            sv=dict(s.vars); s.vars[n[1]]=('int',False); b=s.body(n[4]); s.vars=sv
            return [f'For "{n[1]}" {n[2]} {n[3]-n[2]} {par(b)}']
        if k=='assert': return [f'Assert {par(s.cond(n[1]))}']
        if k=='decl':
            out=[]
            (b,c,r)=n[1]; assert r==''
            for x,kind,i in n[2]:
                if kind=='none':
                    if b in DIM: v=s.construct(b,[])[1]; out.append(f'Decl "{x}" (Some ({v}))'); t=b
                    else: out.append(f'Decl "{x}" None'); t=b
                elif isinstance(kind,tuple):
                    t=b+'[]'
                    if i is None:
                        v=s.construct(b,[])[1]; l=[v]*kind[1]
                    else: l=[s.conv(s.ex(a),b) for a in i[1]]
                    assert len(l)==kind[1]
                    out.append(f'Decl "{x}" (Some (NewArr {es(l)}))')
                elif kind=='copy':
                    if b=='auto': t,v=s.ex(i)
                    else: t=b; v=s.ini(b,i)
                    out.append(f'Decl "{x}" (Some ({v}))')
                else:
                    if b=='auto':
                        assert len(i)==1; t,v=s.ex(i[0])
                    else: t,v=s.construct(b,i)
                    out.append(f'Decl "{x}" (Some ({v}))')
                s.vars[x]=(t,c)
            return out
        if k=='expr':
            e=n[1]
            if e[0]=='assign':
                t,c,l=s.lv(e[2]); assert not c,e
                if e[1]=='=': return [f'Assign {par(l)} {par(s.ini(t,e[3]))}']
                op=e[1][:-1]
                if t in DIM:
                    r=s.ex(e[3]); g=s.pick(BYNAME[t+'::operator'+op+'='],[r[0]],e[1]); s.calls.add(g['id'])
                    return [f"Mut {g['id']} {par(l)} {es([s.conv(r,g['pt'][0])])}"]
                r=s.ex(e[3]); ct=s.arith(t,r[0])
                v=f'Bin {BIN[op]} {par(s.conv((t,s.read(l)),ct))} {par(s.conv(r,ct))}'
                return [f'Assign {par(l)} {par(s.conv((ct,v),t))}']
            if e[0] in('un','post') and e[1] in('++','--'):
                t,c,l=s.lv(e[2]); o='Oadd' if e[1]=='++' else 'Osub'
                if t in DIM:
                    g=[g for g in BYNAME[t+'::operator'+e[1]] if bool(g['pt'])==(e[0]=='post')][0]; s.calls.add(g['id'])
                    return [f"Mut {g['id']} {par(l)} ENil"]
                one='Lit 1 0' if t=='float' else 'Int 1'
                return [f'Assign {par(l)} (Bin {o} ({s.read(l)}) ({one}))']
            s.err('stmt '+str(e)[:100])
        s.err('stmt '+str(n)[:100])
    def seq(s,l):
        out=[]
        for n in l: out+=s.st(n)
        return ';; '.join(par(x) if x.startswith('If') and 0 else x for x in out) if out else 'Skip'
    def body(s,n): return s.seq(n[1]) if n[0]=='block' and not any(x[0]=='decl' for x in n[1]) else (s.st(n)[0] if len(s.st(n))==1 else s.seq([n]))
    def go(s):
        f=s.f
        params=[];sig=[];outs=[]
        if f['kind']=='method': params.append('this'); sig.append(f['cls'])
        if f['mut'] and f['name']!='operator[]': outs.append('this')
        for i,((t,nm),pt) in enumerate(zip(f['params'],f['pt'])):
            if pt=='no_init_t': continue
            if f['name'] in('operator++','operator--') and f['kind']=='method' : continue   # the dummy int of the postfix form
            nm=nm or f'arg{i}'
            params.append(nm); sig.append(pt); s.vars[nm]=(pt,t[1])
            if '&' in t[2] and not t[1]: outs.append(nm)
        pre=[];post=[]
        if f['kind']=='ctor':
            c=f['cls']; d=None; rest=[]
            for m,a in f['init']:
                if m==c: d=s.construct(c,a)[1]
                else: rest.append((m,a))
            if d is None:
                if c.startswith('mat'):
                    g=[g for g in BYNAME[ELT[c]+'::ctor'] if not g['pt']][0]
                    d=f'New C{c} '+es([s.call(g,[])[1]]*DIM[c])
                else: d=f'New C{c} ENil'
            # the object is named this; parameters keep their names
            pre.append(f'Decl "this" (Some ({d}))')
            for m,a in rest: pre.append(f'Assign (LFld (LVar "this") {COMP[m]}) {par(s.construct(ELT[c],a)[1])}')
            post.append('Made')
        b=[]
        for n in f['body']: b+=s.st(n)
        if f['kind']!='ctor' and f['rt']!='void' and not (f['body'] and s.term(f['body'][-1])): post.append('Fall')
        l=pre+b+post
        if not l: l=['Skip']
        f['coq']=l; f['outs']=outs; f['psig']=sig; f['pnames']=params; f['calls']=s.calls
    def term(s,n):
        if n[0]=='return': return True
        if n[0]=='block': return bool(n[1]) and s.term(n[1][-1])
        if n[0]=='if': return n[3] is not None and s.term(n[2]) and s.term(n[3])
        return False
def build():
    errs=[]
    for f in FS:
        try: Tr(f).go()
        except Err as e: errs.append(str(e))
        except Exception as e: errs.append(f"{f['id']}: {type(e).__name__} {e}"); 
    return errs
if __name__=='__main__':
    er=build()
    for e in er[:40]: print(e)
    print(len(er))
    for n in sys.argv[1:]:
        for f in FS:
            if f['id']==n: print(f['pnames'],f['psig'],f['outs']); print(';;\n'.join(f['coq']))
