#!/usr/bin/env python3
"""pair each C++ function with its model function"""
import sys,json,re
sys.path.insert(0,__file__.rsplit('/',1)[0])
import gen
from gen import FS,DIM,cty,es
assert not gen.build()
ORDER=['Vec','IVec','BVec','Mat','Quat','Common','Geom','Exp','Trig','Comp','Const','Color','Matrix','Transform','Quaternion']
MODELS=json.load(open(__file__.rsplit('/',1)[0]+'/models.json'))
COQ={'float':'S','int':'Z','unsigned':'N','bool':'bool'}
for n in '234':
    COQ['vec'+n]=f'vec{n} S';COQ['ivec'+n]=f'vec{n} Z';COQ['bvec'+n]=f'vec{n} bool';COQ['mat'+n]=f'mat{n} S'
COQ['quat']='quat S';COQ['float*']='option (list S)';COQ['int*']='option (list Z)';COQ['bool*']='option (list bool)'
def split(t):
    """split a Coq arrow type at top level"""
    out=[];d=0;cur=''
    i=0
    while i<len(t):
        if t[i]=='(' : d+=1
        if t[i]==')' : d-=1
        if d==0 and t.startswith(' -> ',i): out.append(cur); cur=''; i+=4; continue
        cur+=t[i]; i+=1
    out.append(cur); return out
def strip(t):
    t=t.strip()
    while t.startswith('(') and t.endswith(')'): t=t[1:-1]
    return t
def rng(c):
    r=[]
    for fn,x in c or []:
        for y in re.split(r'[, ]+',x):
            if not y: continue
            a=y.split('-'); r.append((fn,int(a[0]),int(a[-1])))
    return r
DEC={'float':'dF','int':'dI','unsigned':'dU','bool':'dB','float*':'dPF','int*':'dPI','bool*':'dPB','quat':'dQ'}
ENC={'float':'eF','int':'eI','bool':'eB','quat':'eQ'}
for n in '234':
    for p,q in(('vec','V'),('ivec','I'),('bvec','B'),('mat','M')): DEC[p+n]='d'+q+n; ENC[p+n]='e'+q+n
def pair(f):
    file=f['file'].split('/')[-1]
    n=f['name']
    cands=[]
    for m,nm,c,t in MODELS:
        if not t: continue
        rs=[r for r in rng(c) if r[0]==file]
        if not any(a<=f['line'] and f['end']<=b or (f['line']<=a and b<=f['end']) for _,a,b in rs): continue
        scal=t.startswith('forall S : Scalar, ')
        ty=split(t.replace('forall S : Scalar, ',''))
        pre=['S'] if scal else []
        if ty[0]=='build': pre.append('b'); ty=ty[1:]
        args=[COQ[x] for x in f['psig']]
        res=ty[-1]; par=ty[:-1]
        out=res.startswith('outcome'); r=strip(res[8:]) if out else res
        if n=='operator[]':
            if nm.endswith('_index') and par==args: cands.append((nm,pre,'index' if f['const'] else 'index_ref',out,r))
            continue
        if f['name'] in('operator++','operator--'):
            w=('pre' if not f['pt'] else 'post')+('inc' if n.endswith('++') else 'dec')
            if nm.endswith('_'+w) and par==args: cands.append((nm,pre,'pre' if not f['pt'] else 'post',out,r))
            continue
        if f['kind']=='method' and f['mut'] and len(args)==2:
            if par==[f'({args[0]} -> {args[1]})',args[0]] and r==args[0]: cands.append((nm,pre,'mutate',out,r))
            continue
        if par==args and r==COQ.get(f['rt']) : cands.append((nm,pre,'ret',out,r))
    return cands
if __name__=='__main__':
    bad=0
    for f in FS:
        c=pair(f)
        if len(c)!=1: bad+=1; print(f['file'],f['line'],f['end'],f['id'],f['psig'],f['rt'],[x[0] for x in c])
    print(bad)
