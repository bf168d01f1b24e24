#!/usr/bin/env python3
"""Parse the C++ subset used by /repo/src into function definitions with token bodies -> AST."""
import re,sys
FILES=['vec2','vec3','vec4','ivec2','ivec3','ivec4','bvec2','bvec3','bvec4','mat2','mat3','mat4','quat','common','geometric','exponential','angle_and_trigonometry','component_wise','constants','color_space','matrix','matrix_transform','quaternion']
TOK=re.compile(r'''(?P<ws>\s+)|(?P<str>"[^"]*")|(?P<num>(?:\d+\.\d*|\.\d+|\d+)(?:[eE][+-]?\d+)?[fFuUlL]*)|(?P<id>[A-Za-z_]\w*)|(?P<op><<=|>>=|::|->|\+\+|--|\+=|-=|\*=|/=|%=|\|=|&=|\^=|<<|>>|<=|>=|==|!=|&&|\|\||[-+*/%&|^!~<>=?:;,.(){}\[\]])''')
def strip_comments(s):
    s=re.sub(r'/\*.*?\*/',lambda m:re.sub(r'[^\n]',' ',m.group(0)),s,flags=re.S)
    return re.sub(r'//[^\n]*','',s)
def macros():
    s=strip_comments(open('/repo/include/zcm/detail/impl_op_macro.hpp').read()).replace('\\\n',' ')
    d={}
    for l in s.split('\n'):
        m=re.match(r'#define (\w+)\(([^)]*)\)\s*(.*)',l)
        if m: d[m.group(1)]=([x.strip() for x in m.group(2).split(',')],m.group(3).strip())
    return d
MAC=macros()
def expand(text):
    while True:
        m=re.search(r'\b(ZCM_IMPL_\w+)\(([^()]*)\)',text)
        if not m: return text
        ps,body=MAC[m.group(1)]; args=[x.strip() for x in m.group(2).split(',')]
        assert len(ps)==len(args)
        sub=dict(zip(ps,args))
        b=re.sub(r'\b(%s)\b'%'|'.join(ps),lambda k:sub[k.group(1)],body)
        text=text[:m.start()]+b+text[m.end():]
class T:
    __slots__=('k','v','line')
    def __init__(s,k,v,line): s.k=k; s.v=v; s.line=line
    def __repr__(s): return s.v
def tokenize(fname):
    raw=strip_comments(open(fname).read())
    out=[]
    for ln,l in enumerate(raw.split('\n'),1):
        if l.strip().startswith('#'): continue
        l=expand(l); pos=0
        while pos<len(l):
            m=TOK.match(l,pos)
            if not m: raise Exception(f'{fname}:{ln}: {l[pos:]!r}')
            pos=m.end()
            if m.lastgroup!='ws': out.append(T(m.lastgroup,m.group(0),ln))
    return out
class P:
    def __init__(s,toks,fname): s.t=toks; s.i=0; s.f=fname
    def pk(s,n=0): return s.t[s.i+n].v if s.i+n<len(s.t) else None
    def nx(s): s.i+=1; return s.t[s.i-1].v
    def ex(s,v):
        if s.pk()!=v: raise Exception(f'{s.f}:{s.t[s.i].line}: expected {v} got {[x.v for x in s.t[s.i:s.i+8]]}')
        s.i+=1
    def line(s): return s.t[min(s.i,len(s.t)-1)].line
    def err(s,m): raise Exception(f'{s.f}:{s.line()}: {m}: {[x.v for x in s.t[s.i:s.i+8]]}')
    def skip_balanced(s,o,c):
        d=0
        while True:
            v=s.nx()
            if v==o: d+=1
            elif v==c:
                d-=1
                if d==0: return
    # ---- types
    def qual(s):
        n=[s.nx()]
        while s.pk()=='::': s.nx(); n.append(s.nx())
        return n
    BASE={'float','int','unsigned','bool','void','int32_t','uint32_t','size_t','auto'}|{p+n for p in('vec','ivec','bvec','mat') for n in '234'}|{'quat','no_init_t'}
    def is_type(s):
        i=s.i
        while s.t[i].v in('const','static'): i+=1
        if s.t[i].v=='zcm' and s.t[i+1].v=='::': i+=2
        return s.t[i].v in s.BASE, i
    def type_(s):
        const=False; 
        while s.pk() in('const','static'):
            if s.pk()=='const': const=True
            s.nx()
        n=s.qual()
        if n[0]=='zcm': n=n[1:]
        base=n[0]
        base={'int32_t':'int','uint32_t':'unsigned'}.get(base,base)
        while s.pk()=='const': const=True; s.nx()
        ref=''
        while s.pk() in('&','*'): ref+=s.nx()
        return base,const,ref
    # ---- top level
    def top(s):
        fs=[]
        while s.i<len(s.t):
            if s.pk()=='static_assert': s.nx(); s.skip_balanced('(',')'); s.ex(';'); continue
            if s.pk()=='namespace':
                s.nx()
                if s.pk()!='{': s.nx()
                s.ex('{'); continue
            if s.pk()=='}': s.nx(); continue
            fs.append(s.func())
        return fs
    def func(s):
        line=s.line()
        f=dict(file=s.f,line=line,ret=None,cls=None,const=False,init=[])
        # constructor / conversion operator?
        j=s.i
        names=[]
        def looks():
            i=s.i; ns=[]
            while s.t[i].k=='id' and s.t[i+1].v=='::':
                ns.append(s.t[i].v); i+=2
            return ns,i
        ns,i=looks()
        if ns and len(ns)>=2 and s.t[i].v==ns[-1]:     # zcm::vec3::vec3(
            f['cls']=ns[-1]; f['name']='ctor'; s.i=i+1
        elif ns and len(ns)>=2 and s.t[i].v=='operator':
            f['cls']=ns[-1]; s.i=i+1; b,c,r=s.type_(); f['name']='conv'; f['ret']=(b,False,'')
        else:
            f['ret']=s.type_()
            if s.pk()=='zcm_vectorcall': s.nx()
            ns,i=looks(); s.i=i
            ns=[x for x in ns if x not in('zcm','detail')]
            if ns: f['cls']=ns[-1]
            if s.pk()=='operator':
                s.nx()
                if s.pk()=='[': s.nx(); s.ex(']'); f['name']='operator[]'
                elif s.pk()=='(' : s.err('operator()')
                else: f['name']='operator'+s.nx()
            else: f['name']=s.nx()
        s.ex('('); ps=[]
        while s.pk()!=')':
            t=s.type_(); nm=None
            if s.pk() not in(',',')'): nm=s.nx()
            ps.append((t,nm))
            if s.pk()==',': s.nx()
        s.ex(')'); f['params']=ps
        if s.pk()=='const': f['const']=True; s.nx()
        if s.pk()=='noexcept': s.nx()
        if s.pk()==':':
            s.nx()
            while True:
                n=s.qual()[-1]; s.ex('('); a=s.args(')'); f['init'].append((n,a))
                if s.pk()==',': s.nx(); continue
                break
        f['body']=s.block(); f['end']=s.t[s.i-1].line
        if s.pk()==';': s.nx()
        return f
    # ---- statements
    def block(s):
        s.ex('{'); out=[]
        while s.pk()!='}': out.append(s.stmt())
        s.ex('}'); return out
    def stmt(s):
        v=s.pk()
        if v=='{': return ('block',s.block())
        if v=='return':
            s.nx(); e=None
            if s.pk()!=';': e=s.init_clause() if s.pk()=='{' else s.expr()
            s.ex(';'); return ('return',e)
        if v=='if':
            s.nx(); s.ex('('); c=s.expr(); s.ex(')'); a=s.stmt(); b=None
            if s.pk()=='else': s.nx(); b=s.stmt()
            return ('if',c,a,b)
        if v=='switch':
            s.nx(); s.ex('('); c=s.expr(); s.ex(')'); s.ex('{'); cs=[]
            while s.pk()!='}':
                s.ex('case'); n=int(s.nx()); s.ex(':'); b=[]
                while s.pk() not in('case','}'): b.append(s.stmt())
                cs.append((n,b))
            s.ex('}'); return ('switch',c,cs)
        if v=='for':
            s.nx(); s.ex('('); s.ex('int'); x=s.nx(); s.ex('='); lo=int(s.nx()); s.ex(';')
            assert s.nx()==x; s.ex('<'); hi=int(s.nx()); s.ex(';')
            if s.pk()=='++': s.nx(); assert s.nx()==x
            else: assert s.nx()==x; s.ex('++')
            s.ex(')'); return ('for',x,lo,hi,s.stmt())
        if v=='assert':
            s.nx(); s.ex('('); e=s.expr(); s.ex(')'); s.ex(';'); return ('assert',e)
        it,i=s.is_type()
        # declaration: TYPE NAME ...
        if it and (s.t[i+1].v in('const','&','*') or (s.t[i+1].k=='id')):
            t=s.type_(); ds=[]
            while True:
                n=s.nx()
                if s.pk()=='[':
                    s.nx(); k=int(s.nx()); s.ex(']')
                    if s.pk()=='=': s.nx(); ds.append((n,('arr',k),s.init_clause()))
                    else: ds.append((n,('arr',k),None))
                elif s.pk()=='(':
                    s.nx(); ds.append((n,'ctor',s.args(')')))
                elif s.pk()=='{':
                    ds.append((n,'ctor',s.init_clause()[1]))
                elif s.pk()=='=':
                    s.nx(); ds.append((n,'copy',s.init_clause() if s.pk()=='{' else s.assign()))
                else: ds.append((n,'none',None))
                if s.pk()==',': s.nx(); continue
                break
            s.ex(';'); return ('decl',t,ds)
        e=s.expr(); s.ex(';'); return ('expr',e)
    def args(s,close):
        out=[]
        while s.pk()!=close:
            out.append(s.init_clause() if s.pk()=='{' else s.assign())
            if s.pk()==',': s.nx()
        s.ex(close); return out
    def init_clause(s):
        s.ex('{'); return ('braces',s.args('}'))
    # ---- expressions
    def expr(s): return s.assign()
    def assign(s):
        l=s.cond()
        if s.pk() in('=','+=','-=','*=','/=','%=','|=','&=','^=','<<=','>>='):
            op=s.nx(); r=s.init_clause() if s.pk()=='{' else s.assign(); return ('assign',op,l,r)
        return l
    def cond(s):
        c=s.binary(0)
        if s.pk()=='?':
            s.nx(); a=s.assign(); s.ex(':'); b=s.assign(); return ('cond',c,a,b)
        return c
    LV=[['||'],['&&'],['|'],['^'],['&'],['==','!='],['<','>','<=','>='],['<<','>>'],['+','-'],['*','/','%']]
    def binary(s,n):
        if n==len(s.LV): return s.unary()
        l=s.binary(n+1)
        while s.pk() in s.LV[n]:
            op=s.nx(); r=s.binary(n+1); l=('bin',op,l,r)
        return l
    def unary(s):
        v=s.pk()
        if v in('-','+','!','~','*','&','++','--'):
            s.nx(); return ('un',v,s.unary())
        return s.postfix()
    def postfix(s):
        e=s.primary()
        while True:
            v=s.pk()
            if v=='[': s.nx(); i=s.expr(); s.ex(']'); e=('idx',e,i)
            elif v=='.': s.nx(); e=('mem',e,s.nx())
            elif v=='->': s.nx(); e=('mem',('un','*',e),s.nx())
            elif v=='(':
                s.nx(); e=('call',e,s.args(')'))
            elif v in('++','--'): s.nx(); e=('post',v,e)
            else: return e
    def primary(s):
        t=s.t[s.i]
        if t.k=='num': s.nx(); return ('num',t.v)
        if t.v=='(':
            s.nx(); e=s.expr(); s.ex(')'); return e
        if t.v in('true','false'): s.nx(); return ('bool',t.v)
        if t.v=='this': s.nx(); return ('this',)
        if t.v=='static_cast':
            s.nx(); s.ex('<'); ty=s.type_(); s.ex('>'); s.ex('('); e=s.expr(); s.ex(')'); return ('cast',ty[0],e)
        if t.k=='id':
            q=[s.nx()]
            while s.pk()=='::': 
                s.nx(); q.append(s.nx())
                if s.pk()=='<' and q[-1]=='numeric_limits': s.ex('<'); s.ex('float'); s.ex('>')
            if q[0]=='zcm' and len(q)>1: q=q[1:]; zq=True
            else: zq=False
            if len(q)==1 and q[0] in s.BASE:
                ty={'int32_t':'int'}.get(q[0],q[0])
                if s.pk()=='(': s.nx(); return ('make',ty,s.args(')'))
                if s.pk()=='{': return ('make',ty,s.init_clause()[1])
                s.err('type in expression')
            return ('name','::'.join(q),zq)
        s.err('primary')
def load():
    fs=[]
    for n in FILES:
        fn=f'/repo/src/{n}.cpp'
        p=P(tokenize(fn),f'src/{n}.cpp'); fs+=p.top()
    return fs
if __name__=='__main__':
    fs=load(); print(len(fs))
    for f in fs: print(f['file'],f['line'],f['end'],f['cls'],f['name'],f['ret'],f['params'],f['const'])
