#!/usr/bin/env python3
"""include/zcm/detail/vec{2,3,4}_access.hpp and the unions of the vector headers -> rocq/theories/CppAccessCode.v"""
import re,sys
REPO='/repo/include/zcm/'
OPS={'+':'AoAdd','-':'AoSub','*':'AoMul','/':'AoDiv','%':'AoRem','|':'AoOr','&':'AoAnd','^':'AoXor','<<':'AoShl','>>':'AoShr'}
def q(s): return '"%s"'%s
def lst(l): return '['+'; '.join(l)+']'
def expr(s):
    s=s.strip()
    m=re.fullmatch(r'(\w+)\{(.*)\.\.\.\}',s)
    if m: return f'(APack {q(m[1])} {expr(m[2])})'
    if s.startswith('++') or s.startswith('--'): return f'(APre {"true" if s[0]=="-" else "false"} {expr(s[2:])})'
    if s.endswith('++') or s.endswith('--'): return f'(APost {"true" if s[-1]=="-" else "false"} {expr(s[:-2])})'
    m=re.fullmatch(r'(.*)\[(\w+)\]',s)
    if m: return f'(AIdx {expr(m[1])} {expr(m[2])})'
    m=re.fullmatch(r'(\w+)<([\w, ]*)>::(\w+)',s)
    if m: return f'(AQual {q(m[1])} {lst([q(x.strip()) for x in m[2].split(",")])} {q(m[3])})'
    m=re.fullmatch(r'\w+',s)
    if m: return f'(AVar {q(s)})'
    raise SyntaxError(s)
def stmt(s):
    s=s.strip()
    m=re.fullmatch(r'return\s+(.*)',s)
    if m: return f'AReturn {expr(m[1])}'
    m=re.fullmatch(r'([^=]*?)\s*(<<|>>|[-+*/%|&^])?=\s*(\w+)',s)
    if m: return (f'ACompound {OPS[m[2]]} ' if m[2] else 'AAssign ')+f'{expr(m[1])} {expr(m[3])}'
    raise SyntaxError(s)
def body(b): return lst([stmt(x) for x in b.split(';') if x.strip()])
def tparams(s):
    out=[]
    for x in s.split(','):
        k,n=x.split()
        out.append({'typename':'PType','int':'PInt','int...':'PPack'}[k]+' '+q(n))
    return lst(out)
MEM=re.compile(r'\s*(?:(void|T&?)\s+)?operator\s*(\(\)|\+\+|--|(?:<<|>>|[-+*/%|&^])?=|\w+)\s*\(([^)]*)\)\s*(const\s+)?noexcept\s*\{([^{}]*(?:\{[^{}]*\}[^{}]*)?)\}')
def members(b):
    out=[];i=0
    while b[i:].strip():
        m=MEM.match(b,i)
        if not m: raise SyntaxError(b[i:i+80])
        i=m.end(); r,o,a,_,bd=m.groups()
        ret='None' if r in(None,'void') else f'(Some ({q(r.rstrip("&"))}, {"true" if r.endswith("&") else "false"}))'
        if o in('++','--'): n=f'(Ninc {"true" if o=="--" else "false"})'
        elif o=='=': n='Nassign'
        elif o.endswith('='): n=f'(Ncompound {OPS[o[:-1]]})'
        else:
            assert r is None; n=f'(Nconv {q(o)})'
        ps=[]
        if a.strip():
            w=a.split(); assert len(w)<=2; ps=[f'({q(w[0])}, {q(w[1] if len(w)>1 else "")})']
        out.append(f'Member {ret} {n} {lst(ps)} {body(bd)}')
    return out
def close(s,i):
    d=0
    for j in range(i,len(s)):
        if s[j]=='{': d+=1
        if s[j]=='}':
            d-=1
            if d==0: return j
C=[];F=[];U=[]
for n in '234':
    src=open(f'{REPO}detail/vec{n}_access.hpp').read()
    for m in re.finditer(r'template\s*<([^>]*)>\s*struct (\w+)(?:\s*:\s*public (\w+)<([\w, ]*)>)?\s*\{',src):
        j=close(src,m.end()-1); b=src[m.end():j]; data='None'
        line=src[:m.start()].count('\n')+1; end=src[:j].count('\n')+1
        d=re.match(r'\s*(\w+) (\w+)\[(\d)\];',b)
        if d: data=f'(Some ({q(d[1])}, {q(d[2])}, {d[3]}))'; b=b[d.end():]
        base='None' if not m[3] else f'(Some ({q(m[3])}, {lst([q(x.strip()) for x in m[4].split(",")])}))'
        C.append(f'  (* vec{n}_access.hpp {line}-{end} *)\n  Class {q(m[2])} {tparams(m[1])} {base} {data}\n    [' + ';\n     '.join(members(b))+']')
    for m in re.finditer(r'template<([^>]*)>\s*(\w+) format_as\(const (\w+)<([\w, .]*)> &a\)\s*\{\s*return static_cast<(\w+)>\(a\);\s*\}',src):
        line=src[:m.start()].count('\n')+1; end=src[:m.end()].count('\n')+1
        F.append(f'  (* vec{n}_access.hpp {line}-{end} *)\n  Format {tparams(m[1])} {q(m[2])} {q(m[3])} {lst([q(x.strip().rstrip(".")) for x in m[4].split(",")])} {q(m[5])}')
    assert src.count('format_as')==3
for v in('vec','ivec'):
    for n in '234':
        src=open(f'{REPO}{v}{n}.hpp').read()
        m=re.search(r'union\s*\{(.*?)\};',src,re.S); L=m[1]; line=src[:m.start()].count('\n')+1; end=src[:m.end()].count('\n')+1
        ms=[];size=None
        for l in L.split('\n'):
            l=l.strip()
            if not l or l.startswith('#') or l.startswith('//'): continue
            d=re.fullmatch(r'(\w+) _data\[(\d)\];',l)
            if d: size=(d[1],d[2]); continue
            d=re.fullmatch(r'detail::(\w+)<([\w, ]*)>\s*([\w, ]*);',l)
            if not d: raise SyntaxError(l)
            args=[f'TIx {x.strip()}' if x.strip().isdigit() else f'TTy {q(x.strip())}' for x in d[2].split(',')]
            ms.append(f'UM {q(d[1])} {lst(args)} {lst([q(x.strip()) for x in d[3].split(",")])}')
        U.append((f'{v}{n}',f'(* {v}{n}.hpp {line}-{end} *)\nDefinition {v}{n}_union : aunion := Union {q(v+n)} {q(size[0])} {size[1]} [\n  '+';\n  '.join(ms)+'].'))
print(len(C),len(F),[u[1].count('UM ') for u in U],file=sys.stderr)
open(sys.argv[1] if len(sys.argv)>1 else '/verif/rocq/theories/CppAccessCode.v','w').write('''(** * The text of the accessor templates and of the unions of the vector types

    Written by tools/transcribe/accessors.py; the syntax is that of [CppAccess.v]. *)
From Coq Require Import List String.
From Verif Require Import CppAccess.
Import ListNotations.
Local Open Scope string_scope.

Definition accessor_code : list aclass := [
%s
].
Definition format_code : list aformat := [
%s
].
%s
'''%(';\n'.join(C),';\n'.join(F),'\n'.join(u[1] for u in U)))
