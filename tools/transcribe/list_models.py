import re,subprocess,json
MF=['Vec','IVec','BVec','Mat','Quat','Common','Geom','Exp','Trig','Comp','Const','Color','Matrix','Transform','Quaternion']
out=[];names=[]
for m in MF:
    s=open(f'/verif/rocq/theories/Model{m}.v').read()
    pos=0;cit=None
    for x in re.finditer(r'\(\*\*?(.*?)\*\)|^\s*(?:Definition|Fixpoint) (\w+)',s,flags=re.S|re.M):
        if x.group(2): names.append((m,x.group(2),cit))
        else:
            c=re.findall(r'(?:src/)?(\w+\.[ch]pp) ([\d, -]+\d|\d+)',x.group(1)); cit=c or cit
v='From Verif Require Import Scalar Outcome Types Int32 '+' '.join('Model'+m for m in MF)+'.\nFrom Coq Require Import ZArith.\nSet Printing Width 1000.\n'
for m,n,c in names: v+=f'About {n}.\n'
v=v.replace('About','Check @')
v=re.sub(r'Check @ (\w+)\.',r'Check @\1.',v)
open('/tmp/chk.v','w').write(v)
r=subprocess.run(['coqc','-Q','theories','Verif','/tmp/chk.v'],capture_output=True,text=True,cwd='/verif/rocq')
print(r.stderr[:500])
ty={}
for x in re.finditer(r'^@?(\w+)\n?\s+: (.*?)(?=\n@?\w+\n?\s+:|\Z)',r.stdout,flags=re.S|re.M): ty[x.group(1)]=re.sub(r'\s+',' ',x.group(2)).strip()
json.dump([(m,n,c,ty.get(n)) for m,n,c in names],open(__file__.rsplit('/',1)[0]+'/models.json','w'))
for m,n,c in names: print(m,n,c,'::',ty.get(n))
