#!/usr/bin/env python3
"""Generate rocq/theories/SknTab.v from /repo/skein512/block.go."""
import re
src=open('/repo/skein512/block.go').read().split('\n')
body=[(i+1,re.sub(r'\s+','',l)) for i,l in enumerate(src) if l.strip()]
p=next(i for i,(n,l) in enumerate(body) if l.startswith('t2:='))+1
assert body[p-1][1]=='t2:=t[0]^t[1]'
assert body[p-2][1]=='k8:=keyScheduleParity'+''.join('^k[%d]'%i for i in range(8)),body[p-2]
assert body[p-3][1]=='x0,x1,x2,x3,x4,x5,x6,x7:='+','.join('src[%d]'%i for i in range(8))
inj=[];mixes=[];first=body[p][0]
def K(t): return 8 if t=='k8' else int(re.match(r'k\[(\d)\]$',t).group(1))
while True:
    tab=[]
    for w in range(8):
        m=re.match(r'x%d\+=([^+]*)(?:\+(.*))?$'%w,body[p][1]); assert m,body[p]
        k=K(m.group(1)); e=m.group(2)
        if e is None: x='X0'
        elif e=='t2': x='Xt 2'
        elif e[0]=='t': x='Xt '+re.match(r't\[(\d)\]$',e).group(1)
        else: x='Xc '+str(int(e))
        tab.append('(%d, %s)'%(k,x)); p+=1
    inj.append(tab)
    if body[p][1].startswith('dst['): break
    g=[]
    for _ in range(16):
        m=re.match(r'x(\d)\+=x(\d)$',body[p][1]); assert m,body[p]
        i,j=m.groups()
        m=re.match(r'x(\d)=\(x(\d)<<(\d+)\|x(\d)>>\(64-(\d+)\)\)\^x(\d)$',body[p+1][1]); assert m
        a=m.groups(); assert a[0]==a[1]==a[3]==j and a[2]==a[4] and a[5]==i
        g.append('(%s, %s, %s%%N)'%(i,j,a[2])); p+=2
    mixes.append(g)
last=body[p-1][0]
for i in range(8): assert body[p+i][1]=='dst[%d]=src[%d]^x%d'%(i,i,i)
assert len(inj)==19 and len(mixes)==18
o='''(** SknTab.v -- generated by tools/skn.py from /repo/skein512/block.go:%d-%d.  [skn_inj]: the 19 key injections, word w gets
    k[i] (8 stands for k8) plus nothing, t[j] (2 stands for t2) or a constant.  [skn_mix]: the 18 groups of statements
    x_i += x_j; x_j = (x_j<<r | x_j>>(64-r)) ^ x_i  between them, as triples (i, j, r). *)
From Coq Require Import List NArith.
Require Import Verif.ThreefishTab.
Import ListNotations.
Definition skn_inj : list (list (nat * extra)) := [
  %s].
Definition skn_mix : list (list (nat * nat * N)) := [
  %s].
'''%(first,last,';\n  '.join('['+'; '.join(t)+']' for t in inj),';\n  '.join('['+'; '.join(t)+']' for t in mixes))
open('/verif/rocq/theories/SknTab.v','w').write(o)
