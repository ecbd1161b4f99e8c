#!/usr/bin/env python3
"""Generate theories/LuffaTab.v from /repo/luffa: the tables of sbox.go, the message injection of the three processBlock
functions and the body of their step loops (checked to be the same text in all 12 loops up to renaming)."""
import re,sys
sys.path.insert(0,'/verif/tools')
import goexpr
R='/repo/luffa/'
out=['(** LuffaTab.v -- generated by tools/luffa.py from /repo/luffa (sbox.go and the straight-line parts of processBlock). *)',
'From Coq Require Import List NArith.','Require Import Verif.Base.','Import ListNotations.']
s=open(R+'sbox.go').read()
def ln(text,pos): return text.count('\n',0,pos)+1
for m in re.finditer(r'var (\w+) = \[\]uint32\{(.*?)\n\}',s,re.S):
    xs=re.findall(r'0x[0-9a-f]+',m.group(2))
    out.append('(** sbox.go:%d *)\nDefinition lf_%s : list N := [%s]%%N.'%(ln(s,m.start()),m.group(1),'; '.join(xs)))
def lets(lines):
    o=[]
    for l in lines:
        m=re.match(r'(\w+) (=|\^=|\|=|&=) (.*)$',l); assert m,l
        d,op,e=m.groups()
        if op!='=': e='%s %s (%s)'%(d,op[0],e)
        o.append('  let %s := %s in'%(d,goexpr.tr(e,32)))
    return o
steps=None
for f,w in (('256',3),('384',4),('512',5)):
    src=open(R+'digest%s.go'%f).read()
    i0=src.index('processBlock(data'); i1=src.index('for r :=',i0)
    mi=src[i0:i1]; lo=ln(src,i0)
    body=[l.strip() for l in mi.split('\n')[1:] if ' = ' in l or ':=' in l]
    body=[l for l in body if not re.match(r'var M\d = getu32\(data\[\d+:\]\)$|V\d\d := d\.V\d\d$',l)]
    # the loads
    for k in range(8): assert 'var M%d = getu32(data[%d:])\n'%(k,4*k) in mi
    for j in range(w):
        for k in range(8): assert 'V%d%d := d.V%d%d\n'%(j,k,j,k) in mi and '    d.V%d%d = V%d%d\n'%(j,k,j,k) in src[i1:]
    V=['V%d%d'%(j,k) for j in range(w) for k in range(8)]
    first=min(n for n,l in enumerate(src.split('\n'),1) if n>lo and re.match(r'\s+a0 = ',l))
    out.append('(** digest%s.go:%d-%d, processBlock up to the step loops *)'%(f,first,ln(src,i1)-2))
    out.append('Definition lf_mi%s (V M : list N) : list N :='%f)
    for n,v in enumerate(V): out.append('  let %s := at_ V %d in'%(v,n))
    for k in range(8): out.append('  let M%d := at_ M %d in'%(k,k))
    out+=lets(body)
    out.append('  ['+'; '.join(V)+'].')
    loops=re.findall(r'for r := 0; r < 8; r\+\+ \{(.*?)\n    \}',src[i1:],re.S)
    assert len(loops)==w
    for j,l in enumerate(loops):
        l=re.sub(r'\bV%d(\d)'%j,r'V0\1',l).replace('RC%d0_%s[r]'%(j,f),'rc0').replace('RC%d4_%s[r]'%(j,f),'rc4')
        assert steps in (None,l); steps=l
body=[l.strip() for l in steps.split('\n') if l.strip()]
out.append('(** digest256.go:284-341, the body of the first step loop; the other loops (digest256.go, digest384.go, digest512.go) are the\n    same statements on V1x, ..., V4x with their own constants (checked by tools/luffa.py) *)')
out.append('Definition lf_step (rc0 rc4 : N) (V : list N) : list N :=')
for k in range(8): out.append('  let V0%d := at_ V %d in'%(k,k))
out+=lets(body)
out.append('  ['+'; '.join('V0%d'%k for k in range(8))+'].')
open('/verif/rocq/theories/LuffaTab.v','w').write('\n'.join(out)+'\n')
