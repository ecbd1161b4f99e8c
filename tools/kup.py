import sys,re
sys.path.insert(0,'/verif/tools')
from gotab import extract,nums,fmt
T=[nums(extract('/repo/kupyna/sbox.go','T%d'%i)) for i in range(8)]
print([len(t) for t in T])
def mul(a,b):
    r=0
    while b:
        if b&1: r^=a
        a<<=1
        if a&256: a^=0x11d
        b>>=1
    return r
v=[1,1,5,1,8,6,7,4]
# M[i][r] = v[(r-i)%8]
S=[]
for r in range(4):
    # find i with coefficient 1 : r-i=0 -> i=r
    S.append([(t>>(8*r))&255 for t in T[r]])
for s in S: print(sorted(s)==list(range(256)), [hex(x) for x in s[:16]])
for r in range(8):
    for x in range(256):
        w=sum(mul(v[(r-i)%8],S[r%4][x])<<(8*i) for i in range(8))
        assert w==T[r][x],(r,x)
print("ok")
# check unrolled lines
for f,n,s7 in (('kupyna256',8,7),('kupyna512',16,11)):
    src=open('/repo/kupyna/%s.go'%f).read()
    lines=[l.strip() for l in src.split('\n') if re.match(r'\s+y\[\d+\]',l)]
    assert len(lines)==3*n
    for k,l in enumerate(lines):
        g,i=divmod(k,n)
        sh=[0,1,2,3,4,5,6,s7]
        body='^'.join('T%d[byte(x[%d]%s)]'%(r,(i-sh[r])%n,'>>%d'%(8*r) if r else '') for r in range(8))
        if g==0: e='y[%d]=%s'%(i,body)
        if g==1: e='y[%d]=%s^(%d<<4)^round'%(i,body,i)
        if g==2: e='y[%d]=(%s)+(r^((((%d-%d)*0x10)^round)<<56))'%(i,body,n-1,i)
        assert l.replace(' ','')==e,(l,e)
print("lines ok")
out='''(** KupynaTab.v -- GENERATED by tools/kup.py from /repo/kupyna/sbox.go: the tables T0..T7. *)
From Coq Require Import List NArith.
Import ListNotations.
'''
for r in range(8): out+='\n(** sbox.go: T%d *)\n'%r+fmt('kup_T%d'%r,T[r],4)
open('/verif/rocq/theories/KupynaTab.v','w').write(out)
sp=''.join('Definition kup_pi%d : list N := [\n'%r+';\n'.join('  '+'; '.join('0x%02x'%x for x in S[r][i:i+16]) for i in range(0,256,16))+']%N.\n' for r in range(4))
open('/tmp/w/kup_s.v','w').write(sp)
