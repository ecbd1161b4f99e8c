"""Generates StreebogTab.v (tables of /repo/gost/gost34112012/hash.go and /repo/streebog/sbox.go)."""
import sys,re
sys.path.insert(0,'/verif/tools')
from gotab import extract,nums,fmt
G='/repo/gost/gost34112012/hash.go'; S='/repo/streebog/sbox.go'
pi=nums(extract(G,'pi')); tau=nums(extract(G,'tau')); c=nums(extract(G,'c')); a=nums(extract(G,'as'))
pi2=nums(extract(S,'pi')); T=nums(extract(S,'T')); RC=nums(extract(S,'RC')); A2=nums(extract(S,'A'))
iv2=nums(extract(S,'initIv256')); iv5=nums(extract(S,'initIv512'))
print(len(pi),len(tau),len(c),len(a),len(T),len(RC),iv2,iv5)
assert pi==pi2 and all(a[8*i:8*i+8]==A2[8*i:8*i+8][::-1] for i in range(64))
A=[int.from_bytes(bytes(a[8*i:8*i+8]),'big') for i in range(64)]
def L(v):
    r=0
    for i in range(64):
        if v>>i&1: r^=A[63-i]
    return r
for j in range(8):
    for m in range(256):
        assert T[256*j+m]==L(pi[m]<<(8*j)),(j,m)
C=[c[64*i:64*i+64] for i in range(12)]
for i in range(12):
    assert [int.from_bytes(bytes(C[i][8*k:8*k+8]),'little') for k in range(8)]==RC[8*i:8*i+8]
def nest(name,rows,f=str):
    return 'Definition %s : list (list N) := [\n'%name+';\n'.join(' ['+'; '.join(f(x) for x in r)+']%N' for r in rows)+'].\n'
out='''(** StreebogTab.v -- GENERATED by tools/stree.py from /repo/gost/gost34112012/hash.go (pi, tau, c, as)
    and /repo/streebog/sbox.go (T, RC, initIv256, initIv512). *)
From Coq Require Import List NArith.
Import ListNotations.
'''
out+='(** gost34112012/hash.go:19-53 *)\n'+fmt('gs_pi',pi,16)+'(** gost34112012/hash.go:54-63 *)\n'+'Definition gs_tau : list nat := ['+'; '.join(map(str,tau))+'].\n'
out+='(** gost34112012/hash.go:64-186 *)\n'+nest('gs_c',C)+'(** gost34112012/hash.go:188-253 *)\n'+nest('gs_as',[a[8*i:8*i+8] for i in range(64)])
out+='(** streebog/sbox.go:98-627 *)\n'+nest('sb_T',[T[256*i:256*i+256] for i in range(8)])
out+='(** streebog/sbox.go:629-654 *)\n'+nest('sb_RC',[RC[8*i:8*i+8] for i in range(12)])
out+='(** streebog/sbox.go:656-665 *)\n'+fmt('sb_iv256',iv2)+fmt('sb_iv512',iv5 or [0]*8)
open('/verif/rocq/theories/StreebogTab.v','w').write(out)
sp='Definition st_pi : list N := [\n'+';\n'.join('  '+'; '.join(map(str,pi[i:i+16])) for i in range(0,256,16))+']%N.\n'
sp+='(** The rows of the matrix A, row 0 first (it multiplies the most significant bit). *)\nDefinition st_A : list N := [\n'+';\n'.join('  '+'; '.join('0x%016x'%x for x in A[i:i+4]) for i in range(0,64,4))+']%N.\n'
sp+='(** The iteration constants C_1 .. C_12 (512-bit numbers). *)\nDefinition st_C : list N := [\n'+';\n'.join('  0x%0128x'%int.from_bytes(bytes(x),'little') for x in C)+']%N.\n'
open('/tmp/w/st_s.v','w').write(sp)
