#!/usr/bin/env python3
"""Parses /repo/sha0/digest.go processBlock (fully unrolled) into one row per round.
Every line of the function body must match one of the expected shapes, otherwise this fails."""
import re
src=open('/repo/sha0/digest.go').read().split('\n')
a=next(i for i,l in enumerate(src) if 'func (d *digest) processBlock' in l)
body=[(i+1,l.strip()) for i,l in enumerate(src[a+1:],a+1) if l.strip()]
R={c:i for i,c in enumerate('ABCDE')}
W={'W'+c:i for i,c in enumerate('0123456789abcdef')}
assert body[0][1]=='currentVal := &d.s'
for k,c in enumerate('ABCDE'): assert body[1+k][1]==f'var {c} = currentVal[{k}]'
i=6; rows=[]
while not body[i][1].startswith('currentVal'):
    l0=body[i][0]; s=body[i][1]
    m=re.fullmatch(r'var (W.) = getu32\(data\[(\d+):\]\)',s)
    if m: w=W[m[1]]; wx=f'Load {m[2]}'
    else:
        m=re.fullmatch(r'(W.) = (W.) \^ (W.) \^ (W.) \^ (W.)',s); assert m,s
        w=W[m[1]]; wx=f'Mix {W[m[2]]} {W[m[3]]} {W[m[4]]} {W[m[5]]}'
    s=body[i+1][1]
    m=re.fullmatch(r'(.) = \(\((.) << 5\) \| \((.) >> 27\)\) \+ \((.*)\) \+ (.) \+ (W.) \+ sbox\[(\d)\]',s); assert m,s
    assert m[2]==m[3] and m[1]==m[5] and W[m[6]]==w
    fx=m[4]
    f=re.fullmatch(r'\((.) & (.)\) \| \(\^(.) & (.)\)',fx)
    if f: assert f[1]==f[3]; kind='Ch'; q=(f[1],f[2],f[4])
    else:
        f=re.fullmatch(r'(.) \^ (.) \^ (.)',fx)
        if f: kind='Parity'; q=(f[1],f[2],f[3])
        else:
            f=re.fullmatch(r'\((.) & (.)\) \| \((.) & (.)\) \| \((.) & (.)\)',fx); assert f,fx
            assert f[1]==f[3] and f[2]==f[5] and f[4]==f[6]; kind='Maj'; q=(f[1],f[2],f[4])
    s=body[i+2][1]
    g=re.fullmatch(r'(.) = \((.) << 30\) \| \((.) >> 2\)',s); assert g and g[1]==g[2]==g[3],s
    rows.append((l0,f'row ({wx}) {w} {R[m[1]]} {R[m[2]]} {kind} {R[q[0]]} {R[q[1]]} {R[q[2]]} {m[7]} {R[g[1]]}'))
    i+=3
for k,c in enumerate('ABCDE'): assert body[i+k][1]==f'currentVal[{k}] += {c}'
assert body[i+5][1]=='}'
out=f'''(** Sha0Block.v -- GENERATED by tools/gen_sha0.py from /repo/sha0/digest.go:{a+1}-{body[i+5][0]}
    (processBlock, unrolled in the source).  One row per round: every three source
    lines  "W_w = ...; X_dst = rotl5(X_p) + f(X_q1,X_q2,X_q3) + X_dst + W_w + sbox[k];
    X_rot = rotl30(X_rot)"  become one row; registers A..E are 0..4.  The generator
    fails if a line has any other shape.  Do not edit. *)
From Coq Require Import List NArith.
From Verif Require Import Base.
Import ListNotations.

Inductive sha0_wexp := Load (off : nat) | Mix (a b c d : nat).
Inductive sha0_fun := Ch | Parity | Maj.
Record sha0_row := row {{ r_wx : sha0_wexp; r_w : nat; r_dst : nat; r_p : nat; r_f : sha0_fun;
  r_q1 : nat; r_q2 : nat; r_q3 : nat; r_k : nat; r_rot : nat }}.

Definition sha0_rows : list sha0_row := [
'''
out+=';\n'.join(f'  {r} (* {l}-{l+2} *)' for l,r in rows)+'].\n'
open('/verif/rocq/theories/Sha0Block.v','w').write(out)
print(len(rows))
