#!/usr/bin/env python3
# Translate the four unrolled rounds of /repo/k12/keccakf.go to Coq lets.
import re
L=open('/repo/k12/keccakf.go').read().split('\n')
starts=[i for i,l in enumerate(L) if re.search(r'// Round \d',l)]
ends=starts[1:]+[next(i for i in range(starts[3],len(L)) if L[i]=='        }')]
def expr(e):
    e=e.strip()
    m=re.fullmatch(r't<<(\d+) \| t>>\(64-(\d+)\)',e)
    if m:
        assert m[1]==m[2]; return f'rotl64 t {m[1]}'
    m=re.fullmatch(r'(bc\d) \^ \((bc\d)<<1 \| (bc\d)>>63\)',e)
    if m:
        assert m[2]==m[3]; return f'N.lxor {m[1]} (rotl64 {m[2]} 1)'
    m=re.fullmatch(r'(bc\d) \^ \((bc\d) &\^ (bc\d)\)( \^ rc\[i(\+\d)?\])?',e)
    if m:
        r=f'N.lxor {m[1]} (N.ldiff {m[2]} {m[3]})'
        if m[4]: r=f'N.lxor ({r}) k'
        return r
    t=[re.sub(r'a\[(\d+)\]',r'a\1',x) for x in e.split(' ^ ')]
    assert all(re.fullmatch(r'[a-z]+\d+',x) for x in t),e
    r=t[0]
    for x in t[1:]:
        r=f'N.lxor {r if " " not in r else "("+r+")"} {x}'
    return r
names=[f'a{i}' for i in range(25)]
for n,(s,e) in enumerate(zip(starts,ends)):
    body=[]
    for l in L[s+1:e]:
        l=l.strip()
        if not l: continue
        m=re.fullmatch(r'([a-z0-9\[\]]+) = (.*)',l); assert m,l
        lhs=re.sub(r'a\[(\d+)\]',r'a\1',m[1])
        body.append(f'  let {lhs} := {expr(m[2])} in')
    # pairs per line
    out=[]
    for i in range(0,len(body),2): out.append('  '+' '.join(x.strip() for x in body[i:i+2]))
    print(f'(** /repo/k12/keccakf.go:{s+1}-{e} (round {n+1} of each group of four; k is rc[i{"+%d"%n if n else ""}]) *)')
    print(f'Definition kf_round{n+1} (k : N) (a : list N) : list N :=\n  match a with\n  | [{"; ".join(names)}] =>')
    print('\n'.join('  '+x for x in out))
    print(f'    [{"; ".join(names)}]\n  | _ => a\n  end.')
