#!/usr/bin/env python3
"""Generate theories/SimdTab.v from /repo/simd/sbox.go (tables only)."""
import re,sys
src=open('/repo/simd/sbox.go').read()
def tab(n):
    m=re.search(r'var %s = [^{]*\{([^}]*)\}'%n,src)
    line=src[:m.start()].count('\n')+1
    return line,[eval(x) for x in m.group(1).replace('\n',' ').split(',') if x.strip()]
out=['(** SimdTab.v -- generated by tools/simd.py from /repo/simd/sbox.go: every table of the file. *)','From Coq Require Import List NArith ZArith.','Import ListNotations.']
def emit(n,ty,sc):
    line,t=tab(n)
    rows=['; '.join(str(v) for v in t[i:i+16]) for i in range(0,len(t),16)]
    out.append('(** sbox.go:%d *)\nDefinition sm_%s : list %s := [\n  %s]%%%s.'%(line,n,ty,';\n  '.join(rows),sc))
for n in ('iv224','iv256','iv384','iv512'): emit(n,'N','N')
for s in ('256','512'):
    for n in ('alphaTab','yoffN','yoffF'): emit(n+s,'Z','Z')
emit('pp4k256','nat','nat'); emit('pp8k512','nat','nat')
emit('wsp256','Z','Z'); emit('wbp512','Z','Z')
open('/verif/rocq/theories/SimdTab.v','w').write('\n'.join(out)+'\n')
