#!/usr/bin/env python3
"""Generate theories/FugueTab.v from /repo/fugue: the tables of sbox.go and the unrolled positions of process2, process384 and
process512 as instruction lists.  Checks that the case copies and the loop copies of a position are the same statements and that
each position ends with the expected rshift."""
import re
R='/repo/fugue/'
s=open(R+'sbox.go').read(); g=open(R+'digest.go').read()
def ln(t,p): return t.count('\n',0,p)+1
out=['(** FugueTab.v -- generated by tools/fugue.py from /repo/fugue (sbox.go and the unrolled statements of digest.go). *)',
'From Coq Require Import List NArith.','Require Import Verif.Base.','Import ListNotations.',
'(** The statements of digest.go on the state S: [FX d s] is S[d] ^= S[s], [FW d] is S[d] = w, [FS i0 i1 i2 i3] is smix(S[:], i0, i1, i2, i3),',
'    [FR rc] is d.ror(rc, len). *)',
'Inductive fi : Type := FX (d s : nat) | FW (d : nat) | FS (i0 i1 i2 i3 : nat) | FR (rc : nat).']
for m in re.finditer(r'var (\w+) = \[\]uint32\{(.*?)\n\}',s,re.S):
    xs=re.findall(r'0x[0-9a-f]+',m.group(2))
    body='; '.join(xs) if len(xs)<20 else ';\n  '.join('; '.join(xs[i:i+8]) for i in range(0,len(xs),8))
    out.append('(** sbox.go:%d *)\nDefinition fg_%s : list N := [%s]%%N.'%(ln(s,m.start()),m.group(1),body))
def ins(l):
    l=l.strip()
    m=re.match(r'S\[ *(\d+)\] \^= S\[ *(\d+)\]$',l)
    if m: return 'FX %s %s'%m.groups()
    m=re.match(r'S\[ *(\d+)\] = w$',l)
    if m: return 'FW %s'%m.group(1)
    m=re.match(r'smix\(S\[:\], *(\d+), *(\d+), *(\d+), *(\d+)\)$',l)
    if m: return 'FS %s %s %s %s'%m.groups()
    m=re.match(r'd\.ror\((\d+), (?:30|36)\)$',l)
    if m: return 'FR %s'%m.group(1)
    return None
for nm,npos in (('process2',5),('process384',4),('process512',3)):
    i=g.index('func (d *digest) %s('%nm); j=g.index('\nfunc ',i+5)
    body=g[i:j]; base=ln(g,i)
    blocks=[]; cur=[]; start=None
    L=body.split('\n')
    for n,l in enumerate(L):
        t=ins(l)
        if t:
            if not cur: start=base+n
            cur.append(t)
        m=re.match(r'\s*d\.rshift = (\d)',l)
        if m: blocks.append((cur,int(m.group(1)),start)); cur=[]
    assert not cur
    k=npos-1
    assert len(blocks)==2*npos-1
    loop=blocks[k:]
    for p in range(1,npos): assert blocks[p-1][0]==loop[p][0] and blocks[p-1][1]==loop[p][1],(nm,p)
    for p in range(npos): assert loop[p][1]==(p+1)%npos
    assert body.count('if num <= 0 {')==2*npos-1 and body.count('num--')==2*npos-1 and body.count('w = getu32(buf[off:])\n        off += 4')==2*npos-1
    assert body.count('\n        fallthrough\n')==npos-2
    out.append('(** digest.go:%d-%d: the statements of each position (rshift = 0, 1, ...) *)'%(base,ln(g,j)-1))
    out.append('Definition fg_%s : list (list fi) := [\n  %s].'%(nm,';\n  '.join('['+'; '.join(p[0])+']' for p in loop)))
def block(nm,a,b,name,cm):
    i=g.index('func (d *digest) %s('%nm); j=g.find('\nfunc ',i+5); j=len(g) if j<0 else j
    body=g[i:j]; x=body.index(a); x=body.index('\n',x)+1; y=body.index(b,x)
    its=[]
    for l in body[x:y].split('\n'):
        if not l.strip() or l.strip()=='}': continue
        if 'cmix30' in l: its+=['FX 0 4','FX 1 5','FX 2 6','FX 15 4','FX 16 5','FX 17 6']; continue
        if 'cmix36' in l: its+=['FX 0 4','FX 1 5','FX 2 6','FX 18 4','FX 19 5','FX 20 6']; continue
        t=ins(l); assert t,l; its.append(t)
    out.append('(** digest.go:%d-%d, %s *)'%(ln(g,i+x),ln(g,i+y)-1,cm))
    out.append('Definition %s : list fi := [%s].'%(name,'; '.join(its)))
for nm,a in (('processFinal2','10'),('processFinal384','18'),('processFinal512','32')):
    sfx=nm[12:]
    block(nm,'i < %s;'%a,'\n    }',"fg_fin%s_a"%sfx,'first loop of %s (%s times; cmix30 and cmix36 are utils.go:46-63)'%(nm,a))
    block(nm,'i < 13;','\n    }',"fg_fin%s_b"%sfx,'second loop of %s (13 times)'%nm)
    i=g.index('func (d *digest) %s('%nm); x=g.index('\n    }\n',g.index('i < 13;',i))+6
    its=[]
    for l in g[x:].split('\n'):
        t=ins(l)
        if t: its.append(t)
        elif 'out' in l: break
    out.append('(** %s, the statements after the loops *)\nDefinition fg_fin%s_c : list fi := [%s].'%(nm,sfx,'; '.join(its)))
    o=re.findall(r'putu32\(out\[(\d+):\], S\[(\d+)\]\)',g[x:g.index('\n}\n',x)])
    assert [int(a) for a,b in o]==[4*k for k in range(len(o))]
    out.append('(** %s, the words of the output in order *)\nDefinition fg_fin%s_o : list nat := [%s].'%(nm,sfx,'; '.join(b for a,b in o)))
# cmix
u=open(R+'utils.go').read()
def cm(n): 
    i=u.index('func cmix%d('%n); return re.findall(r'S\[ *(\d+)\] \^= S\[(\d+)\]',u[i:u.index('\n}',i)])
assert cm(30)==[('0','4'),('1','5'),('2','6'),('15','4'),('16','5'),('17','6')] and cm(36)==[('0','4'),('1','5'),('2','6'),('18','4'),('19','5'),('20','6')]
open('/verif/rocq/theories/FugueTab.v','w').write('\n'.join(out)+'\n')
