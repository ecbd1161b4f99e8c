#!/usr/bin/env python3
"""Generate theories/HamsiTab.v from /repo/hamsi: the tables of sbox.go and the statements of one round of the 256 and 512 bit
permutations, cut in constants, S-boxes and linear maps.  Checks that the unrolled or looped copies are the same statements."""
import re,sys
sys.path.insert(0,'/verif/tools')
import goexpr
R='/repo/hamsi/'
def ln(t,p): return t.count('\n',0,p)+1
out=['(** HamsiTab.v -- generated by tools/hamsi.py from /repo/hamsi (sbox.go and the rounds of process and processFinal). *)',
'From Coq Require Import List NArith.','Require Import Verif.Base.','Import ListNotations.']
s=open(R+'sbox.go').read()
for m in re.finditer(r'var (\w+) = \[\]uint32\{(.*?)\n\}',s,re.S):
    xs=re.findall(r'0x[0-9a-f]+',m.group(2))
    if m.group(1).startswith('HOFF'):
        out.append('(** sbox.go:%d *)\nDefinition hm_%s : list nat := [%s].'%(ln(s,m.start()),m.group(1),'; '.join(re.findall(r'\d+',m.group(2))))); continue
    out.append('(** sbox.go:%d *)\nDefinition hm_%s : list N := [%s]%%N.'%(ln(s,m.start()),m.group(1),'; '.join(xs)))
for m in re.finditer(r'var (\w+) = \[\]\[\]uint32\{(.*?)\n\}',s,re.S):
    rows=re.findall(r'\{(.*?)\}',m.group(2),re.S)
    n=16 if '512' in m.group(1) else 8
    o=[]
    for r in rows:
        xs=re.findall(r'0x[0-9a-f]+',r); assert len(xs)==n
        o.append('['+'; '.join(xs)+']')
    assert len(o)==4*n
    out.append('(** sbox.go:%d *)\nDefinition hm_%s : list (list N) := [\n  %s]%%N.'%(ln(s,m.start()),m.group(1),';\n  '.join(o)))
def lets(lines):
    o=[]
    for l in lines:
        m=re.match(r'(\w+) (=|\^=|\|=|&=) (.*)$',l); assert m,l
        d,op,e=m.groups()
        e=re.sub(r'\(32 - (\d+)\)',lambda k:str(32-int(k.group(1))),e)
        if op!='=': e='%s %s (%s)'%(d,op[0],e)
        o.append('  let %s := %s in'%(d,goexpr.tr(e,32)))
    return o
for sz,n in (('256',8),('512',16)):
    g=open(R+'digest%s.go'%sz).read()
    hx='0123456789ABCDEF'
    V=['m'+hx[i] for i in range(n)]+['c'+hx[i] for i in range(n)]
    rounds=[]; fins=[]
    for fn,let,cnt in (('process','N',3 if n==8 else 6),('processFinal','F',6 if n==8 else 12)):
        i=g.index('func (d *digest%s) %s('%(sz,fn)); j=g.find('\n}\n',i); body=g[i:j]
        a=body.index('var t uint32'); pre=body[:a]; post=body[a:]
        # message and chaining variables
        nt=n//2
        for k in range(nt): assert ('T%s_%d[b%d]'%(sz,k,k)) in pre
        for k in range(n):
            ix='%d'%k if n==8 else '0x%s'%hx[k]
            assert pre.count('var m%s = rp[%s]'%(hx[k],ix))==1 and pre.count('m%s ^= rp[%s]\n'%(hx[k],ix))==nt-1 and pre.count('var c%s = d.s[%s]'%(hx[k],ix))==1
        p=post.index('d.s['); rnd=post[:p]; fin=re.findall(r'd\.s\[(\w+)\] \^= (\w+)',post[p:]); assert len(fin)==n
        fins.append([v for _,v in sorted((int(x,0),v) for x,v in fin)])
        lines=[l.strip() for l in rnd.split('\n')[1:] if l.strip()]
        start=ln(g,i+a)+1
        if lines[0].startswith('for'):
            assert lines[0]=='for r := 0; r < %d; r++ {'%cnt and lines[-1]=='}'; lines=lines[1:-1]; copies=[lines]
            assert lines[1]=='m1 ^= ALPHA_%s%s[0x01] ^ uint32(r)'%(let,sz); lines[1]=lines[1].replace('uint32(r)','r')
        else:
            k=len(lines)//cnt; copies=[lines[x*k:(x+1)*k] for x in range(cnt)]
            for x,c in enumerate(copies):
                assert c[1]=='m1 ^= ALPHA_%s%s[0x01] ^ %d'%(let,sz,x); c[1]='m1 ^= ALPHA_%s%s[0x01] ^ r'%(let,sz)
        for c in copies: rounds.append([re.sub(r'ALPHA_[NF]%s'%sz,'al',l) for l in c])
    assert all(r==rounds[0] for r in rounds) and fins[0]==fins[1]
    r=rounds[0]
    ka=2*n; nb=n//2*19; nl=n//2*10
    assert all('al[' in l for l in r[:ka]) and not any('al[' in l for l in r[ka:])
    parts=[('add',r[:ka]),('sub',r[ka:ka+nb]),('lin',r[ka+nb:ka+nb+nl])]
    if n==16: parts.append(('lin2',r[ka+nb+nl:])); assert len(r)==ka+nb+nl+40
    else: assert len(r)==ka+nb+nl
    cm={'add':'the constants','sub':'the S-boxes','lin':'the linear maps','lin2':'the second linear maps'}
    where='digest256.go:216-347 (process; the copies at 348-611 and processFinal 673-806 are the same statements with their constants)' if n==8 else 'digest512.go:339-644 (process; processFinal 825-1130 has the same statements with its constants)'
    for nm,ls in parts:
        out.append('(** %s: %s of one round, on (m0, m1, ..., c0, c1, ...) *)'%(where,cm[nm]))
        out.append('Definition hm_%s%s %s(V : list N) : list N :='%(nm,sz,'(al : list N) (r : N) ' if nm=='add' else ''))
        for k,v in enumerate(V): out.append('  let %s := at_ V %d in'%(v,k))
        ls=[re.sub(r'al\[(0x\w+)\]',lambda m:'al[%d]'%int(m.group(1),16),l) for l in ls]
        out+=lets(ls)
        out.append('  ['+'; '.join(V)+'].')
    out.append('(** digest%s.go, the ends of process and processFinal: d.s[i] ^= the variable number i of this list *)'%sz)
    out.append('Definition hm_out%s : list nat := [%s].'%(sz,'; '.join(str(V.index(v)) for v in fins[0])))
open('/verif/rocq/theories/HamsiTab.v','w').write('\n'.join(out)+'\n')
