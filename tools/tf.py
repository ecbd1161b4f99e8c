#!/usr/bin/env python3
"""Generate the Threefish round tables of rocq/theories/ThreefishTab.v from /repo/skein/threefish."""
import re,sys
out=[]
def norm(l): return re.sub(r'\s+','',l)
def parse(n):
    src=open(f'/repo/skein/threefish/threefish{64*n}_ref.go').read().split('\n')
    def func(name):
        i=next(k for k,l in enumerate(src) if l.startswith('func '+name+'('))
        j=next(k for k in range(i,len(src)) if src[k]=='}')
        return i,j
    res={}
    for kind in ('Encrypt','Decrypt'):
        i,j=func(f'{kind}{64*n}')
        body=[(k+1,norm(src[k])) for k in range(i+1,j) if src[k].strip()]
        # skip loads
        sign='+' if kind=='Encrypt' else '-'
        pos=0
        while not body[pos][1].startswith('for'): 
            assert re.match(r'^(b\d+.*:?=block\[|vartmpuint64)',body[pos][1]),body[pos]
            pos+=1
        hdr=body[pos][1]; hl=body[pos][0]; pos+=1
        groups=[[]]
        while body[pos][1]!='}':
            t=body[pos][1]
            if t in('r++','r--'): groups.append([]); step=t
            else: groups[-1].append(t)
            pos+=1
        el=body[pos][0]
        pos+=1
        fin=[]
        while not body[pos][1].startswith('block['):
            fin.append(body[pos][1]); fl=body[pos][0]; pos+=1
        assert len(groups)==2
        tabs=[]
        for g in groups:
            inj=g[:n]
            for w,l in enumerate(inj):
                ix='r' if w==0 else f'(r+{w})'
                e=f'b{w}{sign}=keys[{ix}%{n+1}]'
                if w==n-3: e+='+tweak[r%3]'
                if w==n-2: e+='+tweak[(r+1)%3]'
                if w==n-1: e+='+uint64(r)'
                assert l==e,(l,e)
            rest=g[n:]
            mix=[]
            if kind=='Encrypt':
                assert len(rest)%2==0
                for a,b in zip(rest[::2],rest[1::2]):
                    m=re.match(r'^b(\d+)\+=b(\d+)$',a); assert m,a
                    x,y=m.groups()
                    m=re.match(r'^b(\d+)=\(\(?b(\d+)<<(\d+)\)?\|\(?b(\d+)>>\(64-(\d+)\)\)?\)\^b(\d+)$',b); assert m,b
                    g6=m.groups(); assert g6[0]==g6[1]==g6[3]==y and g6[2]==g6[4] and g6[5]==x,b
                    mix.append((int(x),int(y),int(g6[2])))
            else:
                assert len(rest)%3==0
                for a,b,c in zip(rest[::3],rest[1::3],rest[2::3]):
                    m=re.match(r'^tmp=b(\d+)\^b(\d+)$',a); assert m,a
                    y,x=m.groups()
                    m=re.match(r'^b(\d+)=\(?tmp>>(\d+)\)?\|\(?tmp<<\(64-(\d+)\)\)?$',b); assert m,b
                    assert m.group(1)==y and m.group(2)==m.group(3)
                    assert c==f'b{x}-=b{y}',c
                    mix.append((int(x),int(y),int(m.group(2))))
            assert len(mix)==2*n
            tabs.append(mix)
        # final
        fl_=[]
        assert len(fin)==n
        for w,l in enumerate(fin):
            m=re.match(r'^b(\d+)[+-]=keys\[(\d+)\](?:\+tweak\[(\d)\])?(?:\+(?:uint64\()?(\d+)\)?)?$',l)
            assert m and int(m.group(1))==w and l[len(m.group(1))+1]==sign,l
            fl_.append((int(m.group(2)), f'Xt {m.group(3)}' if m.group(3) else (f'Xc {m.group(4)}' if m.group(4) else 'X0')))
        res[kind]=(hdr,step,tabs,fl_,i+1,j+1)
    return res
for n in (4,8,16):
    r=parse(n)
    for kind,short in(('Encrypt','enc'),('Decrypt','dec')):
        hdr,step,tabs,fin,a,b=r[kind]
        out.append(f'(** skein/threefish/threefish{64*n}_ref.go:{a}-{b} {kind}{64*n}; loop header: {hdr}; second half after {step} *)')
        for nm,t in zip('ab',tabs):
            out.append(f'Definition tf{64*n}_{short}_{nm} : list (nat * nat * N) := [')
            out.append(';\n'.join('  '+'; '.join(f'({x}, {y}, {z}%N)' for x,y,z in t[k:k+n//2]) for k in range(0,len(t),n//2))+'].')
        out.append(f'Definition tf{64*n}_{short}_fin : list (nat * extra) := [')
        out.append('  '+'; '.join(f'({k}, {x})' for k,x in fin)+'].')
print('''(** ThreefishTab.v -- generated by tools/tf.py from /repo/skein/threefish/threefish{256,512,1024}_ref.go.
    A triple (i, j, r) stands for the two statements  b_i += b_j;  b_j = rotl(b_j, r) ^ b_i  of the Encrypt functions
    and for  tmp = b_j ^ b_i;  b_j = rotr(tmp, r);  b_i -= b_j  of the Decrypt functions.  The key-injection statements at the
    start of each half of the loop body were checked by the generator to have the form modelled by [tf_inj] in
    Threefish.v; the _fin tables are the injections after the loop: word w gets keys[k] plus nothing, tweak[t] or a constant. *)
From Coq Require Import List NArith.
Import ListNotations.
Inductive extra := X0 | Xt (t : nat) | Xc (c : N).''')
print('\n'.join(out))
