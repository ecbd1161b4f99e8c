#!/usr/bin/env python3
"""Translate Go uint32/uint64 expressions to Coq terms over N (Base.v word operations).
   tr(expr, bits, funcs) -> Coq term.  Arrays a[i] become (at_ a i); named constants stay names."""
import re
TOK = re.compile(r'\s*(0x[0-9a-fA-F]+|\d+|[A-Za-z_]\w*|<<|>>|&\^|[-+*^&|()\[\],])')
def toks(s):
    out=[]; i=0; s=s.strip()
    while i < len(s):
        m=TOK.match(s,i)
        if not m: raise Exception('bad token at '+s[i:i+30])
        out.append(m.group(1)); i=m.end()
        while i < len(s) and s[i].isspace(): i+=1
    return out
PREC={'+':4,'-':4,'^':4,'|':4,'*':5,'<<':5,'>>':5,'&':5,'&^':5}
class P:
    def __init__(self,s,bits,funcs=None,arr=None):
        self.t=toks(s); self.i=0; self.b=bits; self.f=funcs or {}; self.arr=arr
    def peek(self): return self.t[self.i] if self.i<len(self.t) else None
    def next(self): x=self.t[self.i]; self.i+=1; return x
    def expr(self,p=1):
        l=self.unary()
        while self.peek() in PREC and PREC[self.peek()]>=p:
            op=self.next(); r=self.expr(PREC[op]+1); l=self.bin(op,l,r)
        return l
    def bin(self,op,l,r):
        b=self.b
        return {'+':f'(add{b} {l} {r})','-':f'(sub{b} {l} {r})','^':f'(N.lxor {l} {r})','|':f'(N.lor {l} {r})','&':f'(N.land {l} {r})',
                '&^':f'(N.ldiff {l} {r})','*':f'(mul{b} {l} {r})','<<':f'(shl{b} {l} {r})','>>':f'(N.shiftr {l} {r})'}[op]
    def unary(self):
        t=self.peek()
        if t=='^': self.next(); return f'(not{self.b} {self.unary()})'
        return self.prim()
    def prim(self):
        t=self.next()
        if t=='(':
            e=self.expr(); assert self.next()==')'; return e
        if re.match(r'0x|\d',t): return f'{int(t,0)}%N'
        nxt=self.peek()
        if nxt=='(':
            self.next(); a=[self.expr()]
            while self.peek()==',': self.next(); a.append(self.expr())
            assert self.next()==')'
            if t in ('uint32','uint64'): return a[0]
            return self.f[t](*a)
        if nxt=='[':
            self.next(); j=self.expr(); assert self.next()==']'
            m=re.fullmatch(r'(\d+)%N',j)
            if self.arr: return self.arr(t,int(m.group(1)) if m else j)
            return f'(at_ {t} {m.group(1)})' if m else f'(at_ {t} (N.to_nat {j}))'
        return t
def tr(s,bits,funcs=None,arr=None):
    p=P(s,bits,funcs,arr); e=p.expr(); assert p.i==len(p.t),p.t[p.i:]; return e
