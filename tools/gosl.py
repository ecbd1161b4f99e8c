#!/usr/bin/env python3
"""gosl: translate straight-line Go uint32/uint64 code to a Coq let-chain.
Library used by the gen_*.py scripts.  Supported: var x = e / x := e / x = e /
x op= e / a, b = e1, e2 / constant-index array access mapped through a dict."""
import re
TOK=re.compile(r'\s*(0[xX][0-9a-fA-F_]+|\d+|[A-Za-z_][A-Za-z0-9_.]*|<<=|>>=|&\^=|<<|>>|&\^|:=|==|!=|<=|>=|&&|\|\||[-+*/%&|^]=|\+\+|--|[-+*/%&|^()\[\]{},:=<>!;])')
def tokenize(s):
    out=[];i=0
    s=s.strip()
    while i<len(s):
        m=TOK.match(s,i)
        if not m: raise SyntaxError('tok: '+s[i:i+30])
        out.append(m.group(1)); i=m.end()
    return out
PREC={'*':5,'/':5,'%':5,'<<':5,'>>':5,'&':5,'&^':5,'+':4,'-':4,'|':4,'^':4}
class P:
    def __init__(s,toks): s.t=toks; s.i=0
    def peek(s): return s.t[s.i] if s.i<len(s.t) else None
    def eat(s,x=None):
        v=s.peek()
        if x is not None and v!=x: raise SyntaxError('expected %s got %s in %s'%(x,v,' '.join(s.t)))
        s.i+=1; return v
    def expr(s,p=1):
        l=s.unary()
        while s.peek() in PREC and PREC[s.peek()]>=p:
            op=s.eat(); r=s.expr(PREC[op]+1); l=('bin',op,l,r)
        return l
    def unary(s):
        v=s.peek()
        if v in('^','-','+'):
            s.eat(); return ('un',v,s.unary())
        return s.post(s.prim())
    def prim(s):
        v=s.eat()
        if v=='(':
            e=s.expr(); s.eat(')'); return e
        if re.match(r'0[xX]|\d',v): return ('num',int(v.replace('_',''),0))
        return ('var',v)
    def post(s,e):
        while s.peek() in('(','['):
            if s.peek()=='(':
                s.eat(); a=[]
                while s.peek()!=')':
                    a.append(s.expr())
                    if s.peek()==',': s.eat()
                s.eat(')'); e=('call',e,a)
            else:
                s.eat('[')
                if s.peek()==':':
                    s.eat(); hi=None
                    if s.peek()!=']': hi=s.expr()
                    s.eat(']'); e=('slice',e,None,hi)
                else:
                    a=s.expr()
                    if s.peek()==':':
                        s.eat(); hi=None
                        if s.peek()!=']': hi=s.expr()
                        s.eat(']'); e=('slice',e,a,hi)
                    else:
                        s.eat(']'); e=('idx',e,a)
        return e
def parse(s): 
    p=P(tokenize(s)); e=p.expr()
    if p.peek() is not None: raise SyntaxError('trailing '+str(p.t[p.i:])+' in '+s)
    return e
class Emit:
    """w: word width. name(v): coq name of variable. call(fn,args)->coq text. idx(arr,iexpr)->coq text"""
    def __init__(s,w,call=None,idx=None,consts=None):
        s.w=w; s.callh=call; s.idxh=idx; s.consts=consts or {}
    def const(s,e):
        k=e[0]
        if k=='num': return e[1]
        if k=='var' and e[1] in s.consts: return s.consts[e[1]]
        if k=='bin':
            a=s.const(e[2]);b=s.const(e[3])
            if a is None or b is None: return None
            return {'+':lambda:a+b,'-':lambda:a-b,'*':lambda:a*b,'/':lambda:a//b,'%':lambda:a%b,'<<':lambda:a<<b,'>>':lambda:a>>b,'&':lambda:a&b,'|':lambda:a|b,'^':lambda:a^b}[e[1]]()
        return None
    def nm(s,v): return 'v_'+v.replace('.','_')
    def ex(s,e):
        c=s.const(e)
        if c is not None: return str(c)
        k=e[0]; w=str(s.w)
        if k=='var': return s.nm(e[1])
        if k=='un':
            if e[1]=='^': return '(not%s %s)'%(w,s.ex(e[2]))
            if e[1]=='-': return '(sub%s 0 %s)'%(w,s.ex(e[2]))
            return s.ex(e[2])
        if k=='bin':
            op=e[1];a=s.ex(e[2]);b=s.ex(e[3])
            f={'+':'add'+w,'-':'sub'+w,'*':'mul'+w,'<<':'shl'+w,'>>':'N.shiftr','^':'N.lxor','&':'N.land','|':'N.lor','&^':'N.ldiff'}[op]
            return '(%s %s %s)'%(f,a,b)
        if k=='call':
            fn=e[1][1] if e[1][0]=='var' else None
            if fn in('uint32','uint64') and s.callh is None: return s.ex(e[2][0])
            r=s.callh(s,fn,e[2]) if s.callh else None
            if r is None: raise SyntaxError('call '+str(fn))
            return r
        if k=='idx':
            r=s.idxh(s,e[1],e[2]) if s.idxh else None
            if r is None: raise SyntaxError('idx '+str(e))
            return r
        raise SyntaxError(str(e))
    def stmt(s,line):
        """returns list of (name, coqexpr) parallel groups"""
        line=line.strip().rstrip(';')
        line=re.sub(r'^var\s+','',line)
        m=re.match(r'^([A-Za-z_][\w.]*)\s+(uint32|uint64|int)\s*=\s*(.*)$',line)
        if m: line=m.group(1)+' = '+m.group(3)
        toks=tokenize(line)
        # find assignment op at depth 0
        d=0
        for i,t in enumerate(toks):
            if t in '([': d+=1
            elif t in ')]': d-=1
            elif d==0 and t in('=',':=','+=','-=','^=','|=','&=','<<=','>>=','*=','&^='):
                break
        else: raise SyntaxError('no assign: '+line)
        lhs=toks[:i]; op=toks[i]; rhs=toks[i+1:]
        def splitc(ts):
            out=[[]];d=0
            for t in ts:
                if t in '([': d+=1
                if t in ')]': d-=1
                if t==',' and d==0: out.append([])
                else: out[-1].append(t)
            return out
        def pe(ts):
            p=P(ts); e=p.expr()
            if p.peek() is not None: raise SyntaxError('trailing in '+line)
            return e
        L=[pe(x) for x in splitc(lhs)]; R=[pe(x) for x in splitc(rhs)]
        if op not in('=',':='): R=[('bin',op[:-1],L[0],R[0])]
        assert len(L)==len(R),line
        return [(s.lname(l),s.ex(r)) for l,r in zip(L,R)]
    def lname(s,l):
        if l[0]=='var': return s.nm(l[1])
        if l[0]=='idx':
            c=s.const(l[2]); assert c is not None,l
            return s.nm(l[1][1])+'_%d'%c
        raise SyntaxError(str(l))
    def block(s,lines,indent='  '):
        out=[]
        for ln in lines:
            ln=re.sub(r'//.*','',ln).strip()
            if not ln: continue
            for st in ln.split(';'):
                if not st.strip(): continue
                a=s.stmt(st)
                if len(a)==1: out.append('%slet %s := %s in'%(indent,a[0][0],a[0][1]))
                else:
                    out.append("%slet '(%s) := (%s) in"%(indent,', '.join(x for x,_ in a),', '.join(y for _,y in a)))
        return '\n'.join(out)
