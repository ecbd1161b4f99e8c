#!/usr/bin/env python3
"""Extract a Go array literal as a Coq list of N.  usage: gotab.py file.go varname coqname [--nested]"""
import re,sys
def extract(path,var):
    s=open(path).read()
    s=re.sub(r'//[^\n]*','',s); s=re.sub(r'/\*.*?\*/','',s,flags=re.S)
    m=re.search(r'\b'+re.escape(var)+r'\s*(?::?=)\s*(\[[^{]*)\{',s)
    if not m: raise SystemExit('not found '+var)
    i=m.end(); depth=1; j=i
    while depth:
        c=s[j]
        if c=='{': depth+=1
        if c=='}': depth-=1
        j+=1
    return s[i:j-1]
def nums(t):
    return [int(x,0) if not x.startswith('0') or x.startswith('0x') or x.startswith('0X') or x=='0' else int(x,8) for x in re.findall(r'0[xX][0-9a-fA-F]+|\d+',t)]
def fmt(name,l,per=8):
    out='Definition %s : list N := [\n'%name
    rows=[l[i:i+per] for i in range(0,len(l),per)]
    out+=';\n'.join('  '+'; '.join(str(v) for v in r) for r in rows)
    return out+']%N.\n'
if __name__=='__main__':
    p,v,n=sys.argv[1:4]
    t=extract(p,v)
    if '--nested' in sys.argv:
        parts=re.findall(r'\{([^{}]*)\}',t)
        print('Definition %s : list (list N) := ['%n)
        print(';\n'.join(' ['+'; '.join(map(str,nums(q)))+']%N' for q in parts)+'].')
    else: print(fmt(n,nums(t)))
