#!/usr/bin/env python3
"""Rebuild MANIFEST.json: theorems named Cnn_* in rocq/theories/Prop*.v, notes from tools/notes.json."""
import re,glob,json,os
root=os.path.dirname(os.path.dirname(os.path.abspath(__file__)))
notes=json.load(open(root+'/tools/notes.json'))
th={}
for f in sorted(glob.glob(root+'/rocq/theories/Prop*.v')):
    for n in re.findall(r'^Theorem\s+((C\d+)_\w+)',open(f).read(),flags=re.M):
        th.setdefault(n[1],[]).append(n[0])
claims=[]
for l in open(root+'/properties.jsonl'):
    p=json.loads(l); i=p['id']; n=notes.get(i,{})
    ts=th.get(i,[])
    st=n.get('status') or ('partial' if (not ts or any(t.endswith('_partial') for t in ts)) else 'proved')
    if not ts and not n.get('status'): continue
    claims.append({'property':i,'status':st,'theorems':ts,'note':n.get('note','')})
json.dump({'claims':claims},open(root+'/MANIFEST.json','w'),indent=1)
print(len(claims),'claims',sum(len(c['theorems']) for c in claims),'theorems')
