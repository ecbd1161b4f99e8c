#!/usr/bin/env python3
"""usage: addclaim.py spec.json -- {"props": ["p(...)"/"hist(...)" source lines], "notes": {id:{status,note}}, "design": "| row |", "files": [...]}: updates props.py, notes.json, DESIGN.md, _CoqProject, then regenerates."""
import json,sys,subprocess,re
d=json.load(open(sys.argv[1]))
f='/verif/tools/props.py'; s=open(f).read(); i=s.rindex("open('/verif/properties.jsonl'"); s=s[:i]+''.join(x+'\n' for x in d['props'])+s[i:]; open(f,'w').write(s)
f='/verif/tools/notes.json'; n=json.load(open(f)); n.update(d['notes']); json.dump(n,open(f,'w'),indent=1,ensure_ascii=False)
f='/verif/DESIGN.md'; L=open(f).read().split('\n')
k=max(i for i,l in enumerate(L) if re.match(r'\| C\d',l)); L.insert(k+1,d['design']); open(f,'w').write('\n'.join(L))
f='/verif/rocq/_CoqProject'; s=open(f).read()
for x in d['files']:
    if 'theories/%s\n'%x not in s: s=s.rstrip('\n')+'\ntheories/%s\n'%x
open(f,'w').write(s)
print(subprocess.run('python3 tools/props.py && python3 tools/manifest.py',shell=True,cwd='/verif',capture_output=True,text=True).stdout[-300:])
