#!/usr/bin/env python3
"""Like mutate.py for the mutants whose first casualty was a known-answer Example in the same file: the Example is
removed first, so that only theorems can reject the edit.  usage: mutate_noex.py mutants.json def1 def2 ... [--log]"""
import json,sys,re,subprocess,shutil
warm='/tmp/mut/warm'; scr='/tmp/mut/scratch2'
M=json.load(open(sys.argv[1])); defs=[a for a in sys.argv[2:] if not a.startswith('--')]
for m in M:
    if defs and m['def'] not in defs: continue
    shutil.rmtree(scr,ignore_errors=True); subprocess.run(['cp','-a',warm,scr])
    p=scr+'/theories/'+m['file']; s=open(p).read(); s=s.replace(m['old'],m['new'],1)
    s=re.sub(r'^Example .*?Qed\.\n','',s,flags=re.S|re.M); open(p,'w').write(s)
    r=subprocess.run('timeout 900 nice make -k -j3 2>&1',shell=True,cwd=scr,stdout=subprocess.PIPE,text=True,errors='replace')
    fails=[]
    for mm in re.finditer(r'File "\./theories/(\w+\.v)", line (\d+), characters [^\n]*\nError',r.stdout):
        name=None
        for i,l in enumerate(open(scr+'/theories/'+mm.group(1)),1):
            if i>int(mm.group(2)): break
            q=re.match(r'\s*(?:Lemma|Theorem|Example|Definition|Fixpoint)\s+(\w+)',l)
            if q: name=q.group(1)
        fails.append(mm.group(1)+':'+str(name))
    print(m['def'],m['edit'],fails,'SURVIVED' if r.returncode==0 else '')
    if '--log' in sys.argv:
        open('/verif/seeded/LOG.jsonl','a').write(json.dumps({'definition':m['file']+':'+m['def'],'edit':m['edit']+' (known-answer Examples of the file removed first)','claim_broken':m['claim'],'theorems_failed':m['theorems'] if r.returncode else [],'first_failing_lemmas':fails,'survived':r.returncode==0,'tightened':''})+'\n')
