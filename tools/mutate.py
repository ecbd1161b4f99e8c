#!/usr/bin/env python3
"""Seeded-bug testing.  usage: mutate.py mutants.json [--log]
Each mutant: {"file": "Sm3.v", "old": "...", "new": "...", "def": "definition", "edit": "...", "claim": "..."}
Works in /tmp/mut (never in /verif); appends one JSON line per mutant to seeded/LOG.jsonl with --log."""
import json,sys,os,re,subprocess,shutil
root='/verif'; warm='/tmp/mut/warm'; scr='/tmp/mut/scratch'
os.makedirs('/tmp/mut',exist_ok=True)
def sh(c,cwd,t=1500): 
    p=subprocess.run(c,shell=True,cwd=cwd,stdout=subprocess.PIPE,stderr=subprocess.STDOUT,timeout=t,text=True,errors='replace'); return p.returncode,p.stdout
def prep():
    os.makedirs(warm,exist_ok=True)
    sh('rsync -a --delete --exclude "*.vo*" --exclude "*.glob" --exclude "*.aux" --exclude "Makefile*" /verif/rocq/ %s/ || cp -a /verif/rocq/. %s/'%(warm,warm),'/tmp')
    rc,o=sh('coq_makefile -f _CoqProject -o Makefile && nice make -j3',warm,3000)
    assert rc==0,o[-2000:]
def enclosing(path,line):
    name=None
    for i,l in enumerate(open(path),1):
        if i>line: break
        m=re.match(r'\s*(?:Lemma|Theorem|Example|Definition|Fixpoint|Corollary|Remark)\s+(\w+)',l)
        if m: name=m.group(1)
    return name
def main():
    prep()
    log='--log' in sys.argv
    for f in [a for a in sys.argv[1:] if a.endswith('.json')]:
        for m in json.load(open(f)):
            shutil.rmtree(scr,ignore_errors=True); sh('cp -a %s %s'%(warm,scr),'/tmp')
            p=scr+'/theories/'+m['file']; s=open(p).read()
            if s.count(m['old'])<1: print('NOT FOUND',m); continue
            s=s.replace(m['old'],m['new'],m.get('count',1)); open(p,'w').write(s)
            base=m['file'][:-2]
            try: rc,o=sh('timeout 900 nice make -k -j2 2>&1',scr,1000)
            except subprocess.TimeoutExpired: rc,o=1,'TIMEOUT'
            errs=re.findall(r'File "\./theories/(\w+\.v)", line (\d+)',o)
            # only errors (not warnings)
            fails=[]
            for mm in re.finditer(r'File "\./theories/(\w+\.v)", line (\d+), characters [^\n]*\nError',o):
                fails.append((mm.group(1),enclosing(scr+'/theories/'+mm.group(1),int(mm.group(2)))))
            # C theorems whose file does not build
            missing=[]
            for pf in sorted(os.listdir(scr+'/theories')):
                if re.match(r'Prop\w*\.v$',pf) and not os.path.exists(scr+'/theories/'+pf+'o') or (re.match(r'Prop\w*\.v$',pf) and os.path.getmtime(scr+'/theories/'+pf+'o')<os.path.getmtime(p)):
                    missing.append(pf)
            print(m['file'],m['def'],'|',m['edit'],'->',fails or ('rc=%d'%rc), 'prop files not built:',missing, 'TIMEOUT' if 'TIMEOUT' in o or rc==124 else '')
            if rc==0: print('   *** SURVIVED')
            if log:
                rec={'definition':m['file']+':'+m['def'],'edit':m['edit'],'claim_broken':m['claim'],'theorems_failed':[x for x in m.get('theorems',[])] if rc else [], 'first_failing_lemmas':['%s:%s'%x for x in fails],'survived':rc==0,'tightened':m.get('tightened','')}
                open(root+'/seeded/LOG.jsonl','a').write(json.dumps(rec)+'\n')
main()
