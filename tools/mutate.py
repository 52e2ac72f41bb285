#!/usr/bin/env python3
"""usage: mutate.py FILE.json  -- each item: {file, old, new, definition, edit, claim}
Rebuilds a scratch copy with the edit and appends a line to seeded/LOG.jsonl."""
import json,sys,subprocess,re,os,shutil
items=json.load(open(sys.argv[1])); S='/tmp/mut/rocq'
def sync(): subprocess.run(['rsync','-a','--delete','/verif/rocq/',S+'/'],check=True) if shutil.which('rsync') else (shutil.rmtree(S,ignore_errors=True),shutil.copytree('/verif/rocq',S))
done=set()
L='/verif/seeded/LOG.jsonl'
if os.path.exists(L):
    for l in open(L): d=json.loads(l); done.add((d['definition'],d['edit']))
def enclosing(f,line):
    s=open(f).read().split('\n')[:line]
    for l in reversed(s):
        m=re.match(r'\s*(?:Local\s+)?(Lemma|Theorem|Corollary|Example|Definition|Fixpoint|Fact)\s+(\w+)',l)
        if m: return m.group(2)
    return '?'
for it in items:
    if (it['definition'],it['edit']) in done: continue
    sync()
    p=f"{S}/theories/{it['file']}"; s=open(p).read()
    if s.count(it['old'])!=1:
        print('BAD PATTERN',it['definition'],s.count(it['old'])); continue
    open(p,'w').write(s.replace(it['old'],it['new']))
    r=subprocess.run('coq_makefile -f _CoqProject -o Makefile >/dev/null; timeout 2400 make -k -j4 2>&1',shell=True,cwd=S,capture_output=True,text=True).stdout
    errs=[]
    for m in re.finditer(r'File "\./(theories/\w+\.v)", line (\d+)[^\n]*\n(?=Error|[^F]*?Error)',r):
        e=os.path.basename(m.group(1))[:-2]+'.'+enclosing(S+'/'+m.group(1),int(m.group(2)))
        if e not in errs: errs.append(e)
    missing=[f[:-2] for f in sorted(os.listdir(S+'/theories')) if f.endswith('Properties.v') and not os.path.exists(S+'/theories/'+f+'o')]
    out=dict(definition=it['definition'],edit=it['edit'],claim_broken=it['claim'],theorems_failed=errs,property_files_not_built=missing,theorems_tightened=it.get('tightened',[]))
    print(('SURVIVED ' if not errs else 'killed   ')+it['definition']+' | '+it['edit']+' -> '+', '.join(errs),flush=True)
    if errs or it.get('keep'): open(L,'a').write(json.dumps(out)+'\n')
