#!/usr/bin/env python3
# builds /verif/DESIGN.md
import re,json,glob,collections,os
D='/verif/tools/design/'
props=[json.loads(l) for l in open('/verif/properties.jsonl')]
man={c['property']:c for c in json.load(open('/verif/MANIFEST.json'))['claims']}
how=json.load(open(D+'how.json'))
where={}
for f in sorted(glob.glob('/verif/rocq/theories/*Properties.v')):
    for m in re.finditer(r'^\s*Theorem\s+(C\d+)\w*',open(f).read(),re.M):
        where.setdefault(m.group(1),[])
        b=os.path.basename(f)
        if b not in where[m.group(1)]: where[m.group(1)].append(b)
cites=collections.defaultdict(set)
for f in glob.glob('/verif/rocq/theories/*.v'):
    for m in re.finditer(r'([a-z_]+(?:/[a-z_0-9]+)+\.py)\s+(\d+)(?:-(\d+))?\s*(?:\(([\w\.]+)\))?',open(f).read()):
        cites[m.group(1)].add((int(m.group(2)),int(m.group(3) or m.group(2)),m.group(4) or ''))
out=[open(D+'head.md').read().rstrip(),'']
out+=['## 4. Properties: model, method, result','','The plan of each property and where it stands.  Status and theorem names are those of `MANIFEST.json`.','']
for p in props:
    i=p['id']; c=man.get(i)
    out.append(f"### {i} {p['title']}")
    out.append('')
    out.append('* Method: '+how.get(i,'see the theorem statements.'))
    if c and c['theorems']:
        out.append(f"* Status: {c['status']}; file: "+', '.join('`%s`'%w for w in where.get(i,[])))
        out.append('* Theorems: '+', '.join('`%s`'%t for t in c['theorems']))
        if c['note']: out.append('* Note: '+c['note'])
    elif c: out.append('* Status: %s. %s'%(c['status'],c['note']))
    else: out.append('* Status: not proved yet.')
    out.append('')
out+=['## 5. Which code is modelled','','Collected from the citations in the model files: file, number of its lines covered by a cited definition, symbols.','']
for f in sorted(cites):
    if not os.path.exists('/repo/'+f): print('no such file',f); continue
    n=len(open('/repo/'+f).read().split('\n'))
    cov=set()
    cl=set(re.findall(r'^class (\w+)',open('/repo/'+f).read(),re.M))
    for a,b,s in cites[f]:
        if s not in cl or b-a<40: cov|=set(range(a,b+1))
    syms=sorted({s for a,b,s in cites[f] if s})
    out.append(f"* `{f}` ({len(cov)} of {n}): "+(', '.join(syms) if syms else 'lines only'))
out+=['',open(D+'unmodelled.md').read().rstrip(),'',open(D+'findings.md').read().rstrip(),'']
open('/verif/DESIGN.md','w').write('\n'.join(out))
miss=[p['id'] for p in props if p['id'] not in how]
if miss: print('no method line for',miss)
