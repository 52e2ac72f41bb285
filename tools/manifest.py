import re,json,glob,collections
NOTES=json.load(open('/verif/tools/notes.json'))
th=collections.defaultdict(list)
for f in sorted(glob.glob('/verif/rocq/theories/*Properties.v')):
    for m in re.finditer(r'^\s*Theorem\s+(C\d+\w*)',open(f).read(),re.M):
        th[re.match(r'C\d+',m.group(1)).group(0)].append(m.group(1))
claims=[]
for l in open('/verif/properties.jsonl'):
    i=json.loads(l)['id']
    n=NOTES.get(i)
    if n and n[0]=='not_applicable':
        claims.append(dict(property=i,status='not_applicable',theorems=[],note=n[1])); continue
    if i in th:
        st,no=(n if n else ('proved',''))
        claims.append(dict(property=i,status=st,theorems=th[i],note=no))
        if not n: print('no note for',i)
json.dump({'claims':claims},open('/verif/MANIFEST.json','w'),indent=1)
print(collections.Counter(c['status'] for c in claims), sum(len(c['theorems']) for c in claims))
