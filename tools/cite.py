#!/usr/bin/env python3
# expand {{path:Qual.name}} into "path START-END (Qual.name)"
import ast,sys,re,functools,glob
@functools.lru_cache(None)
def index(path):
    src=open('/repo/'+path).read(); t=ast.parse(src); d={}
    def walk(node,pre):
        for n in getattr(node,'body',[]):
            if isinstance(n,(ast.FunctionDef,ast.ClassDef,ast.AsyncFunctionDef)):
                q=pre+n.name
                d[q]=(n.lineno,n.end_lineno); walk(n,q+'.')
            elif isinstance(n,(ast.Assign,ast.AnnAssign)):
                ts=n.targets if isinstance(n,ast.Assign) else [n.target]
                for x in ts:
                    if isinstance(x,ast.Name): d[pre+x.id]=(n.lineno,n.end_lineno)
            elif isinstance(n,(ast.If,ast.Try)): walk(n,pre)
    walk(t,''); return d
def rep(m):
    path,q=m.group(1),m.group(2)
    d=index(path)
    if q not in d:
        print("NOT FOUND",path,q,file=sys.stderr); return m.group(0)
    a,b=d[q]; return f"{path} {a}-{b} ({q})"
for f in sys.argv[1:]:
    s=open(f).read(); s2=re.sub(r'\{\{([\w/\.]+):([\w\.]+)\}\}',rep,s)
    if s2!=s: open(f,'w').write(s2)
