#!/usr/bin/env python3
"""Regenerates MANIFEST.json: collects theorems named Cnn_* from rocq/theories/*Props.v; notes/status in tools/notes.json."""
import json,re,glob,os
root=os.path.dirname(os.path.dirname(os.path.abspath(__file__)))
th={}
for f in sorted(glob.glob(root+'/rocq/theories/*.v')):
    for m in re.finditer(r'^\s*Theorem\s+(C\d\d\w*)',open(f).read(),re.M):
        th.setdefault(re.match(r'C\d+',m.group(1)).group(0),[]).append(m.group(1))
notes=json.load(open(root+'/tools/notes.json'))
ids=[json.loads(l)['id'] for l in open(root+'/properties.jsonl') if l.strip()]
claims=[]
for i in ids:
    t=th.get(i,[])
    n=notes.get(i,{})
    st=n.get('status') or ('partial' if (not t or any(x.endswith(('_partial','_refuted')) for x in t)) else 'proved')
    claims.append(dict(property=i,status=st,theorems=t,note=n.get('note','')))
json.dump(dict(claims=claims),open(root+'/MANIFEST.json','w'),indent=1)
print({s:sum(c['status']==s for c in claims) for s in ('proved','partial','not_applicable')}, [c['property'] for c in claims if not c['theorems']])
