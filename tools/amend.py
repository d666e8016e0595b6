#!/usr/bin/env python3
"""Amends properties: stdin holds JSON lines {id, statement, [quantifier], [title], note, [status]}. The statement it replaces is kept as refuted_ideal
(what one would like to rely on, and what the _refuted theorems disprove)."""
import json,sys
pr=[json.loads(l) for l in open('properties.jsonl') if l.strip()]
notes=json.load(open('tools/notes.json'))
by={p['id']:p for p in pr}
for l in sys.stdin:
    if not l.strip(): continue
    a=json.loads(l); p=by[a['id']]
    if 'statement' in a:
        p.setdefault('refuted_ideal',p['statement']); p['statement']=a['statement']
    if a.get('no_ideal'): p.pop('refuted_ideal',None)
    for k in ('quantifier','title'):
        if k in a: p[k]=a[k]
    n=notes.setdefault(a['id'],{})
    if 'note' in a: n['note']=a['note']
    if 'status' in a: n['status']=a['status']
open('properties.jsonl','w').write(''.join(json.dumps(p,ensure_ascii=False)+'\n' for p in pr))
json.dump(notes,open('tools/notes.json','w'),indent=1,ensure_ascii=False)
