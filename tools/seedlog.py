#!/usr/bin/env python3
"""usage: seedlog.py out.jsonl [fixes.json] >> seeded/LOG.jsonl : one log line per mutation result of seed.py"""
import json,sys
fix=json.load(open(sys.argv[2])) if len(sys.argv)>2 else {}
for l in open(sys.argv[1]):
    d=json.loads(l)
    if 'error' in d: continue
    f=fix.get(d['id'],{})
    print(json.dumps({'id':d['id'],'definition':d['definition'],'edit':d['edit'],'claim':f.get('claim',d['claim']),'theorems_failed':d['theorems_failed'],
      'lemmas_broken':d['lemmas_broken'],'theorems_tightened':f.get('tightened',[]),**({'note':f['note']} if 'note' in f else {})}))
