#!/usr/bin/env python3
"""Register a property: reads one JSON object {prop:{...}, note:str, row:str, finding:str} from stdin."""
import json,sys
d=json.load(sys.stdin)
p=d['prop']
with open('properties.jsonl','a') as f: f.write(json.dumps(p,ensure_ascii=False)+"\n")
n=json.load(open('tools/notes.json')); n[p['id']]={"note":d['note']}
json.dump(n,open('tools/notes.json','w'),indent=1,ensure_ascii=False)
s=open('DESIGN.md').read()
if d.get('row'): s=s.replace("| C45, C54 | Scan*",d['row']+"\n| C45, C54 | Scan*",1)
if d.get('finding'): s=s.replace("\n## 6. Testing","\n"+d['finding']+"\n\n## 6. Testing",1)
open('DESIGN.md','w').write(s)
