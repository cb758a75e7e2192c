#!/usr/bin/env python3
"""Writes MANIFEST.json: one claim per property, theorems grouped by their Cnn_ prefix."""
import json,re,glob,os
root=os.path.dirname(os.path.dirname(os.path.abspath(__file__)))
status={}; notes={}
exec(open(root+'/tools/claims.py').read())
thms={}
files=[l.strip() for l in open(root+'/rocq/_CoqProject') if l.strip().endswith('.v')]
for f in files:
    if not f.endswith('Props.v'): continue
    for m in re.finditer(r'^\s*(?:Theorem|Corollary)\s+(C\d\d)_(\w+)',open(root+'/rocq/'+f).read(),re.M):
        thms.setdefault(m.group(1),[]).append(m.group(1)+'_'+m.group(2))
claims=[]
for pid in sorted(set(thms)|set(status)):
    claims.append(dict(property=pid,status=status[pid],theorems=thms.get(pid,[]),note=notes[pid]))
json.dump({"claims":claims},open(root+'/MANIFEST.json','w'),indent=1)
props=[json.loads(l)['id'] for l in open(root+'/properties.jsonl')]
print('claims',len(claims),'missing',[p for p in props if p not in [c['property'] for c in claims]])
