#!/usr/bin/env python3
"""Regenerate MANIFEST.json from the theorem names Cxx_* in rocq/theories/Prop_*.v, Ex_*.v and tools/notes.json."""
import json,re,glob,os
root=os.path.dirname(os.path.dirname(os.path.abspath(__file__)))
props=[json.loads(l)['id'] for l in open(root+'/properties.jsonl')]
th={}
for f in sorted(glob.glob(root+'/rocq/theories/Prop_*.v')+glob.glob(root+'/rocq/theories/Ex_*.v')):
    for m in re.finditer(r'^Theorem (C\d\d+)_(\w+)',open(f).read(),re.M):
        th.setdefault(m.group(1),[]).append(m.group(1)+'_'+m.group(2))
notes=json.load(open(root+'/tools/notes.json'))
claims=[]
for p in props:
    n=notes.get(p,{})
    t=th.get(p,[])
    st=n.get('status') or ('partial' if not t or any(x.endswith('_partial') for x in t) else 'proved')
    claims.append({"property":p,"status":st,"theorems":t,"note":n.get('note','' if t else 'in progress')})
json.dump({"claims":claims},open(root+'/MANIFEST.json','w'),indent=1)
print(len(claims),'claims', [c['property'] for c in claims if not c['theorems']])
