#!/usr/bin/env python3
"""Single source of properties.jsonl; run from /verif.  Keeps ids stable."""
import json
P=[]
def p(id,title,statement,quant,why,*anchors):
    P.append(dict(id=id,title=title,statement=statement,quantifier=quant,why_tests_cant=why,anchors=list(anchors)))
exec(open('tools/props_data.py').read())
ids=[x['id'] for x in P]
assert len(ids)==len(set(ids)), 'duplicate ids'
with open('properties.jsonl','w') as f:
    for x in P: f.write(json.dumps(x,ensure_ascii=False)+'\n')
print(len(P),'properties')
