#!/usr/bin/env python3
"""usage: mklog.py BATCH.py RESULTS.jsonl...  : appends one line per finished mutant to seeded/LOG.jsonl (skipping ids already there)."""
import sys,json,os
env={};exec(open(sys.argv[1]).read(),env)
res={}
for p in sys.argv[2:]:
    for l in open(p):
        d=json.loads(l)
        if 'error' not in d: res[d['id']]=d
log=os.path.join(os.path.dirname(os.path.abspath(__file__)),'..','seeded','LOG.jsonl')
have={json.loads(l).get('id') for l in open(log)} if os.path.exists(log) else set()
n=0
with open(log,'a') as f:
    for m in env['M']:
        r=res.get(m['id'])
        if not r or m['id'] in have: continue
        f.write(json.dumps(dict(id=m['id'],definition=m['file'].replace('.v','')+'.'+m['defn'],edit=dict(old=m['old'],new=m['new']),claim=m['claim'],
            expected=m['expect'],failed_theorems=r['props'],failed_lemmas=len(r['lemmas']),caught=all(any(p.startswith(x+'_') for p in r['props']) for x in m['expect']),tightened=m.get('tightened',[]),note=m.get('note','')))+'\n'); n+=1
print(n,'lines added')
