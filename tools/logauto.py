#!/usr/bin/env python3
"""usage: logauto.py ID CLAIM THEOREMS_FAILED(comma) TIGHTENED(comma) NOTE : one LOG line for an automatically generated mutant that first survived."""
import sys,json,glob,os
i,claim,failed,tight,note=sys.argv[1:6]
r=None
for f in glob.glob('/tmp/am*.out'):
    for l in open(f):
        d=json.loads(l)
        if d['id']==i: r=d
log=os.path.join(os.path.dirname(os.path.abspath(__file__)),'..','seeded','LOG.jsonl')
with open(log,'a') as f:
    f.write(json.dumps(dict(id='AUTO-'+i,definition=r['file']+'.'+r['defn'],edit=dict(old=r['old'],new=r['new'],context=r['ctx']),claim=claim,
      failed_theorems=[x for x in failed.split(',') if x],tightened=[x for x in tight.split(',') if x],caught=bool(failed),note=note))+'\n')
