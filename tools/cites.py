#!/usr/bin/env python3
"""Check that every file:line citation in the model files exists in /repo (range inside the file)."""
import re,glob,os,sys
files={}
for r,d,fs in os.walk('/repo'):
    for f in fs:
        if f.endswith('.go'):
            p=os.path.join(r,f); files.setdefault(f,[]).append((p,sum(1 for _ in open(p))))
bad=0
for v in sorted(glob.glob('/verif/rocq/theories/M_*.v')):
    s=open(v).read()
    for m in re.finditer(r'([\w/]*\w+\.go):((?:\d+(?:-\d+)?)(?:, ?\d+(?:-\d+)?)*)',s):
        f,rs=m.group(1),m.group(2)
        base=os.path.basename(f)
        c=[n for p,n in files.get(base,[]) if p.endswith('/'+f)]
        ln=s[:m.start()].count('\n')+1
        if not c: print(os.path.basename(v),ln,f,'no such file'); bad+=1; continue
        mx=max(int(x) for x in re.findall(r'\d+',rs))
        if mx>max(c): print(os.path.basename(v),ln,m.group(0),'file has',c); bad+=1
print('bad',bad)
