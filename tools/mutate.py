#!/usr/bin/env python3
"""Seeded-bug harness.  usage: mutate.py MUTANTS.py WORKDIR [ids...]
MUTANTS.py defines M = [dict(id, file, old, new, claim, expect=[property ids])].  For each mutant the theories are copied to
WORKDIR, the edit applied, every dependent file replayed: lemmas that no longer prove are replaced by Admitted (scratch copy
only) and the property theorems whose Print Assumptions then is not closed are the ones that failed."""
import sys,os,re,subprocess,shutil,json,time
SRC=os.environ.get('MUTSRC','/verif/rocq')
START=re.compile(r'^\s*(?:Local |Global )?(Lemma|Theorem|Corollary|Example|Fact|Remark)\s+([A-Za-z0-9_\']+)',re.M)
END=re.compile(r'\b(Qed|Defined)\.')
def order():
    fs=[l.strip() for l in open(SRC+'/_CoqProject') if l.strip().endswith('.v')]
    d=deps(fs); out=[]; seen=set()
    def visit(f):
        if f in seen: return
        seen.add(f)
        for g in fs:
            if g in d[f]: visit(g)
        out.append(f)
    for f in fs: visit(f)
    return out
def needed_examples(files,d):
    # Ex_/Inst_ files are skipped unless a lemma or property file imports them
    need=set()
    for f in reversed(files):
        b=os.path.basename(f)
        if not b.startswith(('Ex_','Inst_')) or f in need: need|=d[f]
    return need
def deps(files):
    names={os.path.basename(f)[:-2]:f for f in files}; d={}
    for f in files:
        t=open(SRC+'/'+f).read(); s=set()
        for m in re.finditer(r'From Verif Require (?:Import|Export) ([^.]*)\.',t):
            s|={names[x] for x in m.group(1).split() if x in names}
        d[f]=s
    return d
def dependents(f,files,d):
    out={f}
    for g in files:
        if d[g]&out: out.add(g)
    return [g for g in files if g in out]
def lemmas(t):
    res=[]
    for m in START.finditer(t):
        e=END.search(t,m.end())
        if e: res.append((m.group(2),m.start(),e.start(),e.end()))
    return res
def run(mut,work):
    files=order(); d=deps(files)
    if os.path.exists(work): shutil.rmtree(work)
    shutil.copytree(SRC,work,copy_function=shutil.copy2)
    p=work+'/theories/'+mut['file']; t=open(p).read()
    n=t.count(mut['old'])
    if n!=mut.get('count',1): return dict(error='pattern found %d times'%n)
    open(p,'w').write(t.replace(mut['old'],mut['new']))
    failed=[];props=[]
    need=needed_examples(files,d)
    if os.environ.get('FAST'):  # replay only what the expected properties rest on
        want={f for f in files if os.path.basename(f).startswith('Prop_') and
              any(re.search(r'^Print Assumptions '+x+'_',open(SRC+'/'+f).read(),re.M) for x in mut['expect'])}
        for f in reversed(files):
            if f in want: want|=d[f]
    else: want=set(files)
    for f in dependents('theories/'+mut['file'],files,d):
        path=work+'/'+f; t=open(path).read(); ls=lemmas(t)
        isM=os.path.basename(f).startswith(('M_','Spec_'))
        bad=set()
        if os.path.basename(f).startswith(('Ex_','Inst_')) and f not in need: continue
        if f not in want: continue
        r=None
        try: r=subprocess.run(['timeout','-k','5','900','coqc','-Q','theories','Verif',f],text=True,capture_output=True,cwd=work)
        except Exception: pass
        if ls and r.returncode:
            # pass 1: replay in the toplevel, which goes on after errors
            out='Set Default Timeout 240.\n';pos=0
            for (nm,a,b,e) in ls:
                out+=t[pos:e]+'\nAbort All.\nCheck %s.\n'%nm; pos=e
            out+=t[pos:]+'\n'
            r=subprocess.run(['coqtop','-Q','theories','Verif','-q'],input=out,text=True,capture_output=True,cwd=work)
            o=r.stdout+r.stderr
            bad={nm for nm in re.findall(r'The reference ([A-Za-z0-9_\']+)\s+was\s+not\s+found',o)}&{x[0] for x in ls}
            # pass 2: cut them; a proof that only went through because the toplevel skipped a failing step is cut too
            for _ in range(60):
                new='';pos=0
                for (nm,a,b,e) in ls:
                    if nm in bad:
                        seg=t[a:e]; k=re.search(r'\.\s*(?:\(\*[^*]*\*\)\s*)?Proof\b',seg)
                        if not k: return dict(error='cannot cut proof of '+nm)
                        cut=seg[:k.start()]+'. Admitted.'
                        new+=t[pos:a]+cut+'\n'*(seg.count('\n')-cut.count('\n')); pos=e
                new+=t[pos:]
                open(path,'w').write(new)
                r=subprocess.run(['coqc','-Q','theories','Verif',f],text=True,capture_output=True,cwd=work)
                if not r.returncode: break
                mm=re.search(r'line (\d+), characters',r.stderr)
                if not mm: break
                ln=int(mm.group(1))
                hit=[nm for (nm,a,b,e) in ls if t.count('\n',0,a)+1<=ln<=t.count('\n',0,e)+1 and nm not in bad]
                if not hit: break
                bad.add(hit[0])
        if r.returncode: return dict(error='%s: %s'%(f,(r.stdout[-300:]+r.stderr)[-700:]))
        failed+=sorted(bad)
        if os.path.basename(f).startswith('Prop_'):
            names=re.findall(r'^Print Assumptions ([A-Za-z0-9_\']+)\.',t,re.M)
            answers=re.findall(r'^(Closed under the global context|Axioms:)',r.stdout,re.M)
            assert len(names)==len(answers),(f,len(names),len(answers))
            props+=[n for n,a in zip(names,answers) if a=='Axioms:']
    return dict(lemmas=failed,props=sorted(set(props)))
if __name__=='__main__':
    env={};exec(open(sys.argv[1]).read(),env)
    done=set()
    res=sys.argv[2]+'.results.jsonl'
    if os.path.exists(res): done={json.loads(l)['id'] for l in open(res)}
    for m in env['M']:
        if len(sys.argv)>3 and m['id'] not in sys.argv[3:]: continue
        if m['id'] in done: continue
        t0=time.time(); r=run(m,sys.argv[2]); r['id']=m['id']; r['secs']=round(time.time()-t0)
        r['caught']=all(any(p.startswith(x+'_') for p in r.get('props',[])) for x in m['expect'])
        with open(res,'a') as f: f.write(json.dumps(r)+'\n')
        print(json.dumps(r),flush=True)
