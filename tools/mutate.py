#!/usr/bin/env python3
"""Seeded-bug testing: apply each edit of a mutant list to a scratch copy of the
model, rebuild, and report which lemma fails first in each file.
usage: mutate.py mutants.json [log]  (mutants: list of {file, def, old, new, claim})"""
import json,sys,subprocess,re,os,shutil
muts=json.load(open(sys.argv[1])); out=sys.argv[2] if len(sys.argv)>2 else None
S=os.environ.get('SCRATCH','/tmp/mut'); SRC=os.environ.get('SRC','/verif/rocq')
DECL=re.compile(r'^\s*(?:Global |Local )?(?:Lemma|Theorem|Example|Definition|Fixpoint|Instance|Corollary|Goal|Print Assumptions)\s+([A-Za-z0-9_\']+)')
for m in muts:
    shutil.rmtree(S,ignore_errors=True); subprocess.run(['cp','-a',SRC,S],check=True)
    f=f"{S}/theories/{m['file']}"; s=open(f).read()
    n=s.count(m['old'])
    if n!=m.get('count',1): print("BAD MUTANT",m['def'],n,repr(m['old'])); continue
    os.unlink(f); open(f,'w').write(s.replace(m['old'],m['new']))
    r=subprocess.run(f"cd {S} && coq_makefile -f _CoqProject -o Makefile && timeout 1200 make -k -j2 {os.environ.get('TARGET','')}",shell=True,capture_output=True,text=True)
    t=r.stdout+r.stderr
    fails=[]
    for mm in re.finditer(r'File "\./(theories/[^"]+)", line (\d+)[^\n]*\n(?:Error|[^\n]*Error)',t):
        L=open(f"{S}/{mm.group(1)}").read().split('\n'); i=int(mm.group(2))-1
        while i>=0 and not DECL.match(L[i]): i-=1
        fails.append(os.path.basename(mm.group(1))+":"+(DECL.match(L[i]).group(1) if i>=0 else '?'))
    blocked=[]
    for d,_,fs in os.walk(f"{S}/theories/Props"):
        for x in fs:
            if x.endswith('.v'):
                vo=f"{d}/{x}o"
                if (not os.path.exists(vo)) or os.path.getmtime(vo)<os.path.getmtime(f): pass
                if not os.path.exists(vo): blocked.append(x)
    rec=dict(definition=m['def'],edit=f"{m['old']}  ->  {m['new']}",claim=m['claim'],failed=sorted(set(fails)),tightened=m.get('tightened',[]))
    print(("KILLED  " if r.returncode else "SURVIVED"),json.dumps(rec)); sys.stdout.flush()
    if out and r.returncode: open(out,'a').write(json.dumps(rec)+"\n")
