#!/usr/bin/env python3
"""Automatic seeded bugs: one random small edit in each model definition, in a scratch copy;
the build must fail in a proof.  usage: automutate.py seed jobs outfile [file.v ...]"""
import json,sys,subprocess,re,os,shutil,random,glob
seed,jobs,out=int(sys.argv[1]),sys.argv[2],sys.argv[3]; files=sys.argv[4:]
rnd=random.Random(seed); SRC=os.environ.get('SRC','/verif/rocq'); S='/tmp/amut%d'%seed
START=re.compile(r'^\s*(?:Definition|Fixpoint|with)\s+([A-Za-z_0-9\']+)',re.M)
DECL=re.compile(r'^\s*(?:Global |Local )?(?:Lemma|Theorem|Example|Definition|Fixpoint|Instance|Corollary|Goal|Print Assumptions)\s+([A-Za-z0-9_\']+)')
OPS=[(r'(?<![\w.#])(\d+)(?![\w.])',lambda m:str(int(m.group(1))+1)),
     (r'(?<![\w.])0x([0-9A-Fa-f]+)(?!\w)',lambda m:hex(int(m.group(1),16)+1)),
     (r'<=\?',lambda m:'<?'),(r'(?<!<)<\?',lambda m:'<=?'),(r'&&',lambda m:'||'),(r'\|\|',lambda m:'&&'),
     (r'\btrue\b',lambda m:'false'),(r'\bfalse\b',lambda m:'true'),(r'\bnegb ',lambda m:''),
     (r' < ',lambda m:' <= '),(r' <= ',lambda m:' < '),(r' \+ ',lambda m:' - '),(r' - ',lambda m:' + '),
     (r'\bmin\b',lambda m:'max'),(r'(\b[\w.]+) \+\+ (\b[\w.]+\b)',lambda m:m.group(2)+' ++ '+m.group(1)),
     (r'\b(\w+) (\w+)\b(?=[^:=]*$)',lambda m:m.group(2)+' '+m.group(1))]
def strip(t): # blank out comments
    o=list(t); d=0; i=0
    while i<len(t):
        if t.startswith('(*',i): d+=1
        if d: o[i]=' ' if t[i]!='\n' else '\n'
        if t.startswith('*)',i):
            o[i+1]=' '; d-=1; i+=1
        i+=1
    return ''.join(o)
todo=[]
for f in files or sorted(os.path.basename(x) for x in glob.glob(SRC+'/theories/Model/*.v')):
    t=open(f'{SRC}/theories/Model/{f}').read(); c=strip(t)
    st=list(START.finditer(c))
    for i,m in enumerate(st):
        a=m.end(); e=re.compile(r'\.\s*\n').search(c,a); e=e.start() if e else len(c)
        b=c.find(':=',a,e)
        if b<0: continue
        cands=[]
        for k,(r,g) in enumerate(OPS):
            for x in re.finditer(r,c[b:e]):
                new=g(x)
                if new!=x.group(0): cands.append((k,b+x.start(),b+x.end(),new))
        if cands: todo.append((f,m.group(1),cands,t))
rnd.shuffle(todo)
done=set()
if os.path.exists(out): done={(json.loads(l)['file'],json.loads(l)['def']) for l in open(out)}
for f,d,cands,t in todo:
    if (f,d) in done: continue
    kinds=sorted({c[0] for c in cands}); rnd.shuffle(kinds)
    for k in (kinds+kinds)[:3]:
        _,a,b,new=rnd.choice([c for c in cands if c[0]==k])
        shutil.rmtree(S,ignore_errors=True); subprocess.run(['cp','-a',SRC,S],check=True)
        p=f'{S}/theories/Model/{f}'; os.unlink(p); open(p,'w').write(t[:a]+new+t[b:])
        r=subprocess.run(f'cd {S} && coq_makefile -f _CoqProject -o Makefile && timeout 2400 make -j{jobs}',shell=True,capture_output=True,text=True)
        o=r.stdout+r.stderr; fails=[]
        for mm in re.finditer(r'File "\./(theories/[^"]+)", line (\d+)[^\n]*\n(?:Error|[^\n]*Error)',o):
            L=open(f"{S}/{mm.group(1)}").read().split('\n'); i=int(mm.group(2))-1
            while i>=0 and not DECL.match(L[i]): i-=1
            fails.append(mm.group(1)[9:]+":"+(DECL.match(L[i]).group(1) if i>=0 else '?'))
        if r.returncode and any(x.startswith('Model/') for x in fails): continue # does not type-check
        ln=t.count('\n',0,a); line=t.split('\n')[ln].strip()
        newline=(t[:a]+new+t[b:]).split('\n')[ln].strip()
        rec=dict(file=f,**{'def':d},line=ln+1,old=line,new=newline,killed=bool(r.returncode),failed=fails)
        open(out,'a').write(json.dumps(rec)+'\n'); break
