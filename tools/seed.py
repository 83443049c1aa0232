#!/usr/bin/env python3
"""seed.py spec.py [first]
Runs seeded wrong programs and appends one line per attempt to seeded/LOG.jsonl.  spec.py defines
  M = [(file, definition, old, new, claim, [(theorem, instance), ...], note), ...]      (note optional)
and optionally PRE, Coq text for the instances, added to wpre.v.txt.
Two observations per attempt, both made in scratch copies outside /verif:
 * the build: theorems_failed is the first failing item of every file that no longer compiles; theorems_not_rebuilt are
   the theorems of the claim that were not reached, about which the build says nothing;
 * the instances: closed booleans implied by a theorem (its hypotheses hold for them).  They must be true on the model
   and are evaluated on the mutant without any proof file: REFUTED (false: the theorem cannot hold of the mutant),
   SAME (still true), BADINSTANCE (not true on the model), NOCOMPILE.
SEEDBUILD=0 in the environment leaves out the build; only the instances are observed then."""
import subprocess,sys,os,re,shutil,json
SRC=os.environ.get('SEEDSRC','/verif/rocq'); MUT='/tmp/seed/rocq'; WIT='/tmp/seed/wit'
here='/verif/tools/'
spec={}; exec(open(sys.argv[1]).read(),spec)
first=int(sys.argv[2]) if len(sys.argv)>2 else 0
C={}
def c(p,s,t,n=""): C[p]=t.split()
exec(open(here+'claims.py').read(),{'c':c})
allf=[l.strip().split('/')[1] for l in open(SRC+'/_CoqProject') if l.startswith('theories/')]
files=[f for f in allf if f=='Base.v' or f.startswith('Model_') or f.startswith('Spec_') and f not in ('Spec_Program.v','Spec_List.v')]
HEAD=('From Coq Require Import Ascii String List Arith NArith ZArith Bool.\nFrom Verif Require Import %s%%s.\n'
      'Import ListNotations.\nLocal Open Scope nat_scope.\n')%' '.join(f[:-2] for f in files)
def apply(s,d,old,new):
    m=re.search(r'^\s*(Definition|Fixpoint|with|Inductive|Record)\s+%s\b'%re.escape(d),s,re.M)
    i=m.start() if m else 0
    j=s.find(old,i)
    return None if j<0 else s[:j]+new+s[j+len(old):]
def lemma(f,line):
    name='?'
    for i,l in enumerate(open(f),1):
        if i>line: break
        m=re.match(r'\s*(?:Local )?(Lemma|Theorem|Example|Definition|Fixpoint|Corollary|Fact|Record|Inductive)\s+(\w+)',l)
        if m: name=m.group(2)
    return name
def data():
    s=open(SRC+'/theories/Demo.v').read()
    t=s[s.index('(** text of a Coq string literal *)'):s.index('Lemma shows_ascii')]
    d=s[s.index('(** ** Building designs *)'):s.index('(** input lines of printable ASCII')]
    return HEAD%''+t+d+open(here+'wpre.v.txt').read()+spec.get('PRE','')
def wbuild(mut):
    os.makedirs(WIT,exist_ok=True)
    dirty=False
    for f in files+['WData.v']:
        s=data() if f=='WData.v' else open(f'{SRC}/theories/{f}').read()
        if mut and f==mut[0]: s=apply(s,mut[1],mut[2],mut[3])
        p=f'{WIT}/{f}'
        if dirty or not os.path.exists(p+'o') or not os.path.exists(p) or open(p).read()!=s:
            dirty=True; open(p,'w').write(s)
            r=subprocess.run(['timeout','300','coqc','-Q','.','Verif',f],cwd=WIT,capture_output=True,text=True)
            if r.returncode:
                if os.path.exists(p+'o'): os.remove(p+'o')
                return f+': '+r.stderr[-300:]
def ev(exprs):
    out=[]
    for e in exprs:
        open(WIT+'/W.v','w').write(HEAD%' WData'+'Eval vm_compute in (%s).\n'%e)
        r=subprocess.run(['timeout','300','coqc','-Q','.','Verif','W.v'],cwd=WIT,capture_output=True,text=True)
        m=re.search(r'= (true|false)',r.stdout); out.append(m.group(1) if m else 'ERR '+(r.stderr or r.stdout)[-200:])
    return out
M=spec['M'][first:]
e=wbuild(None)
if e: sys.exit('model: '+e)
orig=[ev([x[1] for x in m[5]]) for m in M]
bad=[(m[1],x[1],o) for m,os_ in zip(M,orig) for x,o in zip(m[5],os_) if o!='true']
for b in bad: print('BADINSTANCE',b)
if bad and '--force' not in sys.argv: sys.exit(1)
for k,(m,og) in enumerate(zip(M,orig)):
    f,d,old,new,claim,inst=m[:6]; note=m[6] if len(m)>6 else ''
    build=os.environ.get('SEEDBUILD','1')!='0'
    if not build:
        if apply(open(f'{SRC}/theories/{f}').read(),d,old,new) is None: print(k,d,'PATTERN NOT FOUND',old,flush=True); continue
        e=wbuild(m); w=[{"theorem":t,"instance":x,"verdict":'BADINSTANCE' if o!='true' else 'NOCOMPILE' if e else {'false':'REFUTED','true':'SAME'}.get(ev([x])[0],'ERR')} for (t,x),o in zip(inst,og)]
        print(k,d,'|',old[:50].replace('\n',' '),'->',new[:50].replace('\n',' '),'|',[(x['theorem'],x['verdict']) for x in w],e or '',flush=True)
        open('/verif/seeded/LOG.jsonl','a').write(json.dumps({"definition":f"{f}:{d}","edit":f"{old}  =>  {new}","claim_broken":claim,"theorems_failed":[],"theorems_not_rebuilt":[],"theorems_tightened":[],
          "instances":w,"note":(note+'; ' if note else '')+"the proofs were not rebuilt, only the instances were evaluated"})+'\n'); continue
    shutil.rmtree(MUT,ignore_errors=True); os.makedirs('/tmp/seed',exist_ok=True); subprocess.run(['cp','-a',SRC,MUT],check=True)
    p=f'{MUT}/theories/{f}'; s=apply(open(p).read(),d,old,new)
    if s is None: print(k,d,'PATTERN NOT FOUND',old,flush=True); continue
    open(p,'w').write(s)
    r=subprocess.run(f'cd {MUT} && coq_makefile -f _CoqProject -o Makefile >/dev/null 2>&1; timeout 1500 make -k -j4 2>&1',shell=True,capture_output=True,text=True,errors='replace')
    fails=[]
    for x in re.finditer(r'File "\./theories/(\w+\.v)", line (\d+).*?\n(.*)',r.stdout):
        if x.group(3).startswith('Warning'): continue
        fails.append(x.group(1)+':'+lemma(f'{MUT}/theories/{x.group(1)}',int(x.group(2))))
    fails=list(dict.fromkeys(fails))
    w=[]
    e=wbuild(m)
    for (t,x),o in zip(inst,og):
        if o!='true': v='BADINSTANCE'
        elif e: v='NOCOMPILE'
        else: v={'false':'REFUTED','true':'SAME'}.get(ev([x])[0],'ERR')
        w.append({"theorem":t,"instance":x,"verdict":v})
    ids=re.findall(r'C\d\d',claim.split(':')[0])
    dep=[t for i in ids for t in C.get(i,[]) if not t.endswith('_refuted')] if fails else []
    L={"definition":f"{f}:{d}","edit":f"{old}  =>  {new}","claim_broken":claim,"theorems_failed":fails,
       "theorems_not_rebuilt":[t for t in dep if not any(x.endswith(':'+t) for x in fails)],"theorems_tightened":[],
       "instances":w,"note":note or ("" if r.returncode else "survived")}
    print(k,d,'|',old[:50].replace('\n',' '),'->',new[:50].replace('\n',' '),'|','SURVIVED' if r.returncode==0 else ','.join(fails),'|',[(x['theorem'],x['verdict']) for x in w],e or '',flush=True)
    open('/verif/seeded/LOG.jsonl','a').write(json.dumps(L)+'\n')
