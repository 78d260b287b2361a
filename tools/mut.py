#!/usr/bin/env python3
# mut.py batch.json : run seeded bugs. Each: {"file","old","new","definition","edit","claim"}
import json,sys,subprocess,re,os,shutil,time
D='/tmp/mut'
batch=json.load(open(sys.argv[1]))
log='/verif/seeded/LOG.jsonl'
BASE='/tmp/mutbase'
subprocess.run('rm -rf /tmp/mutbase /tmp/mut; git -C /verif checkout-index -a -f --prefix=/tmp/mutx/ && mv /tmp/mutx/rocq /tmp/mutbase && rm -rf /tmp/mutx',shell=True,check=True)
r0=subprocess.run('coq_makefile -f _CoqProject -o Makefile >/dev/null; make -j2 2>&1',shell=True,cwd=BASE,capture_output=True,text=True)
assert r0.returncode==0, r0.stdout[-2000:]
subprocess.run('cp -a /tmp/mutbase /tmp/mut',shell=True,check=True)
def enclosing(f,line):
    name='?'
    for i,l in enumerate(open(D+'/theories/'+f),1):
        if i>line: break
        m=re.match(r'\s*(?:Theorem|Lemma|Example|Corollary|Definition|Fixpoint|Record)\s+(\w+)',l)
        if m: name=m.group(1)
    return name
deps={}
def load_deps():
    out=subprocess.run('coqdep -Q theories Verif theories/*.v',shell=True,cwd=D,capture_output=True,text=True).stdout
    for l in out.splitlines():
        m=re.match(r'theories/(\w+)\.vo\b.*?:(.*)',l)
        if m: deps[m.group(1)]=set(re.findall(r'theories/(\w+)\.vo\b',m.group(2)))
load_deps()
def downstream(fs):
    s=set(fs); ch=True
    while ch:
        ch=False
        for k,v in deps.items():
            if k not in s and v&s: s.add(k); ch=True
    return s
for b in batch:
    p=D+'/theories/'+b['file']
    src=open(BASE+'/theories/'+b['file']).read()
    n=src.count(b['old'])
    if n<1: print('NOT FOUND',b['definition'],b['old']); continue
    open(p,'w').write(src.replace(b['old'],b['new'],1))
    t=time.time()
    try:
        r=subprocess.run('ulimit -v 9000000; timeout 500 make -k -j2 2>&1',shell=True,cwd=D,capture_output=True,text=True).stdout
    except Exception as e: r=str(e)
    fails=[]
    for m in re.finditer(r'File "\./theories/(\w+\.v)", line (\d+)',r):
        f=m.group(1); x=enclosing(f,int(m.group(2)))
        # warnings also print File lines; keep those followed by Error
        seg=r[m.end():m.end()+200]
        if 'Error' in seg and (f,x) not in fails: fails.append((f,x))
    if not fails:
        miss=[f for f in sorted(deps) if not os.path.exists(D+'/theories/'+f+'.vo')]
        first=[f for f in miss if not (deps[f]&set(miss))]
        fails=[(f+'.v','replay of the proofs does not finish within 500 s') for f in first]
    blocked=sorted(k for k in downstream({f[:-2] for f,_ in fails}) if k.startswith('Prop'))
    ids=re.findall(r'C\d\d',b['claim'])
    rec={"definition":b['definition'],"file":b['file'],"edit":b['edit'] if b.get('edit') else f"{b['old']} -> {b['new']}",
         "claim_broken":b['claim'],"theorems_failed":[f"{x} ({f})" for f,x in fails],
         "property_files_blocked":blocked,"theorems_tightened":b.get('tightened',[])}
    print(('KILLED ' if fails else 'SURVIVED'),b['definition'],'|',b['old'].strip()[:50],'=>',rec['theorems_failed'],'%.0fs'%(time.time()-t),flush=True)
    if fails or b.get('log_survivor'):
        open(log,'a').write(json.dumps(rec)+'\n')
    else:
        open('/tmp/mutw/survivors.jsonl','a').write(json.dumps(rec)+'\n')
    # restore
    subprocess.run('rm -rf /tmp/mut; cp -a /tmp/mutbase /tmp/mut',shell=True,check=True)
