#!/usr/bin/env python3
"""Run one seeded bug: mutate.py spec.json  (spec: {"id","file","old","new","claim","check":[files],"also":[[file,old,new]]})
Copies the theories to /tmp/mut/<id>, applies the edit, builds all .vos (statements only) and re-checks the
proofs of the files in "check" (.vok).  A failing proof is replaced by Admitted in the scratch copy and the file
is re-checked, so that every failing lemma is listed."""
import json,os,re,shutil,subprocess,sys,concurrent.futures as cf
SRC='/verif/rocq'
def sh(c,t,cwd):
    try:
        p=subprocess.run(c,shell=True,cwd=cwd,stdout=subprocess.PIPE,stderr=subprocess.STDOUT,timeout=t,text=True)
        return p.returncode,p.stdout
    except subprocess.TimeoutExpired as e:
        return 124,'TIMEOUT'
def admit(path,line):
    L=open(path).read().split('\n')
    i=line-1
    # find enclosing statement start
    k=i
    while k>=0 and not re.match(r'\s*(Theorem|Lemma|Example|Corollary|Fact|Remark)\b',L[k]): k-=1
    name=re.match(r'\s*\w+\s+([\w\']+)',L[k]).group(1)
    # find Proof after k, Qed after max(i,k)
    q=i
    while q<len(L) and not re.search(r'\b(Qed|Defined)\.',L[q]): q+=1
    text='\n'.join(L[k:q+1])
    m=re.search(r'\bProof\.',text)
    new=(text[:m.start()] if m else text.rsplit('Proof',1)[0])+'Proof. Admitted.'
    # keep what follows Qed. on the line
    tail=re.split(r'\b(?:Qed|Defined)\.',L[q],1)[1]
    # several lemmas on one line are not handled
    L[k:q+1]=[new+tail]
    open(path,'w').write('\n'.join(L))
    return name
def check(d,f,maxn=6,timeout=900):
    bad=[]
    path=f'{d}/theories/{f}.v'
    for _ in range(maxn):
        rc,out=sh(f'coqc -vok -Q theories Verif theories/{f}.v',timeout,d)
        if rc==0: break
        m=re.search(r'File "[^"]*", line (\d+)',out)
        if not m:
            bad.append(f'{f}: rc {rc} {out[-80:]}'); break
        err=out[m.end():]
        try: n=admit(path,int(m.group(1)))
        except Exception as e:
            bad.append(f'{f}: line {m.group(1)} (definition) {err.strip()[-120:]}'); break
        bad.append(f'{f}.{n}')
    return bad
def run(spec):
    d='/tmp/mut/'+spec['id']
    shutil.rmtree(d,ignore_errors=True); os.makedirs(d+'/theories')
    for f in os.listdir(SRC+'/theories'):
        if f.endswith('.v'): shutil.copy(f'{SRC}/theories/{f}',d+'/theories')
    shutil.copy(SRC+'/_CoqProject',d)
    p=f"{d}/theories/{spec['file']}"; s=open(p).read()
    n=s.count(spec['old'])
    if n!=spec.get('count',1): return {'id':spec['id'],'error':f'{n} occurrences'}
    open(p,'w').write(s.replace(spec['old'],spec['new']))
    for f,a,b in spec.get('also',[]):   # the same edit in the named pieces of the pattern (ParserRe), so that only claims can fail
        q=f"{d}/theories/{f}"; s=open(q).read()
        if s.count(a)!=1: return {'id':spec['id'],'error':f'{f}: {s.count(a)} occurrences of {a}'}
        open(q,'w').write(s.replace(a,b))
    rc,out=sh('coq_makefile -f _CoqProject -o Makefile >/dev/null 2>&1; make -k -j3 vos 2>&1',3000,d)
    res={'id':spec['id'],'failed':[]}
    for m in re.finditer(r'File "\./theories/(\w+)\.v", line (\d+)[^\n]*\n([^\n]*)\n?([^\n]*)',out):
        if 'Warning' in m.group(3): continue
        res['failed'].append(f'{m.group(1)}: line {m.group(2)} (vos) {m.group(3)} {m.group(4)}'[:200])
    with cf.ThreadPoolExecutor(3) as ex:
        for b in ex.map(lambda f: check(d,f),spec['check']): res['failed']+=b
    if not spec.get('keep'): shutil.rmtree(d,ignore_errors=True)
    return res
if __name__=='__main__':
    for a in sys.argv[1:]:
        specs=json.load(open(a))
        if isinstance(specs,dict): specs=[specs]
        for s in specs:
            print(json.dumps(run(s)),flush=True)
