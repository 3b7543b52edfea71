#!/usr/bin/env python3
"""Seeded-bug testing. usage: mutate.py muts.json out.jsonl [workdir]
Each mutation: {"file": "M_X.v", "definition": ..., "old": ..., "new": ..., "edit": ..., "claim": ..., "expect": ["Cnn", ...]}.
The edit is made in a scratch copy of rocq/, every dependent file is rebuilt; a proof that fails is replaced by Admitted and the
build goes on, so that the theorems that really depend on it are found from the Print Assumptions output of each theorem."""
import json,sys,os,re,subprocess,shutil
SRC='/verif/rocq'
muts=json.load(open(sys.argv[1])); out=sys.argv[2]; W=sys.argv[3] if len(sys.argv)>3 else '/tmp/mut'
def sh(c,**k): return subprocess.run(c,shell=True,capture_output=True,text=True,**k)
dirty=None
def fresh():
    global dirty
    if dirty is None:
        if os.path.isdir(W): shutil.rmtree(W)
        shutil.copytree(SRC,W)
    else:
        for f in dirty:
            for x in (f,f+'o'): shutil.copy2(f'{SRC}/theories/{x}',f'{W}/theories/{x}')
    dirty=[]
order=[l.strip()[len('theories/'):] for l in open(SRC+'/_CoqProject') if l.strip().startswith('theories/')]
def deps():
    d={}
    for f in order:
        t=open(f'{SRC}/theories/{f}').read(); s=set()
        for m in re.finditer(r'From Verif Require (?:Import|Export)?([^.]*)\.',t):
            s|={x+'.v' for x in m.group(1).split()}
        d[f]=s
    return d
D=deps()
def dependents(f):
    S={f}; L=[]
    for g in order:
        if g!=f and D[g]&S: S.add(g); L.append(g)
    return L
DECL=re.compile(r'^\s*(?:Local |Global |#\[[^\]]*\] )?(Theorem|Lemma|Example|Corollary|Fact|Remark|Definition|Fixpoint|Instance|Proposition)\s+([\w\']+)')
def compile_file(f):
    """returns (failed lemma names, broken, output)"""
    p=f'{W}/theories/{f}'; failed=[]
    while True:
        try: r=subprocess.run(['coqc','-set','Default Timeout=60','-Q','theories','Verif',f'theories/{f}'],cwd=W,capture_output=True,text=True,timeout=900)
        except subprocess.TimeoutExpired: return failed,'timeout',''
        if r.returncode==0: return failed,None,r.stdout
        m=re.search(r'line (\d+), characters (\d+)-',r.stderr)
        if not m: return failed,'crash '+r.stderr[-200:],''
        n=int(m.group(1))-1
        lines=open(p).read().split('\n')
        # find declaration
        k=n
        while k>=0 and not DECL.match(lines[k]): k-=1
        if k<0: return failed,r.stderr[-300:],''
        name=DECL.match(lines[k]).group(2)
        # find the proof start
        s=k
        while s<len(lines) and 'Proof.' not in lines[s]: s+=1
        e=s
        while e<len(lines) and not re.search(r'\b(Qed|Defined)\.\s*$',lines[e]): e+=1
        if name in failed or s>=len(lines) or e>=len(lines) or e<n: return failed,r.stderr[-300:],''
        if any(DECL.match(lines[x]) for x in range(k+1,e+1)): return failed,r.stderr[-300:],''
        lines[s]=lines[s][:lines[s].index('Proof.')]+'Proof. Admitted.'
        for x in range(s+1,e+1): lines[x]=''
        open(p,'w').write('\n'.join(lines)); failed.append(name)
for mu in muts:
    fresh()
    p=f'{W}/theories/{mu["file"]}'; t=open(p).read()
    if t.count(mu['old'])!=1: print('BAD EDIT',mu['definition'],t.count(mu['old'])); continue
    open(p,'w').write(t.replace(mu['old'],mu['new']))
    dirty=[mu['file']]+dependents(mu['file'])
    bad=None; failed=[]; hit=set(); names=[]
    fl,br,o=compile_file(mu['file'])
    if br: print('MODEL BROKEN',mu['definition'],br); continue
    if fl: print('MODEL PROOF BROKEN',mu['definition'],fl)
    todo=dependents(mu['file'])
    if mu.get('only'): todo=[f for f in todo if f in mu['only']]
    for f in todo:
        fl,br,o=compile_file(f); failed+=fl
        if br: bad=(f,br); hit.add(f'(rest of {f}: {br.strip()[-80:]})')
        pa=[x for x in re.findall(r'Print Assumptions ([\w\']+)\.',open(f'{W}/theories/{f}').read())]
        if o:
            chunks=re.split(r'(?m)^(?=Closed under|Axioms:)',o); chunks=[c for c in chunks if c.startswith(('Closed','Axioms'))]
            if len(chunks)==len(pa):
                for a,c in zip(pa,chunks):
                    if c.startswith('Axioms'): hit.add(a)
            else: hit.add(f'(assumption count mismatch {f})')
        if br: break
    hit|={x for x in failed if re.match(r'C\d\d',x)}
    thms=sorted(hit)
    exp=mu.get('expect',[]); missed=[e for e in exp if not any(h.startswith(e) for h in thms)]
    rec={"definition":mu['file']+': '+mu['definition'],"edit":mu['edit'],"claim_broken":mu['claim'],"theorems_failed":thms,"theorems_tightened":mu.get('tightened',[])}
    open(out,'a').write(json.dumps(rec)+'\n')
    print(('MISSED '+str(missed) if missed or not thms else 'ok'),mu['definition'],'|',mu['edit'],'->',len(thms),[h for h in thms if any(h.startswith(e) for e in exp)][:6],flush=True)
