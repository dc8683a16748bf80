#!/usr/bin/env python3
"""Seeded-bug runner: applies each edit of tools/mutants.py to a scratch copy of rocq/ (outside /verif),
rebuilds, and records which proofs fail and which theorems of the manifest rest on them (via .glob files).
usage: mutate.py SCRATCH [id ...]   (appends to SCRATCH/result.jsonl)"""
import sys, os, re, json, subprocess, shutil, collections
sys.path.insert(0, '/verif/tools')
import mutants
SCR = sys.argv[1]; only = sys.argv[2:]
SRC = os.environ.get('SRC', '/verif/rocq')
def globdeps():
    g = collections.defaultdict(set)
    for f in os.listdir(SRC+'/theories'):
        if not f.endswith('.glob'): continue
        lib = 'Verif.'+f[:-5]
        items=[]; refs=[]
        for line in open(SRC+'/theories/'+f, encoding='latin1'):
            m = re.match(r'R(\d+):(\d+) (\S+) (\S+) (\S+) (\S+)', line)
            if m:
                if m[3].startswith('Verif.'): refs.append((int(m[1]), m[3], m[5]))
                continue
            m = re.match(r'(\w+) (\d+):(\d+) (\S+) (\S+)', line)
            if m and m[1] in ('prf','def','thm','ind','fix','inst','rec','class','ex','not'): items.append((int(m[2]), m[5]))
        items.sort(); refs.sort()
        i=0
        for pos, l, n in refs:
            while i+1 < len(items) and items[i+1][0] <= pos: i+=1
            if items and items[i][0] <= pos: g[(lib, items[i][1])].add((l,n))
    return g
G = globdeps()
RG = collections.defaultdict(set)
for k, vs in G.items():
    for v in vs: RG[v].add(k)
def dependents(start):
    seen=set(start); todo=list(start)
    while todo:
        for y in RG[todo.pop()]:
            if y not in seen: seen.add(y); todo.append(y)
    return seen
manifest = json.load(open('/verif/MANIFEST.json'))
CLAIMS = {t for c in manifest['claims'] for t in c['theorems']}
def lemma_at(path, line):
    name=None
    for i, l in enumerate(open(path), 1):
        if i > line: break
        m = re.match(r'\s*(?:#\[[^\]]*\]\s*)?(?:Local |Global |Program )?(?:Theorem|Lemma|Example|Definition|Fixpoint|Corollary|Fact|Instance|Inductive|Record)\s+([\w\']+)', l)
        if m: name=m[1]
    return name
def run(m):
    subprocess.run('rm -rf %s/rocq && cp -a %s %s/rocq' % (SCR, SRC, SCR), shell=True, check=True)
    p = SCR+'/rocq/theories/'+m['file']
    s = open(p).read()
    if s.count(m['old']) != 1:
        return dict(m, error='old text occurs %d times' % s.count(m['old']))
    open(p,'w').write(s.replace(m['old'], m['new']))
    fails=[]
    # ADMIT=n: up to n times, the failed proofs are admitted (in the scratch copy) and the build goes on, to find all proofs that fail
    for rnd in range(1+int(os.environ.get('ADMIT','0'))):
        out = subprocess.run('cd %s/rocq && make -k -j%s COQC="timeout 400 coqc" 2>&1' % (SCR, os.environ.get('J','2')), shell=True, capture_output=True, text=True, errors='replace').stdout
        new=[]
        for mm in re.finditer(r'File "\./theories/(\w+)\.v", line (\d+)', out):
            around = out[mm.start():mm.start()+400]
            if 'Error' not in around: continue
            new.append((mm[1], lemma_at(SCR+'/rocq/theories/%s.v'%mm[1], int(mm[2]))))
        for mm in re.finditer(r'\*\*\* \[.*theories/(\w+)\.vo\] Error 124', out): new.append((mm[1], 'TIMEOUT'))
        new=[x for x in new if x not in fails]; fails += new
        if not new or rnd == int(os.environ.get('ADMIT','0')): break
        for f, n in new:
            q = SCR+'/rocq/theories/%s.v'%f; t = open(q).read()
            t = re.sub(r'((?:Theorem|Lemma|Example|Corollary)\s+'+re.escape(n or '?')+r'\b.*?)(Proof\..*?Qed\.)', lambda z: z[1]+'Proof. Admitted.', t, count=1, flags=re.S)
            open(q,'w').write(t)
    fails = sorted(set(fails))
    deps = dependents([('Verif.'+a, b) for a,b in fails])
    th = sorted(n for (l,n) in deps if n in CLAIMS)
    return dict(m, fails=['%s.%s'%f for f in fails], theorems=th)
os.makedirs(SCR, exist_ok=True)
for m in mutants.MUTANTS:
    if only and m['id'] not in only: continue
    r = run(m)
    with open(SCR+'/result.jsonl','a') as f: f.write(json.dumps(r)+'\n')
    print(r['id'], r.get('error') or ('SURVIVED' if not r['fails'] else r['fails']), len(r.get('theorems',[])), flush=True)
