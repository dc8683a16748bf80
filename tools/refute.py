#!/usr/bin/env python3
"""refute.py SCRATCH MUTANT FILE: apply one mutant of mutants.py to the model in a scratch copy, build the model, the vocabulary
(Spec, Rules) and the demo worlds - no proofs about the model - and compile FILE there.  In FILE, a line
  (*CLAIM theorem file*)   becomes  Definition theorem_claim : Prop := <the statement of that theorem>.
  (*DEF name file*)        becomes  the definition of that name.
So FILE can prove [~ theorem_claim]: the statement of the theorem is false of the wrong program."""
import sys,os,re,shutil,subprocess
sys.path.insert(0,os.path.dirname(os.path.abspath(__file__)))
import mutants
LIGHT=[a for a in sys.argv if a.startswith("--light")]   # --light: without both good demo runs, --light1: without the second
sys.argv=[a for a in sys.argv if not a.startswith("--light")]
T="/verif/rocq/theories/"
FILES=sys.argv[4].split(',') if len(sys.argv)>4 else ["Base","GoTypes","Prog","ManagerModel","SwapperModel","Spec","Rules","ExecLemmas","Demo","Worlds"]
def claim(name,f):
    s=open(T+f+".v").read()
    m=re.search(r"^Theorem "+name+r"\b(.*?)\.\s*\nProof",s,re.S|re.M)
    body=m.group(1)
    # split binders from the statement at the first top-level ':'
    depth=0
    for i,c in enumerate(body):
        if c in '({[': depth+=1
        elif c in ')}]': depth-=1
        elif c==':' and depth==0 and body[i:i+2]!=':=': break
    b,st=body[:i].strip(),body[i+1:].strip()
    return f"Definition {name}_claim : Prop := "+(f"forall {b}, " if b else "")+st+"."
def define(name,f):
    s=open(T+f+".v").read()
    m=re.search(r"^(Definition|Fixpoint|Record|Inductive|Notation) "+re.escape(name)+r"\b.*?\.(?=\s*\n(?:\(\*|Definition|Lemma|Theorem|Fixpoint|Record|Inductive|Notation|Arguments|\n|Example|Section|End|#))",s,re.S|re.M)
    return m.group(0)
def light(text,gone):
    """drop what talks about the two good demo runs (a wrong program may not have them) and what depends on that"""
    items=re.split(r"(?m)^(?=(?:Definition|Lemma|Example|Theorem|Global Opaque|Fixpoint|Record|Local Open|From|#|\(\*\*))",text)
    out=[]
    for it in items:
        words=set(re.findall(r"[A-Za-z_][\w']*",re.sub(r"\(\*.*?\*\)","",it,flags=re.S)))
        if words&gone:
            m=re.match(r"(?:Definition|Lemma|Example|Theorem)\s+([\w']+)",it)
            if m: gone.add(m[1])
            m=re.match(r"Global Opaque (.*?)\.",it)
            if m: out.append("Global Opaque "+" ".join(x for x in m[1].split() if x not in gone)+".\n" if set(m[1].split())-gone else "")
        else: out.append(it)
    return "".join(out)
def main(scratch,mid,src):
    d=os.path.join(scratch,mid); os.makedirs(d,exist_ok=True)
    mu=None
    if mid!='none':
        mu=[m for m in mutants.MUTANTS if m['id']==mid][0] if isinstance(mutants.MUTANTS[0],dict) else [m for m in mutants.MUTANTS if m[0]==mid][0]
    if not os.path.exists(d+"/OK"):
        gone={'run0','run1'} if '--light' in LIGHT else {'run1'}
        for f in FILES:
            shutil.copy(T+f+".v",d)
            if LIGHT and f in ('Demo','Worlds'):
                x=light(open(d+"/"+f+".v").read(),gone); open(d+"/"+f+".v",'w').write(x)
        if mu:
            mf,old,new=(mu['file'],mu['old'],mu['new']) if isinstance(mu,dict) else (mu[1],mu[3],mu[4])
            p=os.path.join(d,mf); s=open(p).read(); assert s.count(old)==1,(mid,s.count(old)); open(p,'w').write(s.replace(old,new))
        for f in FILES:
            r=subprocess.run(["timeout","300","coqc","-Q",d,"Verif",d+"/"+f+".v"],capture_output=True,text=True)
            if r.returncode: print(f,r.stdout[-500:],r.stderr[-1500:]); return 1
        open(d+"/OK",'w').write('')
    pre=os.path.join(os.path.dirname(os.path.abspath(src)),'prelude.txt')
    s=(open(pre).read() if os.path.exists(pre) else '')+open(src).read()
    s=re.sub(r"\(\*CLAIM (\S+) (\S+?)\*\)",lambda m:claim(m.group(1),m.group(2)),s)
    s=re.sub(r"\(\*DEF (\S+) (\S+?)\*\)",lambda m:define(m.group(1),m.group(2)),s)
    p=os.path.join(d,"F.v"); open(p,'w').write(s)
    r=subprocess.run(["timeout","300","coqc","-Q",d,"Verif",p],capture_output=True,text=True)
    print(mid,"refuted" if r.returncode==0 else "FAILED"); print(r.stdout[-3000:],r.stderr[-3000:])
    return r.returncode
if __name__=="__main__": sys.exit(main(*sys.argv[1:4]))
