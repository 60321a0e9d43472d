#!/usr/bin/env python3
"""seed.py file old new [--nth k]: apply mutation in a scratch copy, rebuild admitting broken lemmas,
report broken lemmas and theorems depending on them."""
import sys,os,re,subprocess,shutil,json
def run(name, edits, verbose=True):
    src=os.environ.get('SEED_SRC','/verif/rocq'); dst=os.environ.get('SEED_DST','/tmp/seedwork')
    if not os.path.exists(dst): shutil.copytree(src,dst)
    else: subprocess.run(['rsync','-a','--delete',src+'/',dst+'/']) if shutil.which('rsync') else (shutil.rmtree(dst),shutil.copytree(src,dst))
    th=dst+'/theories/'
    touched=set()
    for f,old,new in edits:
        p=th+f; s=open(p).read()
        assert s.count(old)==1,(f,s.count(old),old)
        open(p,'w').write(s.replace(old,new)); touched.add(f)
    order=[l.strip().split('/')[-1] for l in open(dst+'/_CoqProject') if l.strip().endswith('.v')]
    # dependency
    deps={}
    for f in order:
        s=open(th+f).read()
        deps[f]=set()
        for m in re.finditer(r'From Verif Require (?:Import |Export )?([^.]*)\.(?=\s)',s):
            for x in m.group(1).split(): deps[f].add(x+'.v')
    # topological
    done=[];seen=set()
    def visit(f):
        if f in seen: return
        seen.add(f)
        for d in deps[f]: 
            if d in deps: visit(d)
        done.append(f)
    for f in order: visit(f)
    dirty=set(touched); broken=[]; bad=[]
    bt=[];be=[]
    for f in done:
        if f not in dirty and not (deps[f]&dirty): continue
        dirty.add(f)
        if deps[f]&set(bad): bad.append(f); continue
        for it in range(60):
            try:
                r=subprocess.run(['timeout','600','coqc','-Q','.','Verif',f],cwd=th,capture_output=True,text=True)
            except Exception as e: print(e); sys.exit(1)
            if r.returncode==0: break
            m=re.search(r'File "\./?%s", line (\d+), characters (\d+)'%re.escape(f),r.stderr)
            if not m: bad.append(f); print('NOLOC',f,r.stderr[-400:],r.returncode); break
            ln=int(m.group(1)); s=open(th+f).read(); lines=s.split('\n')
            pos=sum(len(x)+1 for x in lines[:ln-1])+int(m.group(2))
            # find enclosing Proof
            starts=[x for x in re.finditer(r'^(?:Local )?(Lemma|Theorem|Example|Corollary|Remark|Fact) (\w+)',s,re.M) if x.start()<=pos]
            if not starts: bad.append(f); print('STMT',f,r.stderr[-300:]); break
            st=starts[-1]; nm=st.group(2); kind=st.group(1)
            pm=re.compile(r'\bProof\b.*?\b(Qed|Defined)\.',re.S).search(s,st.start())
            if not pm or pos<pm.start(): 
                bad.append(f); print('STMT',f,nm,r.stderr[-300:]); break
            if pos>pm.end(): bad.append(f); print('AFTER',f,nm,r.stderr[-300:]); break
            broken.append((kind,f,nm))
            s=s[:pm.start()]+'Proof. Admitted.'+s[pm.end():]
            open(th+f,'w').write(s)
        if f.startswith('Properties') and f not in bad:
            # parse print assumptions
            s=open(th+f).read()
            names=re.findall(r'^Print Assumptions (\w+)\.',s,re.M)
            outs=re.split(r'(?m)^(?=Closed under|Axioms:)',r.stdout)
            outs=[o for o in outs if o.startswith(('Closed','Axioms'))]
            if len(outs)!=len(names): print('mismatch',f,len(outs),len(names))
            for n,o in zip(names,outs):
                if o.startswith('Axioms'): bt.append(n)
    be=[n for k,f,n in broken if k=='Example']
    print(json.dumps({'name':name,'broken_lemmas':[n for k,f,n in broken if k!='Example'],'theorems':bt,'examples':be,'bad':bad}))
    return bt,be,bad
if __name__=='__main__':
    run('cli',[(sys.argv[1],sys.argv[2],sys.argv[3])])
