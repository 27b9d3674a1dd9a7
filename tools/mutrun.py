#!/usr/bin/env python3
"""mutrun.py muts.json : for each {def,file,old,new,nth,claim,props} mutate, make -k, collect failures."""
import sys,json,subprocess,os,re,shutil
src='/root/work/mutbase/rocq'; dst='/root/work/mut/rocq'
muts=json.load(open(sys.argv[1])); out=sys.argv[2]
def enclosing(path,line):
    name='?'
    for i,l in enumerate(open(path),1):
        m=re.match(r'\s*(?:Local |Global )?(Lemma|Theorem|Example|Corollary|Definition|Fixpoint|Fact|Remark|Instance) (\w+)',l)
        if m: name=m.group(2)
        if i>=line: break
    return name
for mu in muts:
    os.makedirs(dst,exist_ok=True)
    subprocess.run(['rsync','-a','--delete',src+'/',dst+'/']) if shutil.which('rsync') else (shutil.rmtree(dst),shutil.copytree(src,dst))
    p=f"{dst}/theories/{mu['file']}"
    s=open(p).read()
    m=re.search(r'^(?:Definition|Fixpoint|Function|Inductive) '+re.escape(mu['def'])+r'\b',s,re.M)
    a=m.start(); b=re.search(r'\.\s*\n\s*\n|\.\n(?=\(\*\*|Definition|Fixpoint|Lemma|Theorem)|\Z',s[a:]).end()+a
    body=s[a:b]; idx=-1
    for _ in range(mu.get('nth',1)):
        idx=body.find(mu['old'],idx+1)
        assert idx>=0,(mu,body)
    body=body[:idx]+mu['new']+body[idx+len(mu['old']):]
    open(p,'w').write(s[:a]+body+s[b:])
    subprocess.run('coq_makefile -f _CoqProject -o Makefile',shell=True,cwd=dst,capture_output=True)
    r=subprocess.run('timeout 1500 make -k -j2 2>&1',shell=True,cwd=dst,capture_output=True,text=True)
    fails=[]
    for mm in re.finditer(r'File "\./?(theories/\w+\.v)", line (\d+)[^\n]*\n(Error)?',r.stdout):
        if mm.group(3): fails.append(enclosing(dst+'/'+mm.group(1),int(mm.group(2))))
    built={f[:-3] for f in os.listdir(dst+'/theories') if f.endswith('.vo')}
    want=[l.strip()[9:-2] for l in open(dst+'/_CoqProject') if l.strip().endswith('.v')]
    # stale vo detection: newer than mutated file
    t=os.path.getmtime(p)
    notbuilt=[w for w in want if not (os.path.exists(f'{dst}/theories/{w}.vo') and os.path.getmtime(f'{dst}/theories/{w}.vo')>t) and w!=mu['file'][:-2]]
    order=want.index(mu['file'][:-2])
    notbuilt=[w for w in notbuilt if want.index(w)>order]
    rec={'definition':mu['def'],'file':mu['file'],'edit':f"{mu['old']} -> {mu['new']}"+(f" (occurrence {mu['nth']})" if mu.get('nth',1)>1 else ''),
         'claim':mu['claim'],'failed':fails,'unbuilt':notbuilt,'rc':r.returncode}
    open(out,'a').write(json.dumps(rec)+'\n')
    print(rec,flush=True)
