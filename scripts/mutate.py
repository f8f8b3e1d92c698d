#!/usr/bin/env python3
"""Seeded-bug runner. usage: mutate.py mutants.json [ids...]
Each mutant: {id, file, definition, old, new, count(optional), edit, claim, expect}
Copies /verif/rocq (with compiled files) to a scratch directory, applies the
edit to the model, rebuilds with make -k and records what fails."""
import json,os,re,subprocess,sys,shutil,time
muts=json.load(open(sys.argv[1])); want=set(sys.argv[2:])
LOG='/verif/seeded/LOG.jsonl'
done=set()
if os.path.exists(LOG):
    done={json.loads(l).get('id') for l in open(LOG) if l.strip()}
S=os.environ.get('SCRATCH','/tmp/mut')
def lemma(path,line):
    name='?'
    for i,l in enumerate(open(path)):
        if i+1>line: break
        m=re.match(r'\s*(?:Local |Global |#\[.*\] )?(Lemma|Theorem|Corollary|Example|Fact|Definition|Fixpoint|Instance|Goal)\s+([\w\']+)?',l)
        if m and (m.group(1) not in('Definition','Fixpoint') or i+1==line): name=m.group(2) or 'Goal'
    return name
def deps():
    out=subprocess.run(['coqdep','-f','_CoqProject'],cwd=S+'/rocq',capture_output=True,text=True).stdout
    d={}
    for l in out.splitlines():
        m=re.match(r'theories/(\w+)\.vo .*?: (.*)',l)
        if m: d[m.group(1)]=set(re.findall(r'theories/(\w+)\.vo\b',m.group(2)))-{m.group(1)}
    return d
for m in muts:
    if want and m['id'] not in want: continue
    if not want and m['id'] in done: continue
    shutil.rmtree(S,ignore_errors=True); os.makedirs(S)
    subprocess.run(['cp','-a',os.environ.get('SRC','/verif/rocq'),S+'/rocq'],check=True)
    f=S+'/rocq/theories/'+m['file']; t=open(f).read()
    d=t.index(m['definition_text']) if 'definition_text' in m else re.search(r'(Definition|Fixpoint) '+re.escape(m['definition'])+r'\b',t).start()
    i=t.index(m['old'],d)
    nxt=re.search(r'\n(Definition|Fixpoint) ',t[d+5:])
    if nxt and 'definition_text' not in m: assert i<d+5+nxt.start(), ('outside',m['id'])
    t=t[:i]+m['new']+t[i+len(m['old']):]
    open(f,'w').write(t)
    t0=time.time()
    subprocess.run('coq_makefile -f _CoqProject -o Makefile',shell=True,cwd=S+'/rocq',stdout=subprocess.DEVNULL)
    r=subprocess.run("ulimit -v 8000000; timeout 1500 make -k -j%s COQC='timeout 200 coqc'"%os.environ.get('J','3'),shell=True,cwd=S+'/rocq',capture_output=True,text=True)
    txt=r.stdout+r.stderr
    failed=[]; files=set()
    for mm in re.finditer(r'File "\./theories/(\w+)\.v", line (\d+)[^\n]*\nError',txt):
        files.add(mm.group(1)); failed.append(mm.group(1)+'.'+lemma(S+'/rocq/theories/'+mm.group(1)+'.v',int(mm.group(2))))
    for mm in re.finditer(r'theories/(\w+)\.vo\] (?:Error|Terminated)',txt):
        if mm.group(1) not in files: files.add(mm.group(1)); failed.append(mm.group(1)+'.(proof does not finish)')
    dp=deps(); bad=set(files); ch=True
    while ch:
        ch=False
        for k,v in dp.items():
            if k not in bad and v&bad: bad.add(k); ch=True
    thms=[]
    for k in sorted(bad):
        if k.startswith('Properties'):
            for mm in re.finditer(r'^Theorem (C\d\d\w*)',open(S+'/rocq/theories/%s.v'%k).read(),re.M): thms.append(mm.group(1))
    claims=re.findall(r'C\d\d',m['claim'])
    tf=[x for x in thms if x[:3] in claims]
    ent=dict(id=m['id'],definition=m['file'][:-2]+'.'+m['definition'],edit=m['edit'],claim=m['claim'],
        theorems_failed=sorted(set(failed))+tf, theorems_tightened=m.get('tightened',[]),
        outcome='killed' if failed else 'SURVIVED',seconds=round(time.time()-t0))
    with open(os.environ.get('LOGOUT',LOG),'a') as g: g.write(json.dumps(ent)+'\n')
    print(m['id'],ent['outcome'],sorted(set(failed)),ent['seconds'],'s',flush=True)
