import json,re,glob
thms={}
for f in sorted(glob.glob('/verif/rocq/theories/Properties*.v')):
    for n in re.findall(r'^Theorem (C\d\d_\w+)',open(f).read(),re.M):
        thms.setdefault(n[:3],[]).append(n)
notes=json.load(open('/verif/scripts/notes.json'))
props=[json.loads(l)['id'] for l in open('/verif/properties.jsonl')]
claims=[]
for p in props:
    n=notes.get(p,{})
    st=n.get('status','proved' if p in thms else 'partial')
    claims.append({"property":p,"status":st,"theorems":thms.get(p,[]),"note":n.get('note','')})
json.dump({"claims":claims},open('/verif/MANIFEST.json','w'),indent=1)
for c in claims: print(c['property'],c['status'],c['theorems'])
