import json,re,glob
# property -> (status, note); theorem lists are collected from names cNN_*
meta=json.load(open('/tmp/meta.json'))
thms={}
for f in sorted(glob.glob('/verif/rocq/theories/P_*.v')):
    for m in re.finditer(r'^Theorem\s+(c(\d+)_\w+)',open(f).read(),re.M):
        thms.setdefault('C'+m.group(2),[]).append(m.group(1))
claims=[]
props=[json.loads(l) for l in open('/verif/properties.jsonl')]
for p in props:
    i=p['id']
    if i in thms:
        st,note=meta.get(i,("proved",""))
        claims.append(dict(property=i,status=st,theorems=thms[i],note=note))
json.dump({"claims":claims},open('/verif/MANIFEST.json','w'),indent=1)
print(len(claims), [i for i in thms if i not in [p['id'] for p in props]], [p['id'] for p in props if p['id'] not in thms])
for i in thms:
    has=any(t.endswith('_partial') or t.endswith('_refuted') for t in thms[i])
    if i not in meta: print("no meta",i)
