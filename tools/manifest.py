import json,re,glob
props=[json.loads(l)['id'] for l in open('/verif/properties.jsonl')]
notes=json.load(open('/verif/tools/notes.json'))
thms={}
for f in sorted(glob.glob('/verif/rocq/theories/Props*.v')):
    for m in re.finditer(r'^Theorem (C\d\d+)(\w*)',open(f).read(),re.M):
        thms.setdefault(m.group(1),[]).append(m.group(1)+m.group(2))
claims=[]
for p in props:
    if p in thms:
        t=thms[p]
        st='partial' if any(x.endswith('_partial') or x.endswith('_refuted') for x in t) else 'proved'
        claims.append({"property":p,"status":st,"theorems":t,"note":notes.get(p,"")})
    else:
        claims.append({"property":p,"status":"partial","theorems":[],"note":"not yet modelled"})
json.dump({"claims":claims},open('/verif/MANIFEST.json','w'),indent=1)
print(len(thms),"covered; missing:",[p for p in props if p not in thms])
