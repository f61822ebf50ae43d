import json,re,glob
# theorem names by property prefix, from Props files
th={}
for f in sorted(glob.glob('/verif/rocq/theories/Props*.v')):
    for m in re.finditer(r'^Theorem\s+(C\d\d\d?)_(\w+)',open(f).read(),re.M):
        th.setdefault(m.group(1),[]).append(m.group(1)+'_'+m.group(2))
notes=json.load(open('/verif/tools/notes.json'))
props=[json.loads(l)['id'] for l in open('/verif/properties.jsonl')]
claims=[]
for p in props:
    if p in th:
        st,n=notes.get(p,['proved',''])
        claims.append(dict(property=p,status=st,theorems=th[p],note=n))
json.dump({'claims':claims},open('/verif/MANIFEST.json','w'),indent=1)
print(len(claims),'claims; missing',[p for p in props if p not in th])
