import re,glob,json
props=[json.loads(l) for l in open('/verif/properties.jsonl')]
th={}
for f in sorted(glob.glob('/verif/rocq/theories/Props*.v')):
    for m in re.finditer(r'^Theorem\s+(C\d\d\d?)_(\w+)',open(f).read(),re.M):
        th.setdefault(m.group(1),[]).append(m.group(1)+'_'+m.group(2))
import os
notes={}
if os.path.exists('/verif/notes.json'): notes=json.load(open('/verif/notes.json'))
claims=[]
for p in props:
    i=p['id']; n=notes.get(i,{})
    if i in th:
        st=n.get('status','proved')
        claims.append(dict(property=i,status=st,theorems=th[i],note=n.get('note','')))
    elif n.get('status')=='not_applicable':
        claims.append(dict(property=i,status='not_applicable',theorems=[],note=n.get('note','')))
    else:
        claims.append(dict(property=i,status='partial',theorems=[],note='not proved yet'))
json.dump({'claims':claims},open('/verif/MANIFEST.json','w'),indent=1)
print(len([c for c in claims if c['theorems']]),'of',len(claims))
