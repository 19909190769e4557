"""usage: props.py file.json   where file.json = {"restate": {id: statement}, "add": [property objects]}; edits properties.jsonl"""
import json,sys
j=json.load(open(sys.argv[1]))
ps=[json.loads(l) for l in open('/verif/properties.jsonl')]
ids={p['id'] for p in ps}
for p in ps:
    if p['id'] in j.get('restate',{}): p['statement']=j['restate'][p['id']]
    for a in j.get('add',[]):
        if a['id']==p['id']: p.update(a)
for a in j.get('add',[]):
    if a['id'] not in ids:
        assert set(a)=={'id','title','statement','quantifier','why_tests_cant','anchors'},a
        ps.append(a)
open('/verif/properties.jsonl','w').write(''.join(json.dumps(p)+'\n' for p in ps))
