"""Append mutation results (output of mutate.py) to seeded/LOG.jsonl.  usage: addlog.py results.jsonl [tightened.json]
tightened.json maps the edit text to the list of theorems tightened because of it."""
import json,sys
t=json.load(open(sys.argv[2])) if len(sys.argv)>2 else {}
with open('/verif/seeded/LOG.jsonl','a') as o:
    for l in open(sys.argv[1]):
        d=json.loads(l); m,r=d['m'],d['r']
        if r.get('error'): continue
        o.write(json.dumps({"definition":m['definition'],"file":m.get('file') or m['edits'][0][0],"edit":m['edit'],"old":m.get('old'),"new":m.get('new'),
          "claim":m['claim'],"theorems_failed":r['failed'],"theorems_tightened":t.get(m['edit'],[])})+'\n')
