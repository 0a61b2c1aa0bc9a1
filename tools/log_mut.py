#!/usr/bin/env python3
"""log_mut.py OUT [TIGHT.json]: append the results of mutate.py to seeded/LOG.jsonl.
TIGHT.json maps "definition|edit" to the list of theorems tightened because of it."""
import json,sys,os
out='/verif/seeded/LOG.jsonl'
tight=json.load(open(sys.argv[2])) if len(sys.argv)>2 else {}
seen=set()
if os.path.exists(out):
    for l in open(out):
        d=json.loads(l); seen.add((d['definition'],d['edit'],d['file']))
n=0
with open(out,'a') as o:
    for l in open(sys.argv[1]):
        try: d=json.loads(l)
        except ValueError: print('skip',l[:120]); continue
        if (d['definition'],d['edit'],d['file']) in seen: continue
        t=tight.get(d['definition']+'|'+d['edit'],[])
        o.write(json.dumps({"definition":d['definition'],"file":d['file'],"edit":d['edit'],"claim":d['claim'],
          "theorems_failed":d['theorems_failed'],"lemmas_broken":d['lemmas_broken'],"theorems_tightened":t})+"\n"); n+=1
print('added',n)
