#!/usr/bin/env python3
"""add_note.py ID STATUS NOTE: record a manifest note."""
import json,sys
p='/verif/tools/notes.json'
n=json.load(open(p))
n[sys.argv[1]]={"status":sys.argv[2],"note":sys.argv[3]}
n=dict(sorted(n.items(),key=lambda k:int(k[0][1:])))
json.dump(n,open(p,'w'),indent=0)
