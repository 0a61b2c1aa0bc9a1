#!/usr/bin/env python3
"""Regenerate MANIFEST.json and the file list of rocq/_CoqProject.
Statuses and notes are in tools/notes.json; theorem names are collected from T_*.v."""
import re, glob, os, json
root = os.path.join(os.path.dirname(os.path.abspath(__file__)), '..')
th = os.path.join(root, 'rocq', 'theories')
names = {}
for p in sorted(glob.glob(os.path.join(th, 'T_*.v'))):
    for m in re.finditer(r'^Theorem ((C\d\d+)_\w+)', open(p).read(), re.M):
        names.setdefault(m.group(2), []).append(m.group(1))
notes = json.load(open(os.path.join(root, 'tools', 'notes.json')))
claims = []
for l in open(os.path.join(root, 'properties.jsonl')):
    pid = json.loads(l)['id']
    if pid in names or notes.get(pid, {}).get('status') == 'not_applicable':
        n = notes.get(pid)
        if n is None:
            print("no note for", pid); n = {'status': 'partial', 'note': ''}
        claims.append({'property': pid, 'status': n['status'], 'theorems': names.get(pid, []), 'note': n['note']})
    else:
        print("no theorem for", pid)
json.dump({'claims': claims}, open(os.path.join(root, 'MANIFEST.json'), 'w'), indent=1)
cp = os.path.join(root, 'rocq', '_CoqProject')
new = "-Q theories Verif\n" + "".join("theories/%s\n" % os.path.basename(f) for f in sorted(glob.glob(os.path.join(th, '*.v'))))
open(cp, 'w').write(new)
