#!/usr/bin/env python3
"""Generate the T_*.v files: for each P_<name>T.v every `Lemma Cnn_..._proof : stmt.`
becomes `Theorem Cnn_... : stmt. Proof. exact Cnn_..._proof. Qed.` followed by
Print Assumptions (Example for names containing _example)."""
import re, sys, glob, os
d = os.path.join(os.path.dirname(os.path.abspath(__file__)), '..', 'rocq', 'theories')
for p in sorted(glob.glob(os.path.join(d, 'P_*T.v'))):
    base = os.path.basename(p)[:-2]
    s = open(p).read()
    imports = re.search(r'^From Coq.*?(?=^Lemma|^Definition|^\(\*\*)', s[s.index('From Coq'):], re.S | re.M).group(0).rstrip()
    imports = re.sub(r'(From Verif Require Import [^.]*)\.', r'\1 ' + base + '.', imports, count=1)
    out = ["(** Property theorems (generated from %s.v by tools/gen_theorems.py). *)" % base, imports, ""]
    for m in re.finditer(r'((?:\(\*\*(?:(?!\*\)).)*\*\)\s*\n)?)Lemma (C\d\d\w*)_proof\s*:(.*?)\.\s*\nProof\.', s, re.S):
        c, name, stmt = m.groups()
        kw = 'Example' if '_example' in name else 'Theorem'
        if c: out.append(c.rstrip())
        out.append("%s %s :%s." % (kw, name, stmt))
        out.append("Proof. exact %s_proof. Qed." % name)
        if kw == 'Theorem': out.append("Print Assumptions %s." % name)
        out.append("")
    t = os.path.join(d, 'T_' + base[2:-1] + '.v')
    new = "\n".join(out)
    if not os.path.exists(t) or open(t).read() != new:
        open(t, 'w').write(new)
        print("wrote", os.path.basename(t))
