#!/usr/bin/env python3
"""Seeded-bug runner.  usage: mutate.py mutants.json [jobs]

mutants.json: list of {"file","old","new","edit","claim"}; each is applied to a
scratch copy of rocq/, which is rebuilt.  A lemma whose proof no longer checks
is admitted in the scratch copy (never in /verif) so that the build can go on,
and the theorems in T_*.v whose Print Assumptions then mention an admitted
lemma are the theorems that failed.  One line per mutant is printed as JSON.
"""
import json, os, re, shutil, subprocess, sys, time
SRC = '/verif/rocq'
WORK = os.environ.get('MUT', '/tmp/mut')
jobs = sys.argv[2] if len(sys.argv) > 2 else '2'

def sh(cmd, timeout=3000):
    try:
        return subprocess.run(cmd, shell=True, capture_output=True, text=True, timeout=timeout).stdout
    except subprocess.TimeoutExpired as e:
        return (e.stdout or b'').decode() if isinstance(e.stdout, bytes) else (e.stdout or '')

def base():
    b = WORK + '/base'
    if not os.path.exists(b):
        os.makedirs(WORK, exist_ok=True)
        sh(f'mkdir -p {b} && cp -r {SRC}/_CoqProject {b}/ && mkdir {b}/theories && cp {SRC}/theories/*.v {b}/theories/')
        sh(f'cd {b} && coq_makefile -f _CoqProject -o Makefile && make -j4 >build.log 2>&1')
    return b

def admit_at(path, line):
    ls = open(path).read().split('\n')
    i = line - 1
    start = i
    while start >= 0 and not re.match(r'\s*(Lemma|Theorem|Example|Corollary|Fact|Fixpoint)\b', ls[start]):
        start -= 1
    if start < 0: return None
    name = re.match(r'\s*\w+\s+(\w+)', ls[start]).group(1)
    # statement ends where "Proof" begins
    p = start
    while p < len(ls) and 'Proof' not in ls[p]:
        p += 1
    if p >= len(ls) or p > i: return None
    q = p
    while q < len(ls) and not re.search(r'\b(Qed|Defined)\.\s*$', ls[q]):
        q += 1
    if q >= len(ls) : return None
    head = ls[p][:ls[p].index('Proof')]
    ls[p:q+1] = [head + 'Proof. Admitted.'] + [''] * (q - p)
    open(path, 'w').write('\n'.join(ls))
    return name

def run(m):
    b = base()
    w = WORK + '/run'
    shutil.rmtree(w, ignore_errors=True)
    sh(f'cp -a {b} {w}')
    path = f"{w}/theories/{m['file']}"
    s = open(path).read()
    if s.count(m['old']) < 1:
        return {'error': 'pattern not found', **m}
    s = s.replace(m['old'], m['new'], 1)
    open(path, 'w').write(s)
    began = time.time()
    admitted = []
    broken_files = []
    for it in range(60):
        out = sh(f'cd {w} && (ulimit -v 9000000; make -k -j{jobs} COQEXTRAFLAGS=\'-set "Default Timeout=200"\' 2>&1)', 3500)
        errs = re.findall(r'File "\./theories/(\w+\.v)", line (\d+), characters [\d-]+:\s*\nError', out)
        if not errs:
            break
        done = False
        seen = set()
        for f, line in errs:
            if f in seen or f in broken_files: continue
            seen.add(f)
            n = admit_at(f'{w}/theories/{f}', int(line))
            if n: admitted.append(n); done = True
            else: broken_files.append(f)
        if not done:
            break
    # recompile the T files to see assumptions
    failed = []
    for t in sorted(os.listdir(w + '/theories')):
        if re.match(r'T_\w+\.v$', t):
            vo = f'{w}/theories/{t}o'
            if os.path.exists(vo) and os.path.getmtime(vo) < began: continue   # not touched by the edit
            src = open(f'{w}/theories/{t}').read()
            ths = re.findall(r'^Print Assumptions (\w+)\.', src, re.M)
            out = sh(f'cd {w}/theories && coqc -Q . Verif {t} 2>&1')
            if 'Error' in out and not re.search(r'Closed|Axioms', out):
                failed.append(f'all of {t}'); continue
            parts = re.findall(r'(Closed under the global context|Axioms:\n(?:(?!Closed under|Axioms:).*\n?)*)', out)
            for th, p in zip(ths, parts):
                if p.startswith('Axioms'):
                    if any(re.search(r'\b%s\b' % a, p) for a in admitted): failed.append(th)
            if len(parts) < len(ths):
                failed += [f'(not built) {x}' for x in ths[len(parts):]]
    return {'definition': m.get('definition', m['file']), 'file': m['file'], 'edit': m['edit'], 'claim': m['claim'],
            'lemmas_broken': admitted, 'files_broken': broken_files, 'theorems_failed': failed}

if __name__ == '__main__':
    ms = json.load(open(sys.argv[1]))
    for m in ms[int(os.environ.get('PART', '0'))::int(os.environ.get('PARTS', '1'))]:
        r = run(m)
        print(json.dumps(r), flush=True)
