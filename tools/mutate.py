#!/usr/bin/env python3
"""Seeded-bug testing of the theorems.  usage: mutate.py FILE.json
FILE.json: list of {"file": "XModel", "old": "...", "new": "...", "definition": "...", "claim": "..."}.
Each edit is applied to a scratch copy of rocq/ (with compiled files), the copy is rebuilt; every lemma whose proof
breaks is replaced by Admitted and the build goes on, until everything compiles; the claimed theorems (C<number>_...) whose
Print Assumptions then mentions an admitted lemma are the theorems that failed.  One line per edit is printed (JSON)."""
import sys, json, os, re, subprocess, shutil
W = f'/tmp/mut/w{os.getpid()}'
SRC = f'/tmp/mut/src{os.getpid()}'
# a snapshot taken at the start, so that work can go on in /verif
subprocess.run(f'mkdir -p /tmp/mut; rm -rf {SRC}; cp -a /verif/rocq {SRC}', shell=True, check=True)
def sh(c, t=1800):
    p = subprocess.run(c, shell=True, cwd=W, stdout=subprocess.PIPE, stderr=subprocess.STDOUT, text=True, timeout=t)
    return p.returncode, p.stdout
def run(m):
    subprocess.run(f'rm -rf {W}; mkdir -p {W}; cp -a {SRC}/. {W}/', shell=True, check=True)
    sh('coq_makefile -f _CoqProject -o Makefile')
    f = f'{W}/theories/{m["file"]}.v'
    s = open(f).read()
    n = s.count(m['old'])
    if n != m.get('count', 1):
        return {'error': f'old occurs {n} times'}
    open(f, 'w').write(s.replace(m['old'], m['new']))
    admitted = []
    start = os.path.getmtime(f)
    for it in range(60):
        rc, out = sh('timeout 600 make -j4 2>&1')
        if rc == 0: break
        e = re.search(r'File "\./theories/(\w+)\.v", line (\d+), characters [\d-]+:\nError', out)
        if not e: return {'error': out[-800:]}
        g, ln = f'{W}/theories/{e.group(1)}.v', int(e.group(2))
        if e.group(1) == m['file']: return {'error': 'model does not compile: ' + out[-500:]}
        lines = open(g).read().split('\n')
        i = ln - 1
        while i >= 0 and not re.match(r'\s*(Lemma|Theorem|Example|Corollary|Fact|Remark|Let)\b', lines[i]): i -= 1
        name = re.match(r'\s*(?:Lemma|Theorem|Example|Corollary|Fact|Remark|Let)\s+(\w+)', lines[i]).group(1)
        if (e.group(1), name) in admitted: return {'error': f'stuck at {e.group(1)}.{name}', 'admitted': admitted}
        admitted.append((e.group(1), name))
        text = '\n'.join(lines[:i]); rest = '\n'.join(lines[i:])
        mm = re.search(r'\bProof\b.*?\b(Qed|Defined)\.', rest, re.S)
        rest = rest[:mm.start()] + 'Proof. Admitted.' + '\n' * mm.group(0).count('\n') + rest[mm.end():]
        open(g, 'w').write(text + '\n' + rest)
    names = {a[1] for a in admitted}
    failed = []
    for p in sorted(os.listdir(f'{W}/theories')):
        if not p.endswith('Props.v'): continue
        if not admitted: break
        mod = p[:-2]
        if not os.path.exists(f'{W}/theories/{mod}.vo') or os.path.getmtime(f'{W}/theories/{mod}.vo') < start: continue   # not rebuilt: does not depend on the edit
        th = re.findall(r'^Theorem (C\d+_\w+)', open(f'{W}/theories/{p}').read(), re.M)
        open(f'{W}/pa.v', 'w').write(f'From Verif Require Import {mod}.\n' + ''.join(f'Print Assumptions {t}.\n' for t in th))
        rc, out = sh('coqc -Q theories Verif pa.v 2>&1')
        parts = re.split(r'(?=^Axioms:|^Closed under)', out, flags=re.M)[1:]
        for t, q in zip(th, parts):
            ax = set(x.split('.')[-1] for x in re.findall(r'^([\w.]+)\s*:', q, re.M))
            if t in names or ax & names: failed.append(t)
    return {'theorems_failed': failed, 'lemmas_broken': [a[1] for a in admitted]}
ms = json.load(open(sys.argv[1]))
for m in ms:
    try: r = run(m)
    except Exception as ex: r = {'error': repr(ex)}
    print(json.dumps({'definition': m['definition'], 'edit': m['edit'], 'claim': m['claim'], **r, 'theorems_tightened': []}), flush=True)
