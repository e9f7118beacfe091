#!/usr/bin/env python3
"""Rewrite the list of assumptions per theorem at the end of DESIGN.md (needs a finished build of rocq/)."""
import glob, os, re, subprocess
from multiprocessing.pool import ThreadPool
os.chdir(os.path.join(os.path.dirname(__file__), '..', 'rocq', 'theories'))
groups = {}
def output(f):
    return subprocess.run(['coqc', '-Q', '.', 'Verif', f, '-o', '/tmp/%s.vo' % f[:-2]], capture_output=True, text=True).stdout
files = sorted(glob.glob('*Props.v'))
for f, out in zip(files, ThreadPool(3).map(output, files)):
    names = re.findall(r'^Print Assumptions (\w+)\.', open(f).read(), re.M)
    blocks = re.split(r'^(?=Closed under|Axioms:)', out, flags=re.M)
    blocks = [b for b in blocks if b.startswith(('Closed', 'Axioms:'))]
    assert len(blocks) == len(names), f
    for n, b in zip(names, blocks):
        ax = tuple(sorted(re.findall(r'^([A-Z]\w*\.\w+)', b, re.M)))
        groups.setdefault(ax, []).append(n)
text = []
for ax, ns in sorted(groups.items()):
    text.append('* ' + (', '.join('`%s`' % a for a in ax) if ax else '**closed under the global context** (no axioms)') + ' - %d theorems:\n  ' % len(ns) + ', '.join(sorted(ns)) + '\n')
os.chdir('../..')
d = open('DESIGN.md').read()
head = d.split('<!-- assumptions -->')[0]
open('DESIGN.md', 'w').write(head + '<!-- assumptions -->\n' + '\n'.join(text))
