#!/usr/bin/env python3
# Lists, for every theorem of the Properties*.v files, what Print Assumptions says; writes ASSUMPTIONS.md.
# Needs the built rocq directory.
import glob, os, re, subprocess, tempfile, collections
T = '/verif/rocq/theories'
groups = collections.defaultdict(list)
for v in sorted(glob.glob(T + '/Properties*.v')):
    names = re.findall(r'^Print Assumptions (\w+)\.', open(v).read(), re.M)
    with tempfile.TemporaryDirectory() as d:
        out = subprocess.run(['coqc', '-Q', T, 'Verif', '-o', d + '/' + os.path.basename(v) + 'o', v],
                             capture_output=True, text=True).stdout
    parts = re.split(r'^(?=Axioms:|Closed under the global context)', out, flags=re.M)[1:]
    assert len(parts) == len(names), (v, len(parts), len(names))
    for n, p in zip(names, parts):
        axioms = tuple(sorted(re.findall(r'^(\S+)\s*(?::|$)', p.split('\n', 1)[1] if '\n' in p else '', re.M)))
        groups[axioms].append(n)
with open('/verif/ASSUMPTIONS.md', 'w') as o:
    o.write('# What Print Assumptions lists for each theorem\n\nWritten by `scripts/assumptions.py`.\n')
    for axioms in sorted(groups, key=lambda a: (len(a), a)):
        o.write('\n## %s\n\n' % ('Closed under the global context' if not axioms else ', '.join('`%s`' % a for a in axioms)))
        o.write(', '.join(sorted(groups[axioms])) + '\n')
for a, ns in groups.items(): print(len(ns), a)
