#!/usr/bin/env python3
"""Writes /verif/ASSUMPTIONS.md: what Print Assumptions lists for every theorem of MANIFEST.json.
Needs the compiled development in /verif/rocq/theories."""
import json, re, subprocess, os, tempfile, collections
root = os.path.dirname(os.path.dirname(os.path.abspath(__file__)))
th = os.path.join(root, 'rocq', 'theories')
mods = [os.path.basename(l.strip())[:-2] for l in open(os.path.join(root, 'rocq', '_CoqProject')) if l.strip().endswith('.v')]
where = {}
for m in mods:
    for l in open(os.path.join(th, m + '.v')):
        r = re.match(r'\s*(?:Theorem|Lemma|Corollary)\s+(C\d\d_\w+)', l)
        if r: where[r.group(1)] = m
claims = json.load(open(os.path.join(root, 'MANIFEST.json')))['claims']
names = [t for c in claims for t in c['theorems']]
src = 'From Verif Require ' + ' '.join(mods) + '.\n'
for n in names:
    b = n.split('.')[-1]
    src += 'Goal True. idtac "@@ %s". exact I. Qed.\nPrint Assumptions Verif.%s.%s.\n' % (b, where[b], b)
d = tempfile.mkdtemp()
open(d + '/pa.v', 'w').write(src)
out = subprocess.run(['coqc', '-Q', th, 'Verif', 'pa.v'], cwd=d, capture_output=True, text=True)
if out.returncode: raise SystemExit(out.stderr[-2000:])
res, cur = collections.OrderedDict(), None
for l in out.stdout.splitlines():
    if l.startswith('@@ '): cur = l[3:].strip(); res[cur] = []
    elif l.startswith('Closed under') or l.startswith('Axioms:') or l.startswith(' ') or not l.strip(): pass
    else:
        r = re.match(r'([\w.]+)\s*(:|$)', l)
        if r: res[cur].append(r.group(1))
groups = collections.OrderedDict()
for n, ax in res.items(): groups.setdefault(tuple(sorted(ax)), []).append(n)
with open(os.path.join(root, 'ASSUMPTIONS.md'), 'w') as f:
    f.write('# What `Print Assumptions` lists for each theorem\n\nGenerated by `tools/assumptions.py` (%d theorems).\n' % len(res))
    for ax, ns in sorted(groups.items(), key=lambda g: len(g[0])):
        f.write('\n## ' + ('Closed under the global context (no axiom)' if not ax else ', '.join('`%s`' % a for a in ax)) + '\n\n')
        f.write(', '.join('`%s`' % n for n in ns) + '\n')
print(len(res), len(names), [(len(a), len(b)) for a, b in groups.items()])
