#!/usr/bin/env python3
"""Lists the axioms of every property theorem (Print Assumptions) and writes the section of DESIGN.md between the markers."""
import collections, glob, os, re, subprocess, tempfile
ROOT = os.path.join(os.path.dirname(os.path.abspath(__file__)), '..')
names = []
for path in sorted(glob.glob(os.path.join(ROOT, 'rocq/theories/Props/*.v'))):
    mod = os.path.basename(path)[:-2]
    for m in re.finditer(r'^(?:Theorem|Corollary) (\w+)', open(path).read(), re.M):
        names.append((mod, m.group(1)))
mods = sorted({m for m, _ in names})
src = ''.join(f'From Verif.Props Require {m}.\n' for m in mods)
for m, n in names:
    src += f'Goal True. idtac "@@ {n}". exact I. Qed.\nPrint Assumptions Verif.Props.{m}.{n}.\n'
with tempfile.TemporaryDirectory() as d:
    f = os.path.join(d, 'A.v')
    open(f, 'w').write(src)
    out = subprocess.run(['coqc', '-Q', os.path.join(ROOT, 'rocq/theories'), 'Verif', f], capture_output=True, text=True)
    if out.returncode:
        raise SystemExit(out.stderr)
groups = collections.OrderedDict()
for part in out.stdout.split('@@ ')[1:]:
    name, rest = part.split('\n', 1)
    axioms = tuple(sorted(set(re.findall(r'^([A-Za-z_][\w.]*)\s*$|^([A-Za-z_][\w.]*) :', rest, re.M)) - {('', 'Axioms')}))
    axioms = tuple(sorted({a or b for a, b in axioms} - {'Axioms', 'Closed'}))
    groups.setdefault(axioms, []).append(name.strip())
lines = [f'{sum(map(len, groups.values()))} theorems.', '']
for ax, ns in sorted(groups.items(), key=lambda g: len(g[0])):
    lines.append('* ' + ('Closed under the global context (no axioms)' if not ax else ', '.join(f'`{a}`' for a in ax)) + f' — {len(ns)} theorems: ' + ', '.join(f'`{n}`' for n in sorted(ns)) + '.')
text = '\n'.join(lines)
path = os.path.join(ROOT, 'DESIGN.md')
s = open(path).read()
a, b = '<!-- assumptions -->', '<!-- end assumptions -->'
s = s[:s.index(a) + len(a)] + '\n' + text + '\n' + s[s.index(b):]
open(path, 'w').write(s)
for ax, ns in groups.items():
    print(len(ns), ax)
