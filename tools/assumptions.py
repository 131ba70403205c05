"""Print Assumptions for every theorem of MANIFEST.json, as a table for DESIGN.md.
Needs a built rocq/ directory.  Writes the part of DESIGN.md between the markers."""
import json, os, re, subprocess, sys
root = os.path.dirname(os.path.dirname(os.path.abspath(__file__)))
th = os.path.join(root, 'rocq', 'theories')
claims = json.load(open(os.path.join(root, 'MANIFEST.json')))['claims']
props = {json.loads(l)['id']: json.loads(l) for l in open(os.path.join(root, 'properties.jsonl'))}
where = {}
for f in sorted(os.listdir(th)):
    if f.startswith('Props') and f.endswith('.v'):
        for m in re.finditer(r'^Theorem (C\d+_\w+)', open(os.path.join(th, f)).read(), re.M):
            where[m.group(1)] = f[:-2]
names = [t for c in claims for t in c['theorems']]
src = ''.join('From Verif Require %s.\n' % m for m in sorted(set(where.values())))
for t in names:
    src += 'Goal True. idtac "@@ %s". exact I. Qed.\nPrint Assumptions Verif.%s.%s.\n' % (t, where[t], t)
tmp = sys.argv[1] if len(sys.argv) > 1 else '/tmp/pa'
os.makedirs(tmp, exist_ok=True)
open(os.path.join(tmp, 'PA.v'), 'w').write(src)
out = subprocess.run(['coqc', '-Q', th, 'Verif', 'PA.v'], cwd=tmp, capture_output=True, text=True)
if out.returncode: sys.exit(out.stderr)
ax, cur = {}, None
for l in out.stdout.split('\n'):
    if l.startswith('@@ '): cur = l[3:].strip(); ax[cur] = set()
    elif cur and re.match(r"^[A-Za-z][\w.']* *:", l): ax[cur].add(l.split(':')[0].strip())
    elif cur and re.match(r"^[A-Za-z][\w.']*$", l): ax[cur].add(l.strip())
groups = {}
for t in names: groups.setdefault(tuple(sorted(a for a in ax[t] if a != 'Axioms')), []).append(t)
o = []
o.append('| property | status | theorems | remarks |\n|---|---|---|---|\n')
for c in claims:
    o.append('| %s %s | %s | %s | %s |\n' % (c['property'], props[c['property']]['title'], c['status'],
        ', '.join('`%s` (%s)' % (t, where[t]) for t in c['theorems']), c['note'].replace('|', '\\|')))
o.append('\n### Print Assumptions\n\n')
for g, ts in sorted(groups.items(), key=lambda x: len(x[0])):
    if not g: o.append('Closed under the global context (no axioms): %d theorems, all those not named below.\n\n' % len(ts))
    else: o.append('Axioms %s: %s.\n\n' % (', '.join('`%s`' % a for a in g), ', '.join('`%s`' % t for t in ts)))
p = os.path.join(root, 'DESIGN.md')
s = open(p).read()
a, b = '<!-- generated by tools/assumptions.py -->\n', '<!-- end -->\n'
i, j = s.index(a) + len(a), s.index(b)
open(p, 'w').write(s[:i] + ''.join(o) + s[j:])
print(len(names), 'theorems', {len(g): len(ts) for g, ts in groups.items()})
