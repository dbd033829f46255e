#!/usr/bin/env python3
"""Writes DESIGN.md: the prose of tools/design_prose.md, with the table of properties and theorems made from
MANIFEST.json, properties.jsonl and the theory files."""
import json, os, re
root = os.path.dirname(os.path.dirname(os.path.abspath(__file__)))
th = os.path.join(root, 'rocq', 'theories')
where = {}
for f in open(os.path.join(root, 'rocq', 'order.txt')).read().split():
    for m in re.finditer(r'^\s*(?:Theorem|Lemma|Corollary|Example)\s+(\w+)', open(os.path.join(th, f + '.v')).read(), re.M):
        where.setdefault(m.group(1), f)
plan = dict(re.findall(r'^(C\d\d): (.*)$', open(os.path.join(root, 'tools', 'design_plan.txt')).read(), re.M))
man = {c['property']: c for c in json.load(open(os.path.join(root, 'MANIFEST.json')))['claims']}
rows = []
for l in open(os.path.join(root, 'properties.jsonl')):
    d = json.loads(l)
    c = man[d['id']]
    files = {}
    for t in c['theorems']:
        files.setdefault(where.get(t, '?'), []).append(t)
    ths = '; '.join('%s: %s' % (f, ', '.join('`%s`' % t for t in ts)) for f, ts in files.items())
    rows.append('| %s | %s | %s | %s | %s |' % (d['id'], d['title'], c['status'], plan.get(d['id'], ''), ths))
table = '| id | property | status | modelled and how it is proved | theorems |\n|---|---|---|---|---|\n' + '\n'.join(rows)
prose = open(os.path.join(root, 'tools', 'design_prose.md')).read()
log = [json.loads(l) for l in open(os.path.join(root, 'seeded', 'LOG.jsonl'))]
counts = {}
for e in log:
    counts[e.get('verdict', '?')] = counts.get(e.get('verdict', '?'), 0) + 1
summ = ', '.join('%d %s' % (n, k) for k, n in sorted(counts.items(), key=lambda x: -x[1]))
out = prose.replace('@@TABLE@@', table).replace('@@MUTATIONS@@', '%d entries: %s' % (len(log), summ))
open(os.path.join(root, 'DESIGN.md'), 'w').write(out)
missing = [r for r in plan if r not in man]
print('written', len(rows), 'rows; without plan:', [i for i in man if i not in plan], missing)
