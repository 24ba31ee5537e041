"""Writes /verif/DESIGN.md from tools/design_head.md, tools/notes.json, tools/methods.json,
properties.jsonl, MANIFEST.json and tools/assumptions.json."""
import json
T = '/verif/tools/'
notes = json.load(open(T + 'notes.json'))
methods = json.load(open(T + 'methods.json'))      # list of [first, last, files, method]
assum = json.load(open(T + 'assumptions.json'))
claims = {c['property']: c for c in json.load(open('/verif/MANIFEST.json'))['claims']}
head = open(T + 'design_head.md').read()
names = []
for a in assum.values():
    for x in a:
        if x not in names: names.append(x)
out = [head.rstrip('\n'), '', '## Axioms per theorem', '']
closed = [t for t, a in assum.items() if not a]
out.append('`Print Assumptions` reports "Closed under the global context" for %d of the %d theorems.' % (len(closed), len(assum)))
if names:
    out.append('The others use only axioms of the standard library:')
    out.append('')
    groups = {}
    for t, a in assum.items():
        if a: groups.setdefault(tuple(a), []).append(t)
    for a, ts in groups.items():
        out.append('* ' + ', '.join('`%s`' % t for t in ts) + ': ' + ', '.join('`%s`' % x for x in a) + '.')
out += ['', '## Properties', '']
for line in open('/verif/properties.jsonl'):
    p = json.loads(line)
    i = p['id']
    c = claims.get(i)
    out.append('### %s %s' % (i, p['title']))
    out.append('')
    for m in methods:
        if int(m[0][1:]) <= int(i[1:]) <= int(m[1][1:]) and i not in (m[4] if len(m) > 4 else []):
            out.append('* Modelled: %s.' % m[2])
            out.append('* Proof: %s' % m[3])
            break
    if c:
        out.append('* Status: %s. %s' % (c['status'], c['note']))
        out.append('* Theorems: ' + ', '.join('`%s`' % t for t in c['theorems']))
    else:
        out.append('* No theorem yet.')
    out.append('')
open('/verif/DESIGN.md', 'w').write('\n'.join(out))
