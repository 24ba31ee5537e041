"""Print Assumptions for every theorem of rocq/theories/Props (after a build).
Writes tools/assumptions.json: theorem -> list of axioms."""
import re, glob, json, subprocess, os
R = '/verif/rocq'
names, mods = [], []
for f in sorted(glob.glob(R + '/theories/Props/*.v')):
    m = os.path.basename(f)[:-2]
    mods.append('Props.' + m)
    names += [(m, n) for n in re.findall(r'^Theorem (C\d+_\w+)', open(f).read(), re.M)]
src = ''.join('From Verif Require %s.\n' % m for m in mods)
src += ''.join('Goal True. idtac "@@%s". Abort.\nPrint Assumptions Verif.Props.%s.%s.\n' % (n, m, n) for m, n in names)
os.makedirs('/tmp/w', exist_ok=True)
open('/tmp/w/Assump_tmp.v', 'w').write(src)
out = subprocess.run(['coqc', '-Q', 'theories', 'Verif', '/tmp/w/Assump_tmp.v'], cwd=R, stdout=subprocess.PIPE, stderr=subprocess.STDOUT, text=True).stdout
res, cur = {}, None
for line in out.splitlines():
    if line.startswith('@@'): cur = line[2:]; res[cur] = []
    elif cur and re.match(r'^[\w.\']+ *(:|$)', line) and not line.startswith(('Axioms', 'Closed')):
        res[cur].append(line.split(':')[0].strip())
assert len(res) == len(names), (len(res), len(names), out[-500:])
json.dump(res, open('/verif/tools/assumptions.json', 'w'), indent=0)
from collections import Counter
print(Counter(tuple(v) for v in res.values()))
