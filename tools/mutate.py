"""Seed a fault into a scratch copy of the development and report which theorems fall.

usage: mutate.py SPEC.json   (a list of {file, old, new, definition, claim, skip?};
files matching the regular expression skip are not rebuilt)
With MUT_FAST=1 an entry stops at the first file of Props/ with a theorem that falls (so the list of
theorems is not complete), files matching MUT_SKIP are skipped too, and edits that the type checker
rejects in the model itself are not recorded.
For every entry the definition is edited in /tmp/mut, the files that depend on it are rebuilt
and each proof that no longer goes through is replaced there by Admitted so that the
build can continue; Print Assumptions then tells which theorems of Props/ relied on one.
One line per entry is appended to seeded/LOG.jsonl."""
import sys, re, json, subprocess, os, shutil
SRC = os.environ.get('MUT_SRC', '/verif/rocq'); DST = os.environ.get('MUT_DIR', '/tmp/mut')
FAST = os.environ.get('MUT_FAST') == '1'; SKIP = os.environ.get('MUT_SKIP')
START = re.compile(r'^\s*(?:Local |Global |#\[\w+\] )?(Lemma|Theorem|Example|Corollary|Fact|Instance|Definition|Program Definition|Remark|Equations)\s+([\w\']+)', re.M)

def run(cmd, timeout):
    try:
        r = subprocess.run(cmd, cwd=DST, stdout=subprocess.PIPE, stderr=subprocess.STDOUT, timeout=timeout, text=True)
        return r.returncode, r.stdout
    except subprocess.TimeoutExpired as e:
        return -1, (e.stdout or b'').decode() if isinstance(e.stdout, bytes) else (e.stdout or '')

def deps():
    files = [l.strip() for l in open(DST + '/_CoqProject') if l.strip().endswith('.v')]
    out = subprocess.run(['coqdep', '-Q', 'theories', 'Verif'] + files, cwd=DST, stdout=subprocess.PIPE, stderr=subprocess.DEVNULL, text=True).stdout
    d = {}
    for line in out.splitlines():
        m = re.match(r'(\S+)\.vo .*?: (.*)', line)
        if m: d[m.group(1) + '.v'] = {x[:-1] for x in m.group(2).split() if x.endswith('.vo') and x.startswith('theories')}
    order, seen = [], set()
    def go(f):
        if f in seen: return
        seen.add(f)
        for g in sorted(d.get(f, ())): go(g)
        order.append(f)
    for f in files: go(f)
    return d, order

def admit(path, pos):
    """replace the proof containing offset pos by Admitted; return its name"""
    s = open(path).read()
    best = None
    for m in START.finditer(s):
        if m.start() <= pos: best = m
    if best is None: return None
    pr = s.find('Proof', best.start()); 
    e = re.compile(r'\b(Qed|Defined)\.').search(s, max(pr, best.start()))
    nxt = START.search(s, best.end())
    if pr < 0 or e is None or (nxt and nxt.start() < pr): return None
    s = s[:pr] + 'Proof. Admitted.' + s[e.end():]
    open(path, 'w').write(s)
    return best.group(2)

def nearest(d, order, f):
    """the files of Props/ that need the fewest rebuilt files first"""
    up = {}
    def closure(g):
        if g not in up: up[g] = {g} | {x for h in d.get(g, ()) for x in closure(h)}
        return up[g]
    dirty = {g for g in order if f in closure(g)}
    if SKIP: order = [g for g in order if not any(re.search(SKIP, h) for h in closure(g) & dirty)]
    props = sorted((g for g in order if g in dirty and '/Props/' in g), key=lambda g: len(closure(g) & dirty))
    out = []
    for g in props:
        for h in order:
            if h in closure(g) and h not in out: out.append(h)
    return out

def one(m, timeout=100):
    subprocess.run(['rsync', '-a', '--delete', '--exclude=.git', SRC + '/', DST + '/'], check=True) if shutil.which('rsync') else (shutil.rmtree(DST, ignore_errors=True), subprocess.run(['cp', '-a', SRC, DST], check=True))
    path = DST + '/theories/' + m['file']
    s = open(path).read()
    assert s.count(m['old']) >= 1, ('not found', m)
    if s.count(m['old']) > 1 and not m.get('first'): raise SystemExit(('ambiguous', m))
    open(path, 'w').write(s.replace(m['old'], m['new'], 1))
    d, order = deps()
    if FAST: order = nearest(d, order, 'theories/' + m['file'])
    dirty = {'theories/' + m['file']}
    failed, broken, props = [], [], {}
    blocked, skipped = set(), set()
    for f in order:
        if f not in dirty and not (d[f] & dirty): continue
        dirty.add(f)
        if any(k and re.search(k, f) for k in (m.get('skip'), SKIP)): skipped.add(f); continue
        if d[f] & skipped: skipped.add(f); continue
        if d[f] & blocked: blocked.add(f); continue
        for _ in range(80):
            rc, out = run(['coqc', '-time', '-Q', 'theories', 'Verif', f], timeout)
            if rc == 0: break
            text = open(DST + '/' + f).read()
            mm = re.search(r'File "[^"]*", line (\d+), characters (\d+)', out)
            if rc == -1:
                c = re.findall(r'Chars (\d+) - (\d+)', out)
                pos = int(c[-1][1]) + 2 if c else 0
            elif mm:
                lines = text.encode().split(b'\n'); pos = len(b'\n'.join(lines[:int(mm.group(1)) - 1]).decode()) + 1 + int(mm.group(2))
            else: pos = 0
            n = admit(DST + '/' + f, pos)
            if n is None:
                broken.append(f); blocked.add(f); break
            failed.append(f.replace('theories/', '')[:-2] + '.' + n)
        else: blocked.add(f)
        if 'theories/Props/' in f and f not in blocked:
            text = open(DST + '/' + f).read()
            names = re.findall(r'^Print Assumptions ([\w\']+)\.', text, re.M)
            chunks = re.findall(r'(Closed under the global context|Axioms:(?:\n(?!Chars).*)*)', out)
            for n, c in zip(names, chunks):
                ax = [a for a in re.findall(r'^([\w\'.]+)\s*:?', c, re.M)[0:] if a not in ('Axioms', 'Closed')]
                bad = [a for a in failed if a.split('.')[-1] in {x.split('.')[-1] for x in ax}]
                if bad: props[n] = bad
            if FAST and (props or any(x.startswith('Props/') for x in failed)): break
    direct = [x.split('.')[-1] for x in failed if x.startswith('Props/')]
    th = sorted(set(props) | {x for x in direct})
    for f in blocked:
        if 'Props/' in f: th.append('all of ' + f)
    rec = dict(definition=m['definition'], file=m['file'], edit='%s  ==>  %s' % (m['old'], m['new']), claim=m['claim'], theorems_failed=th, lemmas_failed=failed, files_that_no_longer_compile=broken, theorems_tightened=m.get('tightened', []))
    if FAST: rec['note'] = 'stopped at the first theorem file that fails'
    return rec

if __name__ == '__main__':
    for m in json.load(open(sys.argv[1])):
        try: r = one(m)
        except AssertionError as e: print('SKIP', e); continue
        if FAST and 'theories/' + m['file'] in r['files_that_no_longer_compile']: continue
        print(m['definition'], '|', m['new'][:60], '->', len(r['theorems_failed']), r['theorems_failed'][:6], '' if r['theorems_failed'] else 'SURVIVED', flush=True)
        with open('/verif/seeded/LOG.jsonl', 'a') as g: g.write(json.dumps(r) + '\n')
