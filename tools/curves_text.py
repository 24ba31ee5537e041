"""Reads the class definitions of /repo/ecc/curves.py as text (nothing is executed).
classes() -> list of (name, base, line, [(attribute, text of the value, line)])."""
import re
def classes(path='/repo/ecc/curves.py'):
    out, doc = [], False
    lines = open(path).read().split('\n')
    for no, l in enumerate(lines, 1):
        if no >= 742: break
        q = l.count('"""')
        if doc:
            if q % 2: doc = False
            continue
        if q % 2: doc = True; continue
        if q: continue
        m = re.match(r'class (\w+)\s*\(\s*(\w+)\s*\)', l)
        if m: out.append((m.group(1), m.group(2), no, [])); continue
        m = re.match(r'    (\w+)\s*=\s*(.*?)\s*(#.*)?$', l)
        if m and out:
            v = m.group(2).strip()
            if v.startswith(("'", '"')): v = l.split('=', 1)[1].strip()[:].split('#')[0].strip()
            out[-1][3].append((m.group(1), v, no))
        elif l.strip() and not l.strip().startswith('#') and out and not l.startswith(('class', 'from', 'import')):
            raise SystemExit('unparsed line %d: %s' % (no, l))
    return out
def integer(v, env={}):
    """value of  literal | p-3 | 2**k - c | 2**k + c | -literal"""
    v = v.replace(' ', '')
    m = re.match(r'^(-?(?:0x[0-9a-fA-F]+|\d+))L?$', v)
    if m: return int(m.group(1), 0)
    m = re.match(r'^p-(\d+)$', v)
    if m: return env['p'] - int(m.group(1))
    m = re.match(r'^2\*\*(\d+)([+-])(\d+)$', v)
    if m: return 2 ** int(m.group(1)) + (1 if m.group(2) == '+' else -1) * int(m.group(3))
    raise ValueError(v)
def env_of(cls):
    e = {}
    for a, v, _ in cls[3]:
        try: e[a] = integer(v, e)
        except ValueError: pass
    return e
if __name__ == '__main__':
    for c in classes(): print(c[0], c[1], c[2], [(a, v[:20]) for a, v, _ in c[3]])
