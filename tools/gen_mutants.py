"""Write a list of small faults for mutate.py.

usage: gen_mutants.py OUT.json SEED PER_DEFINITION FILE... [-- NAME...]
Every definition of the given files of Model/ gets up to PER_DEFINITION one-token edits
(literals, operators, comparisons, exceptions) at places chosen by the seed."""
import sys, re, json, random
ROOT = '/verif/rocq/theories/'
HEAD = re.compile(r'^(?:Local )?(Definition|Fixpoint)\s+([\w\']+)', re.M)
OPS = [(r'(?<=[ (])\+(?= )', ['-']), (r'(?<= )-(?= )', ['+']), (r'(?<= )\*(?= )', ['+']), (r'<\?', ['<=?']), (r'<=\?', ['<?']), (r'(?<![<])=\?', ['<=?']),
       (r'\bZ\.land\b', ['Z.lor']), (r'\bZ\.lxor\b', ['Z.lor', 'Z.land']), (r'\bZ\.lor\b', ['Z.land', 'Z.lxor']), (r'\bZ\.shiftl\b', ['Z.shiftr']), (r'\bZ\.shiftr\b', ['Z.shiftl']),
       (r'(?<= )mod(?= )', ['/']), (r'(?<= )/(?= )', ['mod']), (r'&&', ['||']), (r'\|\|', ['&&']), (r'\btrue\b', ['false']), (r'\bfalse\b', ['true']),
       (r'\bnegb\b', ['id']), (r'\bfirstn\b', ['skipn']), (r'\bskipn\b', ['firstn']), (r'\brev\b', ['id']), (r'(?<= )\^(?= )', ['*']),
       (r'\b\w*Error\b', ['ValueError', 'TypeError']), (r'\bfst\b', ['snd']), (r'\bsnd\b', ['fst'])]
LIT = re.compile(r'(?<![\w.\'])(0x[0-9A-Fa-f]+|\d+)(?![\w.\'])')

def blank(s):
    """comments and strings replaced by spaces"""
    out, i, depth = list(s), 0, 0
    while i < len(s):
        if s.startswith('(*', i): depth += 1; out[i] = out[i+1] = ' '; i += 2; continue
        if s.startswith('*)', i) and depth: depth -= 1; out[i] = out[i+1] = ' '; i += 2; continue
        if depth: out[i] = ' ' if s[i] != '\n' else '\n'
        i += 1
    return ''.join(out)

def main():
    out, seed, per = sys.argv[1], int(sys.argv[2]), int(sys.argv[3])
    rest = sys.argv[4:]; only = set()
    if '--' in rest: k = rest.index('--'); only = set(rest[k+1:]); rest = rest[:k]
    rnd = random.Random(seed); res = []
    for f in rest:
        s = open(ROOT + f).read(); b = blank(s)
        heads = list(HEAD.finditer(b))
        for h in heads:
            name = h.group(2)
            if only and name not in only: continue
            e = re.compile(r'\.(?=\s*(?:\n|$))').search(b, h.end())
            if not e: continue
            i = b.find(':=', h.end(), e.start())
            if i < 0: continue
            sites = []
            for m in LIT.finditer(b, i, e.start()):
                t = m.group(1); v = int(t, 16) if t.startswith("0x") else int(t)
                sites.append((m.start(1), m.end(1), str(v + 1)))
                if v > 1: sites.append((m.start(1), m.end(1), str(v - 1)))
            for pat, news in OPS:
                for m in re.compile(pat).finditer(b, i, e.start()):
                    for n in news:
                        if n != m.group(0): sites.append((m.start(), m.end(), n))
            rnd.shuffle(sites)
            c = re.findall(r'\(\*\*(.*?)\*\)', s[:h.start()], re.S)
            cite = ' '.join(c[-1].split())[:160] if c else ''
            seen = set()
            for a, z, n in sites:
                if len(seen) >= per: break
                if a in seen: continue
                seen.add(a)
                # context making the edit unique
                l, r = a, z
                while s.count(s[l:r]) > 1: l = max(0, l - 12); r = min(len(s), r + 12)
                res.append(dict(file=f, old=s[l:r], new=s[l:a] + n + s[z:r], definition=name, claim='%s behaves as the code (%s)' % (name, cite)))
    json.dump(res, open(out, 'w'), indent=1); print(len(res))
main()
