#!/usr/bin/env python3
"""Write rocq/theories/Proofs/BrainpoolCerts.v: for every Brainpool curve with random parameters,
a proof of compositeness for every number between the hashed seed and the prime, and square roots
that show which of the hashed values are squares."""
import re, os, hashlib
here = os.path.dirname(os.path.abspath(__file__))
src = open('/repo/ecc/curves.py').read()
OFF = {160: (0, 282, 285), 192: (0, 1254, 1255), 224: (0, 1344, 1347), 256: (0, 1941, 1942),
       320: (0, 2222, 2227), 384: (1, 5653, 5655), 512: (0, 1871, 1872)}

def attributes(name):
    b = src[src.index('class %s(' % name):]
    i = b.find('\nclass ', 5)
    b = b[:i] if i > 0 else b
    return {m.group(1): int(m.group(2), 0) for m in re.finditer(r'^\s+(\w+)\s*=\s*(0x[0-9a-fA-F]+|\d+)L?\s*(?:#.*)?$', b, re.M)}
def h(z): return int.from_bytes(hashlib.sha1((z % 2 ** 160).to_bytes(20, 'big')).digest(), 'big')
def expand(s, L, drop):
    v = (L - 1) // 160
    x = h(s) % 2 ** (L - 160 * v - drop)
    for i in range(1, v + 1):
        x = x * 2 ** 160 + h(s + i)
    return x
small = [n for n in range(3, 20000, 2) if all(n % d for d in range(3, int(n ** .5) + 1, 2))]
def rho(n, steps=1 << 21):
    x = y = 2
    acc, saved, r, done = 1, (2, 2), 1, 0
    from math import gcd
    while done < steps:
        x = y
        for _ in range(r):
            y = (y * y + 1) % n
        k = 0
        while k < r and done < steps:
            ys, acc = y, 1
            m = min(256, r - k)
            for _ in range(m):
                y = (y * y + 1) % n
                acc = acc * (x - y) % n
            g = gcd(acc, n)
            k += m
            done += m
            if g > 1:
                if g == n:
                    while True:
                        ys = (ys * ys + 1) % n
                        g = gcd(x - ys, n)
                        if g > 1:
                            return g if g < n else None
                return g
        r *= 2
    return None
def cert(q):
    for r in small:
        if q % r == 0:
            return 'Fac %d' % r
    r = rho(q)
    if r:
        return 'Fac %d' % r
    k = -(-(q.bit_length() + 14) // 30)
    u = pow(2, q - 1, q) - 1
    assert u
    return 'Fer %d %s %s' % (k, hex(2 ** (60 * k) % q), hex(pow(u, -1, q)))
out = []
for L, (o, ia, ib) in OFF.items():
    c = attributes('BrainPoolP%dr1' % L)
    p, a, b = c['p'], c['a'], c['b']
    x = expand(c['seed_p'] + o, L, 0)
    q = x + (3 - x) % 4
    certs = []
    while q < p:
        certs.append(cert(q))
        q += 4
    assert q == p and expand(c['seed_ab'] + ia, L, 1) == a and expand(c['seed_ab'] + ib, L, 1) == b
    root = lambda t: pow(t, (p + 1) // 4, p)
    squares = []
    for i in range(ia + 1, ib):
        t = expand(c['seed_ab'] + i, L, 1)
        r = root(t)
        assert (r * r - t) % p == 0
        squares.append('(%s, %s)' % (hex(r), '(-%s)' % hex((t - r * r) // p) if t > r * r else hex((r * r - t) // p)))
    s = root(-b % p)
    assert (s * s + b) % p == 0
    t = -3 * pow(a, -1, p) % p
    z = root(t)
    if pow(z, (p - 1) // 2, p) != 1: z = p - z
    z = root(z)
    assert (a * z ** 4 + 3) % p == 0
    out.append('  {| b_certs := [%s];\n     b_squares := [%s];\n     b_root := %s; b_quot := %s;\n     b_fourth := (%s) |}' % (
        ';\n       '.join(certs), '; '.join(squares), hex(s), hex((s * s + b) // p), ', '.join(hex(v) for v in (z, z * z // p, z * z % p, (z * z % p) ** 2 // p, z ** 4 % p, (a * (z ** 4 % p) + 3) // p))))
    print(L, len(certs), sum(c.startswith('Fer') for c in certs))
open(os.path.join(here, '..', 'rocq', 'theories', 'Proofs', 'BrainpoolCerts.v'), 'w').write('''(** Certificates for the parameters of the Brainpool curves.  Generated by tools/gen_brainpool.py. *)
From Coq Require Import ZArith List.
Import ListNotations.
Local Open Scope Z_scope.

(** a factor, or the inverse of 2^(q-1) - 1 modulo q with the number of limbs and R^2 *)
Inductive cert := Fac (r : Z) | Fer (k : nat) (r2 w : Z).
(** certs of the numbers below the prime; root and quotient for the squares between a and b;
    root of -b and quotient; z with a z^4 = -3, then quotients and remainders *)
Record bcert := { b_certs : list cert; b_squares : list (Z * Z); b_root : Z; b_quot : Z; b_fourth : Z * Z * Z * Z * Z * Z }.
Definition bcerts : list bcert := [
%s].
''' % ';\n'.join(out))
