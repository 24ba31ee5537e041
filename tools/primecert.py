#!/usr/bin/env python3
"""Write Pocklington certificates (Coq terms of type cert, see Proofs/PrimeCert.v).
usage: primecert.py NAME=N ..."""
import random, sys, math, time
random.seed(1)

def is_pp(n):
    if n < 2: return False
    for p in (2,3,5,7,11,13,17,19,23,29,31,37):
        if n % p == 0: return n == p
    d, s = n-1, 0
    while d % 2 == 0: d //= 2; s += 1
    for _ in range(20):
        a = random.randrange(2, n-1)
        x = pow(a, d, n)
        if x in (1, n-1): continue
        for _ in range(s-1):
            x = x*x % n
            if x == n-1: break
        else: return False
    return True

def rho(n, limit):
    y, c, m = random.randrange(1, n), random.randrange(1, n), 200
    g = r = q = 1
    it = 0
    while g == 1:
        x = y
        for _ in range(r): y = (y*y+c) % n
        k = 0
        while k < r and g == 1:
            ys = y
            for _ in range(min(m, r-k)):
                y = (y*y+c) % n
                q = q*abs(x-y) % n
            g = math.gcd(q, n)
            k += m
            it += m
            if it > limit: return None
        r *= 2
    if g == n:
        g = 1
        while g == 1:
            ys = (ys*ys+c) % n
            g = math.gcd(abs(x-ys), n)
    return g if g != n else None

def sieve(n):
    s = bytearray([1])*(n+1); s[0:2] = b'\0\0'
    for i in range(2, int(n**.5)+1):
        if s[i]: s[i*i::i] = bytearray(len(s[i*i::i]))
    return [i for i in range(n+1) if s[i]]
PR = sieve(2000000)

def ecm(n, B1):
    sigma = random.randrange(6, 2**40)
    u = (sigma*sigma-5) % n; v = 4*sigma % n
    try:
        a24 = (pow(v-u, 3, n)*(3*u+v)*pow(4*pow(u,3,n)*v*4 % n, -1, n)) % n
    except ValueError:
        g = math.gcd(4*pow(u,3,n)*v*4, n)
        return g if 1 < g < n else None
    X, Z = pow(u,3,n), pow(v,3,n)
    def dbl(P):
        x, z = P
        s = (x+z)*(x+z) % n; d = (x-z)*(x-z) % n; t = s-d
        return (s*d % n, t*(d+a24*t) % n)
    def add(P, Q, D):
        a = (P[0]-P[1])*(Q[0]+Q[1]); b = (P[0]+P[1])*(Q[0]-Q[1])
        s = a+b; d = a-b
        return (D[1]*(s*s % n) % n, D[0]*(d*d % n) % n)
    def mul(k, P):
        if k == 1: return P
        A, B = P, dbl(P)
        for bit in bin(k)[3:]:
            if bit == '1': A, B = add(A, B, P), dbl(B)
            else: A, B = dbl(A), add(A, B, P)
        return A
    P = (X, Z)
    for p in PR:
        if p > B1: break
        q = p
        while q*p <= B1: q *= p
        P = mul(q, P)
    g = math.gcd(P[1], n)
    if 1 < g < n: return g
    if g == n: return None
    # stage 2, simple: multiples by differences
    B2 = min(50*B1, PR[-1])
    D = 210
    tab = {}
    S = [None, P, dbl(P)]
    T = {1: P, 2: dbl(P)}
    P2 = T[2]
    T[3] = add(P2, P, P)
    for j in range(5, D//2+1, 2): T[j] = add(T[j-2], P2, T[j-4])
    Q = mul(D, P)
    m = max(1, B1//D)
    A, Bp = mul(m, Q), mul(m-1, Q) if m > 1 else None
    if m == 1: Bp = None
    Rm1 = mul(m-1, Q) if m > 1 else (0, 1) if False else mul(1, Q)
    R = mul(m, Q); Rn = mul(m+1, Q)
    acc = 1
    cop = [j for j in range(1, D//2+1) if math.gcd(j, D) == 1]
    while m*D < B2:
        for j in cop:
            acc = acc*(R[0]*T[j][1]-R[1]*T[j][0]) % n
        R, Rn = Rn, add(Rn, Q, R)
        m += 1
    g = math.gcd(acc, n)
    return g if 1 < g < n else None

def factor_some(n, want, budget=1e9, log=None):
    """prime factors (with multiplicity) of n whose product exceeds want"""
    fs = []
    for p in PR:
        if p > 200000: break
        while n % p == 0: fs.append(p); n //= p
    comp = [n] if n > 1 else []
    t0 = time.time()
    B1 = 500; tries = 0
    def prod():
        r = 1
        for f in fs: r *= f
        return r
    while comp and (prod()+1)**2 <= want:
        c = comp.pop()
        if is_pp(c): fs.append(c); continue
        if math.isqrt(c)**2 == c: comp += [math.isqrt(c)]*2; continue
        g = rho(c, 20000) if tries == 0 else None
        while g is None:
            tries += 1
            if time.time()-t0 > budget: return None
            g = ecm(c, B1)
            B1 = min(int(B1*1.02)+5, 40000)
        comp += [g, c//g]
        comp.sort(reverse=True)
    return fs if (prod()+1)**2 > want else None

DONE = {}
def cert(n, out, budget):
    if n == 2 or n in DONE: return True
    assert is_pp(n), n
    fs = factor_some(n-1, n, budget)
    if fs is None: return False
    fs.sort()
    # keep the smallest set that is large enough, dropping big primes if possible
    keep, F = [], 1
    for q in sorted(set(fs)):
        keep.append(q)
        F *= q**fs.count(q)
        if (F+1)**2 > n: break
    for q in keep:
        if not cert(q, out, budget): return False
    a = 2
    while True:
        if pow(a, n-1, n) == 1 and all(math.gcd(pow(a, (n-1)//q, n)-1, n) == 1 for q in keep): break
        a += 1
    DONE[n] = 1
    out.append((n, a, [(q, fs.count(q)) for q in keep]))
    return True

def coq(out):
    return '[' + ';\n   '.join('Cert %d %d [%s]' % (n, a, '; '.join('(%d, %d%%nat)' % x for x in fs)) for n, a, fs in out) + ']'

if __name__ == '__main__':
    for arg in sys.argv[1:]:
        name, n = arg.split('=')
        n = eval(n)
        out = []; DONE.clear()
        ok = cert(n, out, 3600)
        print('(* %s *)' % name if ok else '(* %s failed *)' % name)
        print(coq(out))
