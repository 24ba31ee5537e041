"""Turns chains of certificates into Coq terms (Proofs/PrimeChain.v, Proofs/EcCheck.v)."""
def limbs(N): return (N.bit_length() - 1 + 14 + 29) // 30
def r2(N, k): return pow(1 << (30 * k), 2, N)
def naf(k):
    h = 3 * k
    ds = [((h >> i) & 1) - ((k >> i) & 1) for i in range(1, h.bit_length())]
    return ds[::-1][1:]
def dbl(J, a, N):
    X, Y, Z = J; YY = Y * Y; ZZ = Z * Z; S = X * YY; M = 3 * X * X + a * ZZ * ZZ; X3 = (M * M - 8 * S) % N
    return X3, -(M * (X3 - 4 * S) + 8 * YY * YY) % N, 2 * Y * Z % N
def madd(J, x, y, N):
    X, Y, Z = J; ZZ = Z * Z; H = (X - x * ZZ) % N; r = (Y - y * Z * ZZ) % N
    HH = H * H; HHH = H * HH; V = X * HH; X3 = (r * r + HHH - 2 * V) % N
    return X3, -(r * (X3 - V) + Y * HHH) % N, Z * H % N
def job(N, a, b, x, y, n):
    assert (y * y - x ** 3 - a * x - b) % N == 0
    k = limbs(N); v = 1; J = (x, y, 1)
    for d in naf(n - 1):
        v = 2 * v + d; J = dbl(J, a, N)
        if d: J = madd(J, x, d * y % N, N)
    X, Y, Z = J
    assert v == n - 1 and (X - x * Z * Z) % N == 0 and (Y + y * Z ** 3) % N == 0
    return 'ec_job %d %d %d %d %d %d %d %d %d %d %d' % (k, N, r2(N, k), a % N, b % N, x % N, y % N, n,
        pow(Z, -1, N), pow(4 * a ** 3 + 27 * b * b, -1, N), pow(3, -1, N))
def cert(c):
    if c[0] == 'pock':
        _, N, base, fs = c
        F = 1
        for q, e in fs: F *= q ** e
        assert (N - 1) % F == 0 and 2 * (F.bit_length() - 1) > N.bit_length() - 1
        k = limbs(N); a = pow(base, (N - 1) // F, N); assert pow(a, F, N) == 1
        ps = '; '.join('(%d, %d%%nat, %d)' % (q, e, pow(pow(a, F // q, N) - 1, -1, N)) for q, e in fs)
        return 'PPock %d %d %d %d [%s]' % (k, N, r2(N, k), a, ps)
    _, N, a, b, x, y, q = c
    assert N.bit_length() - 1 + 5 <= 2 * (q.bit_length() - 1)
    return 'PEc (%s) %d' % (job(N, a, b, x, y, q), q)
