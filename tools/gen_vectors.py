"""Writes Spec/CurveVectorSpec.v, the known-answer vectors of the curve tests of /repo, and Proofs/VectorCerts.v, the
numbers that let Coq check them: inverses of the last Z of a scalar multiplication and slopes of chords."""
import os, re, sys
here = os.path.dirname(os.path.abspath(__file__))
sys.path[:0] = [here, here + '/ecpp']
from emit import naf, dbl, madd, job, limbs, r2
T = '/repo/ecc/test/'
def lines(f, a, b): return ''.join(open(T + f).readlines()[a - 1:b])
def nums(s): return [(n, int(v, 16)) for n, v in re.findall(r'(?<!#)\b(\w+) *= *(0x[0-9a-fA-F]+)', s)]
def get(ns, n): return [v for m, v in ns if m == n]
def add(P, Q, a, p):
    l = ((3 * P[0] ** 2 + a) * pow(2 * P[1], -1, p) if P == Q else (Q[1] - P[1]) * pow(Q[0] - P[0], -1, p)) % p
    x = (l * l - P[0] - Q[0]) % p
    return l, (x, (l * (P[0] - x) - P[1]) % p)
def mul(P, k, a, p):
    "k P and the inverse of the last Z"
    J = (P[0], P[1], 1)
    for d in naf(k):
        J = dbl(J, a, p)
        if d: J = madd(J, P[0], d * P[1] % p, p)
    X, Y, Z = J; w = pow(Z, -1, p)
    return w, (X * w * w % p, Y * w ** 3 % p)
def pt(P): return '(%d, %d)' % P
spec, cert = [], []
# secp256k1
p = 2 ** 256 - 2 ** 32 - 977
G = (0x79BE667EF9DCBBAC55A06295CE870B07029BFCDB2DCE28D959F2815B16F81798, 0x483ADA7726A3C4655DA4FBFC0E1108A8FD17B448A68554199C47D08FFB10D4B8)
ns = nums(lines('test_sec256k1.py', 28, 66))
vs = list(zip(get(ns, 'm'), zip(get(ns, 'X'), get(ns, 'Y')))); assert len(vs) == 5
spec.append('(** ecc/test/test_sec256k1.py:28-66: m, and the coordinates of m G *)\nDefinition secp256k1_vectors : list (Z * (Z * Z)) := [\n  %s].' % ';\n  '.join('(%d, %s)' % (m, pt(P)) for m, P in vs))
ns = nums(lines('test_sec256k1.py', 68, 78)); k, x = get(ns, 'secret_key')[0], get(ns, 'public_key')[-1]
spec.append('(** ecc/test/test_sec256k1.py:68-78: the secret key and the x-coordinate of the public key *)\nDefinition bip32_vector : Z * Z := (%d, %d).' % (k, x))
ws = []
for m, P in vs:
    w, Q = mul(G, m, 0, p); assert P == Q; ws.append(w)
cert.append('Definition secp256k1_w : list Z := [%s].' % '; '.join(map(str, ws)))
w, Q = mul(G, k, 0, p); assert Q[0] == x
cert.append('Definition bip32_w : Z * Z := (%d, %d).' % (w, Q[1]))
# NIST
def nist(name, p, b, n, a0, b0, first):
    ns = nums(lines('test_nist_curves.py', a0, b0)); g = lambda s: get(ns, s)
    S, Tt, R = (g('xS')[0], g('yS')[0]), (g('xT')[0], g('yT')[0]), list(zip(g('xR'), g('yR')))
    d, e = g('d')[0], g('e')[0]; a = p - 3
    if first: spec.append('(** ecc/test/test_nist_curves.py:%d-%d: S, T; S + T, S - T, 2 S *)\nDefinition %s_points : (Z * Z) * (Z * Z) * (Z * Z) * (Z * Z) * (Z * Z) :=\n  (%s).' % (a0, b0, name, ',\n   '.join(map(pt, [S, Tt] + R[:3]))))
    spec.append('(** ecc/test/test_nist_curves.py:%d-%d: d, e; d S, d S + e T *)\nDefinition %s_scalar : Z * Z * (Z * Z) * (Z * Z) :=\n  (%d,\n   %d,\n   %s,\n   %s).' % (a0, b0, name, d, e, pt(R[3]), pt(R[4])))
    l1, A = add(S, Tt, a, p); assert A == R[0]
    l2, A = add(S, (Tt[0], -Tt[1] % p), a, p); assert A == R[1]
    wd, D = mul(S, d, a, p); assert D == R[3]
    we, E = mul(Tt, e, a, p); l3, A = add(D, E, a, p); assert A == R[4]
    w2, D2 = mul(S, 2, a, p); assert D2 == R[2]
    for nm, P in (('S', S), ('T', Tt)):
        cert.append('Definition job_%s_%s : ecjob := %s.' % (name, nm, job(p, a, b, *P, n)))
    cert.append('(** inverses for 2 S, d S, e T; e T; the slopes of S + T, S - T, d S + e T *)\nDefinition %s_w : Z * Z * Z * (Z * Z) * Z * Z * Z :=\n  (%d, %d, %d, %s, %d, %d, %d).' % (name, w2, wd, we, pt(E), l1, l2, l3))
nist('p192', 2 ** 192 - 2 ** 64 - 1, 0x64210519e59c80e70fa7e9ab72243049feb8deecc146b9b1, 6277101735386680763835789423176059013767194773182842284081, 22, 67, False)
nist('p521', 2 ** 521 - 1, 0x051953eb9618e1c9a1f929a21a0b68540eea2da725b99b315f3b8b489918ef109e156193951ec7e937b1652c0bd3bb1bf073573df883d2c34f1ef451fd46b503f00,
     6864797660130609714981900799081393217269435300143305409394463459185543183397655394245057746333217197532963996371363321113864768612440380340372808892707005449, 84, 126, True)
# Curve25519
ns = nums(lines('test_curve25519.py', 29, 38)); g = lambda s: get(ns, s)[0]
dA, dB, xA, xB, xS = map(g, ['d_A', 'd_B', 'x_A', 'x_B', 'x_S'])
spec.append('(** ecc/test/test_curve25519.py:29-38: d_A, d_B, x_A, x_B, x_S *)\nDefinition curve25519_vector : Z * Z * Z * Z * Z :=\n  (%d,\n   %d,\n   %d,\n   %d,\n   %d).' % (dA, dB, xA, xB, xS))
p = 2 ** 255 - 19; a = 486662
third = a * pow(3, -1, p)
A = (3 - a * a) * pow(3, -1, p) % p
yG = 14781619447589544791020593568409986887264606134616475288964881837755586237401
up = lambda P: ((P[0] + third) % p, P[1])
down = lambda P: ((P[0] - third) % p, P[1])
wa, PA = mul(up((9, yG)), dA, A, p); PA = down(PA); assert PA[0] == xA
wb, PB = mul(up((9, yG)), dB, A, p); PB = down(PB); assert PB[0] == xB
ws, PS = mul(up(PB), dA, A, p); PS = down(PS); assert PS[0] == xS
cert.append('(** the coefficient of the short Weierstrass form and the shift of x *)\nDefinition c25519_form : nat * Z * Z * Z := (%d%%nat, %d, %d, %d).' % (limbs(p), r2(p, limbs(p)), A, third % p))
cert.append('(** inverses and y-coordinates for d_A G, d_B G, d_A (d_B G) *)\nDefinition c25519_w : (Z * Z) * (Z * Z) * (Z * Z) :=\n  ((%d, %d), (%d, %d), (%d, %d)).' % (wa, PA[1], wb, PB[1], ws, PS[1]))
R = here + '/../rocq/theories/'
open(R + 'Spec/CurveVectorSpec.v', 'w').write('(** Known answers in the curve tests.  Generated by tools/gen_vectors.py. *)\nFrom Coq Require Import ZArith List.\nImport ListNotations.\nLocal Open Scope Z_scope.\n\n' + '\n'.join(spec) + '\n')
open(R + 'Proofs/VectorCerts.v', 'w').write('(** Numbers for the verification of the vectors of Spec/CurveVectorSpec.v.  Generated by tools/gen_vectors.py. *)\nFrom Coq Require Import ZArith List.\nFrom Verif Require Import Proofs.EcCheck.\nImport ListNotations.\nLocal Open Scope Z_scope.\n\n' + '\n'.join(cert) + '\n')
