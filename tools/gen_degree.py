#!/usr/bin/env python3
"""Write rocq/theories/Proofs/DegreeCerts.v: for every (job, order) of Proofs/CurveParams.v the
inverse, modulo the order q, of the product of p^i - 1 for i = 1 .. 100."""
import re, os
here = os.path.dirname(os.path.abspath(__file__))
th = os.path.join(here, '..', 'rocq', 'theories', 'Proofs')
jobs = re.findall(r'\(job_(\w+), (\d+), (\d)\)', open(os.path.join(th, 'CurveParams.v')).read())
text = ''.join(open(os.path.join(th, 'CurveOrder%d.v' % i)).read() for i in range(1, 8))
def num(s): return int(s, 16) if s.startswith('0x') else int(s)
out = []
for name, q, m in jobs:
    q = int(q)
    p = num(re.search(r'job_%s : ecjob :=\s*ec_job (\d+) (0x[0-9a-fA-F]+|\d+)' % name, text).group(2))
    k = -(-(q.bit_length() + 14) // 30)
    R = 2 ** (30 * k)
    x, acc = 1, 1
    for i in range(100):
        x = x * p % q
        acc = acc * (x - 1) % q
    w = pow(acc, q - 2, q)
    assert acc * w % q == 1
    out.append('  (%d%%nat, %s, %s)' % (k, hex(R * R % q), hex(w)))
open(os.path.join(th, 'DegreeCerts.v'), 'w').write('''(** Certificates for the embedding degrees.  Generated by tools/gen_degree.py. *)
From Coq Require Import ZArith List.
Import ListNotations.
Local Open Scope Z_scope.

(** limbs, R^2 modulo the order q, the inverse of the product of p^i - 1 *)
Definition degree_certs : list (nat * Z * Z) := [
%s].
''' % ';\n'.join(out))
