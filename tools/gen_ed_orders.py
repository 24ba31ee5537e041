"""Writes Proofs/EdCerts.v: for each built-in Montgomery and Edwards curve whose generator has prime order, the
certificate chain of n and the check that n annihilates the image of the generator on the short Weierstrass form."""
import json, os, sys
here = os.path.dirname(os.path.abspath(__file__))
sys.path[:0] = [here, here + '/ecpp']
from curves_text import classes, env_of
from emit import job, cert
chains = json.load(open(here + '/ecpp/chains.json'))
out = []
def image(p, a, B, u, v):
    i = lambda z: pow(z, -1, p)
    return (3 - a * a) * i(3 * B * B) % p, (2 * a ** 3 - 9 * a) * i(27 * B ** 3) % p, (3 * u + a) * i(3 * B) % p, v * i(B) % p
for c in classes():
    if c[1] not in ('TwistedEdwardsCurveFp', 'EdwardsCurveFp', 'MontgomeryCurveFp') or c[0] == 'Ed25519': continue
    e = env_of(c); p, n, x, y = e['p'], e['n'], e['xG'], e['yG']
    src = c[0]
    out.append('(** %s *)' % c[0])
    if c[0] in chains:
        out.append('Definition chain_%s : list pcert := [\n  %s].' % (src, ';\n  '.join(map(cert, chains[src]))))
        out.append('Lemma prime_n_%s : prime %d.\nProof. apply (chain_prime chain_%s); vm_cast_no_check (eq_refl true). Qed.' % (src, n, src))
    if c[1] == 'MontgomeryCurveFp':
        a = e.get('a', 530438); B = 1; u, v = x, y
    else:
        ea, d = e.get('a', 1), e['d']
        i = lambda z: pow(z, -1, p)
        B = 4 * i(ea - d) % p; a = 2 * (ea + d) * i(ea - d) % p
        u = (1 + y) * i(1 - y) % p; v = u * i(x) % p
        out.append('Definition map_%s : Z * Z * Z * Z := (%d, %d, %d, %d).' % (c[0], a, B, u, v))
    if 'q' in e and c[0] == 'GOSTmsg05975te': n = e['q']; src = 'GOSTmsg05975sw'
    out.append('Definition job_%s : ecjob := %s.' % (c[0], job(p, *image(p, a, B, u, v), n)))
    out.append('Lemma order_%s : job_ok job_%s %d.\nProof. apply job_check_ok; [exact prime_n_%s|vm_cast_no_check (eq_refl true)]. Qed.\n' % (c[0], c[0], n, src))
open(here + '/../rocq/theories/Proofs/EdCerts.v', 'w').write(
'''(** Orders of the generators of the built-in Montgomery and Edwards curves, checked by evaluation.  Generated by tools/gen_ed_orders.py. *)
From Coq Require Import ZArith List Znumtheory.
From Verif Require Import Proofs.EcCheck Proofs.PrimeChain Proofs.CurveOrder5 Proofs.CurveOrder6.
Import ListNotations.
Local Open Scope Z_scope.

''' + '\n'.join(out))
