"""Writes Proofs/CurveOrder*.v: for each built-in short Weierstrass curve, the certificate chain of n and
the check that n annihilates the generator.  Chains come from tools/ecpp/chains.json."""
import json, os, sys
here = os.path.dirname(os.path.abspath(__file__))
sys.path[:0] = [here, here + '/ecpp']
from curves_text import classes, env_of
from emit import job, cert
chains = json.load(open(here + '/ecpp/chains.json'))
names = {}
files = {}
groups = {'160': '1', '192': '1', '224': '1', '256': '2', '320': '3', '384': '3', '512': '4', '521': '5'}
def group(name, bits):
    if name.startswith(('GOST2012', 'GOSTmsg')): return '5' if name.endswith(('_A', 'sw')) else '6'
    if name.startswith('GOST2001') or name.startswith('BrainPoolP256') or name == 'FRP256v1': return '7'
    return groups[str(min(b for b in map(int, groups) if b >= bits))]
for c in classes():
    if c[1] not in ('SmallWeierstrassCurveFp', 'KoblitzCurveFp'): continue
    e = env_of(c); n = e['n']
    if c[0] == 'GOSTmsg05975sw': n //= 4
    p, a = e['p'], e.get('a', 0)
    g = group(c[0], p.bit_length()); out = files.setdefault(g, [])
    out.append('(** %s *)' % c[0])
    if n in names: src = names[n]
    else:
        if c[0] not in chains: print('no chain', c[0]); files[g].pop(); continue
        names[n] = src = c[0]
        out.append('Definition chain_%s : list pcert := [\n  %s].' % (src, ';\n  '.join(map(cert, chains[src]))))
        out.append('Lemma prime_n_%s : prime %d.\nProof. apply (chain_prime chain_%s); vm_cast_no_check (eq_refl true). Qed.' % (src, n, src))
    out.append('Definition job_%s : ecjob := %s.' % (c[0], job(p, a, e['b'], e['xG'], e['yG'], n)))
    out.append('Lemma order_%s : job_ok job_%s %d.\nProof. apply job_check_ok; [exact prime_n_%s|vm_cast_no_check (eq_refl true)]. Qed.\n' % (c[0], c[0], n, src))
for g, out in files.items():
    open(here + '/../rocq/theories/Proofs/CurveOrder%s.v' % g, 'w').write(
'''(** Orders of the generators of built-in curves, checked by evaluation.  Generated by tools/gen_orders.py. *)
From Coq Require Import ZArith List Znumtheory.
From Verif Require Import Proofs.EcCheck Proofs.PrimeChain.
Import ListNotations.
Local Open Scope Z_scope.

''' + '\n'.join(out))
