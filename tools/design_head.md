# Formal model of nymble/cryptopy in Rocq (Coq 8.16.1)

The sources in /repo are Python 2.  They were read as text; the model in
`rocq/theories` follows them function by function, and every definition of a
`Model/*.v` file cites the file and lines it transcribes.

(While surveying the repository, a transformed copy of `ecc/curves.py`, which is
a list of constants, was once evaluated by a Python 3 script in order to read
the constants; nothing else of the repository was ever run and /repo was not
changed.  The constants used in the model are transcribed from the text by a
small parser.)

This file is produced by `tools/design.py` from `tools/design_head.md`,
`tools/methods.json`, `tools/notes.json` and the output of `Print Assumptions`.

## Layout

* `theories/Model/`  transcription of the Python code (definitions only)
* `theories/Spec/`   small independent specifications (RFC, IEEE, textbook)
* `theories/Proofs/` lemmas and proofs
* `theories/Props/`  property theorems, each closed by `exact`, followed by
  `Print Assumptions`, and examples showing that the hypotheses are satisfiable
* `properties.jsonl` the properties, `MANIFEST.json` their status
* `seeded/LOG.jsonl` wrong programs tried against the theorems

## Semantics of Python used by the model

* Integers are `Z`; `/`, `%`, `divmod` are `Z.div`, `Z.modulo` (Python floors as
  `Z.div` does); a zero divisor raises `ZeroDivisionError`.  `& | ^ << >>` are
  `Z.land`, ... (two's complement semantics, as in Python).
* `str` is `list Z` with elements in 0..255.
* A call that may raise returns `res A := Ok a | Raise e`.  A `while` loop is a
  fuelled recursion; running out of fuel is the separate value
  `Raise OutOfFuel`, which no theorem treats as an ordinary exception.
  Termination is proved: the theorems state that some amount of fuel, and
  every larger one, gives the result.
* Objects are records threaded through the methods.
* External code (AES, SHA-1, `os.urandom`, the hash classes of another package)
  is a function parameter.

## What is modelled

All of cipher/encoding.py, cipher/common.py, cipher/chacha_poly.py (functions
and classes; its self-test data is not), cipher/aes_cmac.py, cipher/aes_siv.py,
hash/hmac.py, hash/pbkdf2.py, hash/prf_dot11.py, hash/michael.py,
hash/tkip_mic.py, hash/tkip_key_mixing.py, fmath/galoisfield.py, fmath/prime.py,
fmath/primes_to_5k.py, fmath/pi.py, ecc/numbertheory.py (except its `__main__`
test), ecc/ellipticcurve.py, ecc/ecc.py, ecc/curves.py, analysis/walshtransform.py,
analysis/sbox_nonlinearity.py, analysis/sbox_analysis.py.

## What is not modelled

* Printing, `__repr__`, docstrings, the test files and the
  `if __name__ == "__main__"` blocks.
* Floating point: `nonLinearity` returns a half-integer, of which the model
  gives the double (`_x2`); the bit count that is_prime computes through
  `math.log` is a parameter, constrained only where a theorem says so.
* Memory: the only limit modelled is the one on the length of the list built by
  `range` (OverflowError in square_root_mod_prime).  Loops that are merely slow
  are not distinguished from fast ones.
* Points with one coordinate None, integer exponents below zero,
  arguments of the wrong type.

## Trusted base

* Coq's kernel (and coqchk, whose `-norec` run is what vcheck does).
* The axioms listed below for each theorem; none is our own.  The theorems about
  the built-in curves (C71, C83, C84, C85, and those with `_builtin` or `_gost` in the name) and about pi (C79) compute with
  machine integers and so list the primitives and axioms of
  Coq.Numbers.Cyclic.Int63 (`PrimInt63.*`, `Uint63.*_spec`); C79 and C84 also list
  the axioms of the real numbers (Coq.Reals, Coq.Logic).
* coqchk lists, besides, the fields of sealed modules of mathcomp (finite
  types, choice, ssreflect locking) in the context of the files that import
  mathcomp; they are opaque definitions with a body in mathcomp, not assumptions
  of the theorems, as `Print Assumptions` shows.
* The faithfulness of the transcription in `Model/`, and of the `Spec/` files to
  the standards they quote.

## Findings

Properties that turned out false of the code, each with a theorem giving a
witness (`…_refuted`) and, where possible, the exact characterisation:

* C01 `ecc.int_to_string` ignores padto for 0.
* C03, C04 leading zero octets are lost by b27/b85/b94 and padto is ignored by
  the decoders; C05 b85encode does not emit the fixed 20 characters of RFC 1924.
* C09 splitting a message at a position that is not a multiple of 64 changes the
  ChaCha keystream; C10 the counter neither wraps nor is refused at 2^32;
  C11 an empty nonce is accepted.
* C15 Poly1305 keys of 17 octets or more are accepted; C17 AEAD decryption
  authenticates nothing; C19 ChaCha_Poly_AEAD raises on every input.
* C21 aes_cmac raises AssertionError for a concrete AES key (an intermediate
  with leading zero octets); C22 the cipher argument is ignored for the subkeys;
  C26 siv_encrypt is undefined for the same reason.
* C27, C28 over-long HMAC keys: wrong value and stale state after setKey;
  C29 pbkdf2 raises under Python 2.7; C30 PRF raises beyond 5120 octets.
* C33 the draft-2 framing drops the priority, the object is not callable;
  C35 setPnBytes then setKey leaves a stale phase-1 key; C37 the seed has TSC0 and
  TSC1 exchanged.
* C38 GF(p) elements differ from equal unreduced integers, is_element raises
  NameError; C39 negative divisors raise; C41 lcm(0,0) raises; C43 exponent 1 is
  returned unreduced.
* C46 square roots raise OverflowError for the field of secp224r1; C47, C48 wrong
  for p = 2; C50 a 256-bit composite passes is_prime, with consequences for
  factorization (C52) and phi (C53); C55 order_mod(8,7) = 2; C56
  largest_factor_relatively_prime(0, b) diverges.
* C61 scalar multiplication raises AssertionError for k = -1 mod n when 4 | n;
  C62 n*P is IDENTITY for every P, so the test suite's order check is vacuous;
  C63 wrong for points whose order does not divide n; C64 congruent coordinates
  are unequal points; C65 IDENTITY cannot be negated and points of order two
  cannot be doubled; C67 points cannot be serialised; C68, C69 Edwards and
  Montgomery curves cannot be constructed; C70 the ladder never reduces its
  integers.
* C71 for GOSTmsg05975sw the attribute n is 4q with q prime and the generator has
  order q = n/4; for the other 31 curves (and the NIST_* subclasses) n is the
  prime order of the generator.
* C61 on GOSTmsg05975sw scalar multiplication raises TypeError for k mod n = n/2
  and k mod n = n-1.
* C66 point decompression raises OverflowError on SECP_224r1 (NIST_P224),
  GOST2001_test and GOST2001_CryptoPro_B.
* C81 new_private_key may return 0 or a multiple of n.
* C82 seed_c is not SHA1(seed) as the comment says but the X9.62 expansion.
* C83 BrainPoolP256t1 lacks the attribute z that its siblings have.
* C87 on Montgomery curves n*P raises AssertionError where the result should be
  IDENTITY, and a negative scalar recurses for ever.
* C88 on twisted Edwards curves the point test has y for y^2: of the points of
  the curve only (0, 1) and those with y = 0 are accepted, and the latter cannot
  be doubled.
* C84 brainPoolRequirements raises NameError for every Brainpool curve (`prime`
  is not imported); brainpool_seeds raises TypeError (a string is raised) for
  more than 3321 bits or a number of bits that is no multiple of eight, and
  ValueError for seed_bits = 0 with num > 0; the field prime of BrainPoolP384r1
  comes from the seed one above the tabulated one.
* C86 the strength attribute of GOST2012_tc26_A, GOST2012_tc26_B and
  GOSTmsg05975te exceeds half of the bit length of n.
* C72 two curve classes share the identifier 'secp256r1'.
* C79 pi(0) returns all 50000 digits; pi(d) for -50001 <= d <= -3 raises TypeError
  (any other negative d ValueError).
* C74 nonLinearity of a single-entry table is -0.5; C76 the inner product is
  wrong for two negative arguments; C80 a one-entry S-box raises ValueError and
  the table labelled Streebog is another S-box.
* C89 five of the eight TKIP key mixing vectors of the test file (2, 5, 6, 7, 8)
  fail, as predicted by C37; the other vectors evaluated hold.
* C90 no Edwards or Montgomery class can be called and generator() fails on every
  Edwards class; the attribute n of GOSTmsg05975te is not the order of its
  generator (q is); Ed25519 has d = 1, four lines instead of a curve, and a
  generator on none of them; M511 lacks a (530438 is the only value that fits).
* C91 elements of different fields mix silently: the result lies in the field of
  the left operand and == compares residues only; C92 __cmp__ never returns -1,
  so < is never true and > is symmetric; C93 two objects of one curve class do
  not share points (curve objects are compared by identity).
* C94 every Poly1305 key has others with the same tags (the clamped bits); C95 an
  HMAC key or WPA pass phrase and the same followed by zero octets are
  equivalent, up to the block size (both as in the RFCs).
* C97 the alphabets of b27encode and b85encode are not in the order of the octets,
  so encoded numbers do not sort like the numbers even at equal length; neither do
  strings of int_to_string without padding.
* C98 montgomery_ladder gives 0 for every input whose order divides the private
  key (five abscissas of Curve25519 for the private keys of RFC 7748), and the
  package does not check for it; k and n - k share a public key.
* C101 str of a twisted Edwards point always raises AssertionError, because str
  builds the identity (0, -1) and on_curve, which has y where the equation has
  y^2, rejects it; the string of an element does not show its field.
* C104 to_octetstring calls a function that ellipticcurve.py does not import,
  from_octetstring and three methods of Michael raise a string (TypeError), and
  the functions of class permutation lack `self`, so none of them can be used.
* C105 for every key and every prefix of 4k octets some repetition of the prefix
  changes no Michael tag (true of the function of IEEE 802.11i as well).
