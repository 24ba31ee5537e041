# Formal model of nymble/cryptopy in Rocq (Coq 8.16.1)

The sources in /repo are Python 2.  They were read as text; the model in
`rocq/theories` follows them function by function, and every definition of a
`Model/*.v` file cites the file and lines it transcribes.

(While surveying the repository, a transformed copy of `ecc/curves.py`, which is
a list of constants, was once evaluated by a Python 3 script in order to read
the constants; nothing else of the repository was ever run and /repo was not
changed.  The constants used in the model are transcribed from the text by a
small parser.)

This file is produced by `tools/design.py` from `tools/design_head.md`,
`tools/methods.json`, `tools/notes.json` and the output of `Print Assumptions`.

## Layout

* `theories/Model/`  transcription of the Python code (definitions only)
* `theories/Spec/`   small independent specifications (RFC, IEEE, textbook)
* `theories/Proofs/` lemmas and proofs
* `theories/Props/`  property theorems, each closed by `exact`, followed by
  `Print Assumptions`, and examples showing that the hypotheses are satisfiable
* `properties.jsonl` the properties, `MANIFEST.json` their status
* `seeded/LOG.jsonl` wrong programs tried against the theorems

## Semantics of Python used by the model

* Integers are `Z`; `/`, `%`, `divmod` are `Z.div`, `Z.modulo` (Python floors as
  `Z.div` does); a zero divisor raises `ZeroDivisionError`.  `& | ^ << >>` are
  `Z.land`, ... (two's complement semantics, as in Python).
* `str` is `list Z` with elements in 0..255.
* A call that may raise returns `res A := Ok a | Raise e`.  A `while` loop is a
  fuelled recursion; running out of fuel is the separate value
  `Raise OutOfFuel`, which no theorem treats as an ordinary exception.
  Termination is proved: the theorems state that some amount of fuel, and
  every larger one, gives the result.
* Objects are records threaded through the methods.
* External code (AES, SHA-1, `os.urandom`, the hash classes of another package)
  is a function parameter.

## What is modelled

All of cipher/encoding.py, cipher/common.py, cipher/chacha_poly.py (functions
and classes; its self-test data is not), cipher/aes_cmac.py, cipher/aes_siv.py,
hash/hmac.py, hash/pbkdf2.py, hash/prf_dot11.py, hash/michael.py,
hash/tkip_mic.py, hash/tkip_key_mixing.py, fmath/galoisfield.py, fmath/prime.py,
fmath/primes_to_5k.py, fmath/pi.py, ecc/numbertheory.py (except its `__main__`
test), ecc/ellipticcurve.py, ecc/ecc.py, ecc/curves.py, analysis/walshtransform.py,
analysis/sbox_nonlinearity.py, analysis/sbox_analysis.py.

## What is not modelled

* Printing, `__repr__`, docstrings, the test files and the
  `if __name__ == "__main__"` blocks.
* Floating point: `nonLinearity` returns a half-integer, of which the model
  gives the double (`_x2`); the bit count that is_prime computes through
  `math.log` is a parameter, constrained only where a theorem says so.
* Memory: the only limit modelled is the one on the length of the list built by
  `range` (OverflowError in square_root_mod_prime).  Loops that are merely slow
  are not distinguished from fast ones.
* Points with one coordinate None, integer exponents below zero,
  arguments of the wrong type.

## Trusted base

* Coq's kernel (and coqchk, whose `-norec` run is what vcheck does).
* The axioms listed below for each theorem; none is our own.  The theorems about
  the built-in curves (C71, C83, C84, C85, and those with `_builtin` or `_gost` in the name) and about pi (C79) compute with
  machine integers and so list the primitives and axioms of
  Coq.Numbers.Cyclic.Int63 (`PrimInt63.*`, `Uint63.*_spec`); C79 and C84 also list
  the axioms of the real numbers (Coq.Reals, Coq.Logic).
* coqchk lists, besides, the fields of sealed modules of mathcomp (finite
  types, choice, ssreflect locking) in the context of the files that import
  mathcomp; they are opaque definitions with a body in mathcomp, not assumptions
  of the theorems, as `Print Assumptions` shows.
* The faithfulness of the transcription in `Model/`, and of the `Spec/` files to
  the standards they quote.

## Findings

Properties that turned out false of the code, each with a theorem giving a
witness (`…_refuted`) and, where possible, the exact characterisation:

* C01 `ecc.int_to_string` ignores padto for 0.
* C03, C04 leading zero octets are lost by b27/b85/b94 and padto is ignored by
  the decoders; C05 b85encode does not emit the fixed 20 characters of RFC 1924.
* C09 splitting a message at a position that is not a multiple of 64 changes the
  ChaCha keystream; C10 the counter neither wraps nor is refused at 2^32;
  C11 an empty nonce is accepted.
* C15 Poly1305 keys of 17 octets or more are accepted; C17 AEAD decryption
  authenticates nothing; C19 ChaCha_Poly_AEAD raises on every input.
* C21 aes_cmac raises AssertionError for a concrete AES key (an intermediate
  with leading zero octets); C22 the cipher argument is ignored for the subkeys;
  C26 siv_encrypt is undefined for the same reason.
* C27, C28 over-long HMAC keys: wrong value and stale state after setKey;
  C29 pbkdf2 raises under Python 2.7; C30 PRF raises beyond 5120 octets.
* C33 the draft-2 framing drops the priority, the object is not callable;
  C35 setPnBytes then setKey leaves a stale phase-1 key; C37 the seed has TSC0 and
  TSC1 exchanged.
* C38 GF(p) elements differ from equal unreduced integers, is_element raises
  NameError; C39 negative divisors raise; C41 lcm(0,0) raises; C43 exponent 1 is
  returned unreduced.
* C46 square roots raise OverflowError for the field of secp224r1; C47, C48 wrong
  for p = 2; C50 a 256-bit composite passes is_prime, with consequences for
  factorization (C52) and phi (C53); C55 order_mod(8,7) = 2; C56
  largest_factor_relatively_prime(0, b) diverges.
* C61 scalar multiplication raises AssertionError for k = -1 mod n when 4 | n;
  C62 n*P is IDENTITY for every P, so the test suite's order check is vacuous;
  C63 wrong for points whose order does not divide n; C64 congruent coordinates
  are unequal points; C65 IDENTITY cannot be negated and points of order two
  cannot be doubled; C67 points cannot be serialised; C68, C69 Edwards and
  Montgomery curves cannot be constructed; C70 the ladder never reduces its
  integers.
* C71 for GOSTmsg05975sw the attribute n is 4q with q prime and the generator has
  order q = n/4; for the other 31 curves (and the NIST_* subclasses) n is the
  prime order of the generator.
* C61 on GOSTmsg05975sw scalar multiplication raises TypeError for k mod n = n/2
  and k mod n = n-1.
* C66 point decompression raises OverflowError on SECP_224r1 (NIST_P224),
  GOST2001_test and GOST2001_CryptoPro_B.
* C81 new_private_key may return 0 or a multiple of n.
* C82 seed_c is not SHA1(seed) as the comment says but the X9.62 expansion.
* C83 BrainPoolP256t1 lacks the attribute z that its siblings have.
* C87 on Montgomery curves n*P raises AssertionError where the result should be
  IDENTITY, and a negative scalar recurses for ever.
* C88 on twisted Edwards curves the point test has y for y^2: of the points of
  the curve only (0, 1) and those with y = 0 are accepted, and the latter cannot
  be doubled.
* C84 brainPoolRequirements raises NameError for every Brainpool curve (`prime`
  is not imported); brainpool_seeds raises TypeError (a string is raised) for
  more than 3321 bits or a number of bits that is no multiple of eight, and
  ValueError for seed_bits = 0 with num > 0; the field prime of BrainPoolP384r1
  comes from the seed one above the tabulated one.
* C86 the strength attribute of GOST2012_tc26_A, GOST2012_tc26_B and
  GOSTmsg05975te exceeds half of the bit length of n.
* C72 two curve classes share the identifier 'secp256r1'.
* C79 pi(0) returns all 50000 digits; pi(d) for -50001 <= d <= -3 raises TypeError
  (any other negative d ValueError).
* C74 nonLinearity of a single-entry table is -0.5; C76 the inner product is
  wrong for two negative arguments; C80 a one-entry S-box raises ValueError and
  the table labelled Streebog is another S-box.
* C89 five of the eight TKIP key mixing vectors of the test file (2, 5, 6, 7, 8)
  fail, as predicted by C37; the other vectors evaluated hold.
* C90 no Edwards or Montgomery class can be called and generator() fails on every
  Edwards class; the attribute n of GOSTmsg05975te is not the order of its
  generator (q is); Ed25519 has d = 1, four lines instead of a curve, and a
  generator on none of them; M511 lacks a (530438 is the only value that fits).
* C91 elements of different fields mix silently: the result lies in the field of
  the left operand and == compares residues only; C92 __cmp__ never returns -1,
  so < is never true and > is symmetric; C93 two objects of one curve class do
  not share points (curve objects are compared by identity).
* C94 every Poly1305 key has others with the same tags (the clamped bits); C95 an
  HMAC key or WPA pass phrase and the same followed by zero octets are
  equivalent, up to the block size (both as in the RFCs).
* C97 the alphabets of b27encode and b85encode are not in the order of the octets,
  so encoded numbers do not sort like the numbers even at equal length; neither do
  strings of int_to_string without padding.
* C98 montgomery_ladder gives 0 for every input whose order divides the private
  key (five abscissas of Curve25519 for the private keys of RFC 7748), and the
  package does not check for it; k and n - k share a public key.
* C101 str of a twisted Edwards point always raises AssertionError, because str
  builds the identity (0, -1) and on_curve, which has y where the equation has
  y^2, rejects it; the string of an element does not show its field.
* C104 to_octetstring calls a function that ellipticcurve.py does not import,
  from_octetstring and three methods of Michael raise a string (TypeError), and
  the functions of class permutation lack `self`, so none of them can be used.
* C105 for every key and every prefix of 4k octets some repetition of the prefix
  changes no Michael tag (true of the function of IEEE 802.11i as well).

## Axioms per theorem

`Print Assumptions` reports "Closed under the global context" for 362 of the 395 theorems.
The others use only axioms of the standard library:

* `C84_seeds`: `Uint63.sub_spec`, `PrimInt63.sub`, `ClassicalDedekindReals.sig_not_dec`, `ClassicalDedekindReals.sig_forall_dec`, `Uint63.of_to_Z`, `Uint63.mulc_spec`, `PrimInt63.mulc`, `Uint63.mul_spec`, `PrimInt63.mul`, `Uint63.mod_spec`, `PrimInt63.mod`, `Uint63.ltb_spec`, `PrimInt63.ltb`, `Uint63.lsr_spec`, `PrimInt63.lsr`, `Uint63.lsl_spec`, `PrimInt63.lsl`, `Uint63.lor_spec`, `PrimInt63.lor`, `Uint63.leb_spec`, `PrimInt63.leb`, `PrimInt63.land`, `PrimInt63.int`, `FunctionalExtensionality.functional_extensionality_dep`, `Uint63.eqb_refl`, `Uint63.eqb_correct`, `PrimInt63.eqb`, `Uint63.diveucl_21_spec`, `PrimInt63.diveucl_21`, `Uint63.div_spec`, `PrimInt63.div`, `Classical_Prop.classic`, `Uint63.add_spec`, `PrimInt63.add`.
* `C84_raises`, `C79_default`, `C79_large`, `C79_negative`: `PrimInt63.sub`, `PrimInt63.mulc`, `PrimInt63.mul`, `PrimInt63.lsr`, `PrimInt63.lsl`, `PrimInt63.lor`, `PrimInt63.land`, `PrimInt63.int`, `PrimInt63.eqb`, `PrimInt63.diveucl_21`, `PrimInt63.add`.
* `C84_seed_p`: `PrimInt63.sub`, `PrimInt63.mulc`, `Uint63.mul_spec`, `PrimInt63.mul`, `Uint63.mod_spec`, `PrimInt63.mod`, `Uint63.ltb_spec`, `PrimInt63.ltb`, `PrimInt63.lsr`, `PrimInt63.lsl`, `PrimInt63.lor`, `PrimInt63.land`, `PrimInt63.int`, `PrimInt63.eqb`, `PrimInt63.diveucl_21`, `Uint63.div_spec`, `PrimInt63.div`, `Uint63.add_spec`, `PrimInt63.add`.
* `C84_seed_ab`: `ClassicalDedekindReals.sig_not_dec`, `ClassicalDedekindReals.sig_forall_dec`, `FunctionalExtensionality.functional_extensionality_dep`.
* `C84_parameters`, `C84_requirements_refuted`, `C98_curve25519`, `C98_public_keys`, `C98_refuted`, `C71_parameters`, `C71_order`, `C71_refuted`, `C61_builtin`, `C77_builtin`, `C89_secp256k1`, `C89_p192_scalar`, `C89_p521`, `C89_curve25519`, `C90_edwards`, `C90_montgomery`, `C90_gost_refuted`, `C90_ed25519_refuted`, `C90_m511_refuted`, `C61_gost`, `C66_builtin`, `C83_isomorphism`, `C85_embedding`: `Uint63.sub_spec`, `PrimInt63.sub`, `Uint63.of_to_Z`, `Uint63.mul_spec`, `PrimInt63.mul`, `Uint63.mod_spec`, `PrimInt63.mod`, `Uint63.ltb_spec`, `PrimInt63.ltb`, `Uint63.lsr_spec`, `PrimInt63.lsr`, `Uint63.lsl_spec`, `PrimInt63.lsl`, `Uint63.lor_spec`, `PrimInt63.lor`, `Uint63.leb_spec`, `PrimInt63.leb`, `PrimInt63.land`, `PrimInt63.int`, `Uint63.eqb_refl`, `Uint63.eqb_correct`, `PrimInt63.eqb`, `Uint63.div_spec`, `PrimInt63.div`, `Uint63.add_spec`, `PrimInt63.add`.
* `C79_digits`, `C79_truncation`, `C79_zero_refuted`: `Uint63.sub_spec`, `PrimInt63.sub`, `ClassicalDedekindReals.sig_not_dec`, `ClassicalDedekindReals.sig_forall_dec`, `Uint63.of_to_Z`, `Uint63.mulc_spec`, `PrimInt63.mulc`, `Uint63.mul_spec`, `PrimInt63.mul`, `Uint63.ltb_spec`, `PrimInt63.ltb`, `Uint63.lsr_spec`, `PrimInt63.lsr`, `Uint63.lsl_spec`, `PrimInt63.lsl`, `Uint63.lor_spec`, `PrimInt63.lor`, `Uint63.leb_spec`, `PrimInt63.leb`, `PrimInt63.land`, `PrimInt63.int`, `FunctionalExtensionality.functional_extensionality_dep`, `Uint63.eqb_refl`, `Uint63.eqb_correct`, `PrimInt63.eqb`, `Uint63.diveucl_21_spec`, `PrimInt63.diveucl_21`, `Classical_Prop.classic`, `Uint63.add_spec`, `PrimInt63.add`.

## Properties

### C01 Integer/octet-string codec round trip

* Modelled: `Model/Encoding.v` (cipher/encoding.py, cipher/common.py, codecs of ecc/ecc.py); independent positional-value specification in `Spec/EncodingSpec.v`.
* Proof: induction on the number of digits; uniqueness of positional representations (`Proofs/EncodingProofs.v`).
* Status: proved. Full characterisation of int_to_string/string_to_int. REFUTED for the copy in ecc/ecc.py: padto is ignored for 0 (C01_ecc_padding_refuted).
* Theorems: `C01_ecc_edges`, `C01_int_to_string_shortest`, `C01_int_to_string_total`, `C01_int_to_string_padded`, `C01_int_to_string_does_not_fit`, `C01_int_to_string_negative`, `C01_pad_zero_is_no_pad`, `C01_round_trip`, `C01_ecc_int_to_string`, `C01_ecc_padding_refuted`

### C02 Octet strings survive string_to_int followed by int_to_string(padto=len)

* Modelled: `Model/Encoding.v` (cipher/encoding.py, cipher/common.py, codecs of ecc/ecc.py); independent positional-value specification in `Spec/EncodingSpec.v`.
* Proof: induction on the number of digits; uniqueness of positional representations (`Proofs/EncodingProofs.v`).
* Status: proved. Proved for every octet string.
* Theorems: `C02_string_round_trip_padded`, `C02_string_round_trip_strips`, `C02_string_to_int_value`

### C03 Text encodings b27/b85/b94 are lossless

* Modelled: `Model/Encoding.v` (cipher/encoding.py, cipher/common.py, codecs of ecc/ecc.py); independent positional-value specification in `Spec/EncodingSpec.v`.
* Proof: induction on the number of digits; uniqueness of positional representations (`Proofs/EncodingProofs.v`).
* Status: proved. REFUTED as stated (leading zero octets are lost); the exact set of strings that survive is proved (C03_round_trip_iff).
* Theorems: `C03_round_trip_iff`, `C03_encode_total`, `C03_decode_of_encode`, `C03_lossless_refuted`

### C04 padto restores the length when decoding b27/b85/b94 text

* Modelled: `Model/Encoding.v` (cipher/encoding.py, cipher/common.py, codecs of ecc/ecc.py); independent positional-value specification in `Spec/EncodingSpec.v`.
* Proof: induction on the number of digits; uniqueness of positional representations (`Proofs/EncodingProofs.v`).
* Status: proved. REFUTED: the three decoders ignore padto; base_N_decode itself honours it (C04_base_N_decode_padded).
* Theorems: `C04_padto_is_ignored`, `C04_padto_restores_length_refuted`, `C04_base_N_decode_padded`

### C05 Text codec alphabet discipline and injectivity

* Modelled: `Model/Encoding.v` (cipher/encoding.py, cipher/common.py, codecs of ecc/ecc.py); independent positional-value specification in `Spec/EncodingSpec.v`.
* Proof: induction on the number of digits; uniqueness of positional representations (`Proofs/EncodingProofs.v`).
* Status: proved. Proved for every alphabet of at least two distinct characters; additionally REFUTED that b85encode always emits the 20 characters of RFC 1924.
* Theorems: `C05_printable`, `C05_encoder_alphabet_and_length`, `C05_decoder_accepts_alphabet`, `C05_decoder_rejects_others`, `C05_encoder_injective`, `C05_alphabets`, `C05_rfc1924_length_refuted`

### C06 ChaCha decrypts what it encrypted

* Modelled: `Model/ChaCha.v` against `Spec/ChaChaSpec.v`, the RFC 7539 matrices over words modulo 2^32.
* Proof: bit-level lemmas for 32-bit words (`Proofs/Bits.v`), inverse rounds exhibited (`Proofs/ChaChaInv.v`), histories by induction on the list of calls (`Proofs/ChaChaHist.v`).
* Status: proved. Proved for every key, nonce, counter and message.
* Theorems: `C06_round_trip`, `C06_defined`

### C07 ChaCha equals the RFC 7539 cipher

* Modelled: `Model/ChaCha.v` against `Spec/ChaChaSpec.v`, the RFC 7539 matrices over words modulo 2^32.
* Proof: bit-level lemmas for 32-bit words (`Proofs/Bits.v`), inverse rounds exhibited (`Proofs/ChaChaInv.v`), histories by induction on the list of calls (`Proofs/ChaChaHist.v`).
* Status: proved. Proved: word function, double round, block function and encrypt equal an independent transcription of RFC 7539 while the counter stays below 2^32.
* Theorems: `C07_quarter_round`, `C07_inner_block`, `C07_block`, `C07_encrypt`

### C08 A ChaCha object never reuses a keystream block

* Modelled: `Model/ChaCha.v` against `Spec/ChaChaSpec.v`, the RFC 7539 matrices over words modulo 2^32.
* Proof: bit-level lemmas for 32-bit words (`Proofs/Bits.v`), inverse rounds exhibited (`Proofs/ChaChaInv.v`), histories by induction on the list of calls (`Proofs/ChaChaHist.v`).
* Status: proved. Proved for every history of encrypt/decrypt calls.
* Theorems: `C08_history`, `C08_call_position`, `C08_runs_disjoint`, `C08_counter_after`

### C09 Splitting a message over several encrypt calls

* Modelled: `Model/ChaCha.v` against `Spec/ChaChaSpec.v`, the RFC 7539 matrices over words modulo 2^32.
* Proof: bit-level lemmas for 32-bit words (`Proofs/Bits.v`), inverse rounds exhibited (`Proofs/ChaChaInv.v`), histories by induction on the list of calls (`Proofs/ChaChaHist.v`).
* Status: proved. REFUTED as stated; proved for splits at a multiple of 64 octets or an empty second part.
* Theorems: `C09_split_at_block`, `C09_split_elsewhere_refuted`

### C10 ChaCha block counter is a 32-bit counter

* Modelled: `Model/ChaCha.v` against `Spec/ChaChaSpec.v`, the RFC 7539 matrices over words modulo 2^32.
* Proof: bit-level lemmas for 32-bit words (`Proofs/Bits.v`), inverse rounds exhibited (`Proofs/ChaChaInv.v`), histories by induction on the list of calls (`Proofs/ChaChaHist.v`).
* Status: proved. REFUTED: the block after counter 2^32-1 is neither an error nor block 0; any initial counter is accepted.
* Theorems: `C10_counter_wraps_refuted`, `C10_counter_unchecked`

### C11 Key and nonce sizes are enforced

* Modelled: `Model/ChaCha.v` against `Spec/ChaChaSpec.v`, the RFC 7539 matrices over words modulo 2^32.
* Proof: bit-level lemmas for 32-bit words (`Proofs/Bits.v`), inverse rounds exhibited (`Proofs/ChaChaInv.v`), histories by induction on the list of calls (`Proofs/ChaChaHist.v`).
* Status: proved. REFUTED for the empty nonce (also through the AEAD); the accepted argument sizes are characterised exactly.
* Theorems: `C11_accepted_iff`, `C11_empty_nonce_refuted`, `C11_aead_empty_nonce_refuted`, `C11_aead_rejects`

### C12 ChaCha rounds are invertible

* Modelled: `Model/ChaCha.v` against `Spec/ChaChaSpec.v`, the RFC 7539 matrices over words modulo 2^32.
* Proof: bit-level lemmas for 32-bit words (`Proofs/Bits.v`), inverse rounds exhibited (`Proofs/ChaChaInv.v`), histories by induction on the list of calls (`Proofs/ChaChaHist.v`).
* Status: proved. Proved: injective and onto for all states of 32-bit words.
* Theorems: `C12_quarter_round_injective`, `C12_quarter_round_onto`, `C12_inner_block_injective`, `C12_inner_block_onto`, `C12_word_function_bijective`

### C13 poly1305_mac computes the Poly1305 polynomial

* Modelled: `Model/ChaCha.v` (poly1305_mac, ChaCha20_AEAD, ChaCha_Poly_AEAD) against `Spec/ChaChaSpec.v`.
* Proof: Horner evaluation equals the sum of powers (`Proofs/PolyProofs.v`); AEAD by unfolding; refutations by evaluation of a witness.
* Status: proved. Proved against the sum-of-powers definition.
* Theorems: `C13_poly1305`, `C13_tag_size`

### C14 Poly1305 is almost universal

* Modelled: poly1305_mac of `Model/ChaCha.v`.
* Proof: 2^130-5 is prime by a Pocklington certificate (`Proofs/Pocklington.v`, `Proofs/PrimeCert.v`); a polynomial of degree d has at most d roots modulo a prime (`Proofs/Universal.v`).
* Status: proved. Proved: at most 8 times the number of blocks among keys with pairwise different clamped r; 2^130-5 is proved prime with a Pocklington certificate, the count is by roots of polynomials modulo a prime.
* Theorems: `C14_almost_universal`, `C14_polynomials_differ`

### C15 poly1305_mac rejects keys that are not 32 octets

* Modelled: `Model/ChaCha.v` (poly1305_mac, ChaCha20_AEAD, ChaCha_Poly_AEAD) against `Spec/ChaChaSpec.v`.
* Proof: Horner evaluation equals the sum of powers (`Proofs/PolyProofs.v`); AEAD by unfolding; refutations by evaluation of a witness.
* Status: proved. REFUTED: 17 octets or more are accepted; exact characterisation proved.
* Theorems: `C15_key_lengths`, `C15_wrong_size_refuted`, `C15_extra_octets_ignored`

### C16 ChaCha20_AEAD equals the RFC 7539 AEAD and decrypt recovers the plaintext

* Modelled: `Model/ChaCha.v` (poly1305_mac, ChaCha20_AEAD, ChaCha_Poly_AEAD) against `Spec/ChaChaSpec.v`.
* Proof: Horner evaluation equals the sum of powers (`Proofs/PolyProofs.v`); AEAD by unfolding; refutations by evaluation of a witness.
* Status: proved. Proved against an independent transcription of the RFC 7539 AEAD.
* Theorems: `C16_encrypt`, `C16_decrypt_recovers`

### C17 AEAD decryption authenticates

* Modelled: `Model/ChaCha.v` (poly1305_mac, ChaCha20_AEAD, ChaCha_Poly_AEAD) against `Spec/ChaChaSpec.v`.
* Proof: Horner evaluation equals the sum of powers (`Proofs/PolyProofs.v`); AEAD by unfolding; refutations by evaluation of a witness.
* Status: proved. REFUTED: every ciphertext is accepted and the returned tag is that of the plaintext.
* Theorems: `C17_never_rejects`, `C17_tag_recomputed_refuted`, `C17_decrypt_tag`

### C18 AEAD MAC input is unambiguous

* Modelled: `Model/ChaCha.v` (poly1305_mac, ChaCha20_AEAD, ChaCha_Poly_AEAD) against `Spec/ChaChaSpec.v`.
* Proof: Horner evaluation equals the sum of powers (`Proofs/PolyProofs.v`); AEAD by unfolding; refutations by evaluation of a witness.
* Status: proved. Proved.
* Theorems: `C18_mac_input_injective`, `C18_mac_input`

### C19 ChaCha_Poly_AEAD can be used

* Modelled: `Model/ChaCha.v` (poly1305_mac, ChaCha20_AEAD, ChaCha_Poly_AEAD) against `Spec/ChaChaSpec.v`.
* Proof: Horner evaluation equals the sum of powers (`Proofs/PolyProofs.v`); AEAD by unfolding; refutations by evaluation of a witness.
* Status: proved. REFUTED: both methods raise on every input (read from the source: super() without arguments, undefined name).
* Theorems: `C19_unusable_refuted`, `C19_errors`

### C20 aes_cmac equals RFC 4493 whenever it returns

* Modelled: `Model/CmacSiv.v` over an arbitrary 16-octet block cipher, `Spec/CmacSivSpec.v` (RFC 4493, RFC 5297), `Spec/AesSpec.v` (FIPS 197, for the witnesses).
* Proof: `Proofs/CmacSivProofs.v`, `Proofs/SivProofs.v`: doubling as multiplication by x, induction over blocks and over the list of strings.
* Status: proved. Proved for every cipher class with 16-octet blocks, every key and message (AES instance checked against RFC 4493 vectors).
* Theorems: `C20_cmac`, `C20_bad_key`

### C21 aes_cmac is defined for every key

* Modelled: `Model/CmacSiv.v` over an arbitrary 16-octet block cipher, `Spec/CmacSivSpec.v` (RFC 4493, RFC 5297), `Spec/AesSpec.v` (FIPS 197, for the witnesses).
* Proof: `Proofs/CmacSivProofs.v`, `Proofs/SivProofs.v`: doubling as multiplication by x, induction over blocks and over the list of strings.
* Status: proved. REFUTED: with FIPS 197 AES a concrete valid key makes every call raise; C21_exact says exactly when the call raises for any cipher.
* Theorems: `C21_exact`, `C21_refuted`, `C21_weak_key`

### C22 aes_cmac honours the CIPH argument

* Modelled: `Model/CmacSiv.v` over an arbitrary 16-octet block cipher, `Spec/CmacSivSpec.v` (RFC 4493, RFC 5297), `Spec/AesSpec.v` (FIPS 197, for the witnesses).
* Proof: `Proofs/CmacSivProofs.v`, `Proofs/SivProofs.v`: doubling as multiplication by x, induction over blocks and over the list of strings.
* Status: proved. REFUTED: the subkeys come from AES whatever CIPH is.
* Theorems: `C22_refuted`

### C23 dbl is multiplication by x in GF(2^128)

* Modelled: `Model/CmacSiv.v` over an arbitrary 16-octet block cipher, `Spec/CmacSivSpec.v` (RFC 4493, RFC 5297), `Spec/AesSpec.v` (FIPS 197, for the witnesses).
* Proof: `Proofs/CmacSivProofs.v`, `Proofs/SivProofs.v`: doubling as multiplication by x, induction over blocks and over the list of strings.
* Status: proved. Proved: dbl (and subkey) multiply by x modulo the GF(2^128) polynomial, linear, injective.
* Theorems: `C23_mult`, `C23_linear`, `C23_injective`, `C23_subkeys`

### C24 AES-SIV decrypts what it encrypted

* Modelled: `Model/CmacSiv.v` over an arbitrary 16-octet block cipher, `Spec/CmacSivSpec.v` (RFC 4493, RFC 5297), `Spec/AesSpec.v` (FIPS 197, for the witnesses).
* Proof: `Proofs/CmacSivProofs.v`, `Proofs/SivProofs.v`: doubling as multiplication by x, induction over blocks and over the list of strings.
* Status: proved. Proved for every 16-octet block cipher, key, message and list of associated data.
* Theorems: `C24_round_trip`

### C25 AES-SIV accepts only genuine ciphertexts

* Modelled: `Model/CmacSiv.v` over an arbitrary 16-octet block cipher, `Spec/CmacSivSpec.v` (RFC 4493, RFC 5297), `Spec/AesSpec.v` (FIPS 197, for the witnesses).
* Proof: `Proofs/CmacSivProofs.v`, `Proofs/SivProofs.v`: doubling as multiplication by x, induction over blocks and over the list of strings.
* Status: proved. Proved.
* Theorems: `C25_genuine`, `C25_short`, `C25_change`

### C26 AES-SIV equals RFC 5297

* Modelled: `Model/CmacSiv.v` over an arbitrary 16-octet block cipher, `Spec/CmacSivSpec.v` (RFC 4493, RFC 5297), `Spec/AesSpec.v` (FIPS 197, for the witnesses).
* Proof: `Proofs/CmacSivProofs.v`, `Proofs/SivProofs.v`: doubling as multiplication by x, induction over blocks and over the list of strings.
* Status: proved. Equality with RFC 5297 proved whenever siv_encrypt returns (messages up to 2^31 blocks); always-returns is REFUTED (C26_refuted), C26_defined gives the sufficient condition on the subkeys; counters proved distinct.
* Theorems: `C26_rfc5297`, `C26_defined`, `C26_refuted`, `C26_counters`, `C26_bad_key`, `C26_empty`

### C27 HMAC depends only on the concatenation of the updates since the last reset

* Modelled: `Model/Hmac.v` over an arbitrary incremental hash (or PRF), `Spec/HmacSpec.v` (RFC 2104, RFC 2898, IEEE 802.11i).
* Proof: invariant on the object state, induction on the list of calls (`Proofs/HmacProofs.v`).
* Status: proved. Proved for every hash class whose digest depends only on the octets absorbed since the last reset, keys up to one block, any history of calls; histories with setKey of an over-long key are REFUTED (C27_rekey_refuted).
* Theorems: `C27_histories`, `C27_digest_pure`, `C27_rekey_refuted`

### C28 HMAC equals RFC 2104

* Modelled: `Model/Hmac.v` over an arbitrary incremental hash (or PRF), `Spec/HmacSpec.v` (RFC 2104, RFC 2898, IEEE 802.11i).
* Proof: invariant on the object state, induction on the list of calls (`Proofs/HmacProofs.v`).
* Status: proved. Equality with RFC 2104 proved for all keys up to one block; for longer keys C28_long_keys gives what is computed and C28_long_keys_refuted shows it differs.
* Theorems: `C28_rfc2104`, `C28_long_keys`, `C28_long_keys_refuted`

### C29 pbkdf2 equals PBKDF2 of RFC 2898

* Modelled: `Model/Hmac.v` over an arbitrary incremental hash (or PRF), `Spec/HmacSpec.v` (RFC 2104, RFC 2898, IEEE 802.11i).
* Proof: invariant on the object state, induction on the list of calls (`Proofs/HmacProofs.v`).
* Status: proved. Equality with RFC 2898 proved over an arbitrary PRF, including the limits; under Python 2.7 the function always raises (C29_python27_refuted).
* Theorems: `C29_zero_digest`, `C29_index`, `C29_rfc2898`, `C29_limits`, `C29_python27_always_raises`, `C29_python27_refuted`, `C29_wpa_psk`

### C30 PRF output is exact, prefix consistent, and defined for every length

* Modelled: `Model/Hmac.v` over an arbitrary incremental hash (or PRF), `Spec/HmacSpec.v` (RFC 2104, RFC 2898, IEEE 802.11i).
* Proof: invariant on the object state, induction on the list of calls (`Proofs/HmacProofs.v`).
* Status: proved. Exact value, length, prefix and ragged-length facts proved; raising beyond 5120 octets is REFUTED as a definedness claim (C30_defined_refuted).
* Theorems: `C30_exact`, `C30_length`, `C30_prefix`, `C30_ragged`, `C30_long_raises`, `C30_defined_refuted`

### C31 Michael equals the IEEE 802.11i function

* Modelled: `Model/Michael.v`, `Spec/MichaelSpec.v` (IEEE 802.11i).
* Proof: explicit inverse of the block function; framing by positional arguments (`Proofs/MichaelProofs.v`).
* Status: proved. Proved against an independent transcription of IEEE 802.11i Michael, including padding injectivity and the bad-key exception.
* Theorems: `C31_no_key`, `C31_ieee`, `C31_padding_injective`, `C31_bad_key`

### C32 Michael is invertible: MIC and message determine the key

* Modelled: `Model/Michael.v`, `Spec/MichaelSpec.v` (IEEE 802.11i).
* Proof: explicit inverse of the block function; framing by positional arguments (`Proofs/MichaelProofs.v`).
* Status: proved. Proved by an explicit inverse of the block function.
* Theorems: `C32_bijection`, `C32_keys_differ`

### C33 TKIP MIC framing is unambiguous and usable as a hash object

* Modelled: `Model/Michael.v`, `Spec/MichaelSpec.v` (IEEE 802.11i).
* Proof: explicit inverse of the block function; framing by positional arguments (`Proofs/MichaelProofs.v`).
* Status: proved. Framing, unambiguity (draft 3) and bad arguments proved; the draft-2 framing drops the priority and the object is not callable: both REFUTED.
* Theorems: `C33_frame`, `C33_unambiguous`, `C33_bad_arguments`, `C33_draft2_refuted`, `C33_callable_refuted`

### C34 TKIP key mixer cache is transparent

* Modelled: TKIP_Mixer of `Model/Michael.v` over an arbitrary S-box table, `Spec/MichaelSpec.v`.
* Proof: state-machine invariant over every history of calls; injectivity by running both phases backwards (`Proofs/TkipProofs.v`).
* Status: proved. Proved for every S-box and every history of constructor, setKey, setTA, newKey calls, including failing ones.
* Theorems: `C34_setters`, `C34_newKey`, `C34_cache_transparent`

### C35 TKIP key mixer cache is transparent even when setPnBytes is used directly

* Modelled: TKIP_Mixer of `Model/Michael.v` over an arbitrary S-box table, `Spec/MichaelSpec.v`.
* Proof: state-machine invariant over every history of calls; injectivity by running both phases backwards (`Proofs/TkipProofs.v`).
* Status: proved. REFUTED: setPnBytes followed by setKey leaves a stale phase-1 key.
* Theorems: `C35_setPnBytes_refuted`

### C36 TKIP per-packet keys are unique

* Modelled: TKIP_Mixer of `Model/Michael.v` over an arbitrary S-box table, `Spec/MichaelSpec.v`.
* Proof: state-machine invariant over every history of calls; injectivity by running both phases backwards (`Proofs/TkipProofs.v`).
* Status: proved. Proved for every S-box by running both phases backwards.
* Theorems: `C36_injective`

### C37 TKIP key mixing equals IEEE 802.11i

* Modelled: TKIP_Mixer of `Model/Michael.v` over an arbitrary S-box table, `Spec/MichaelSpec.v`.
* Proof: state-machine invariant over every history of calls; injectivity by running both phases backwards (`Proofs/TkipProofs.v`).
* Status: proved. Phase 1 and seed octets 3..15 proved equal to IEEE 802.11i; the whole seed is equal exactly when TSC0 = TSC1, so the property is REFUTED in general.
* Theorems: `C37_phase1`, `C37_last13`, `C37_exactly_when`, `C37_refuted`

### C38 GF(p) elements compute modulo p

* Modelled: `Model/GaloisField.v`.
* Proof: arithmetic modulo p; Bezout invariant of egcd (`Proofs/GfProofs.v`).
* Status: proved. Proved for elements and integer operands on either side. REFUTED for equality with an integer outside [0,p), and is_element always raises NameError.
* Theorems: `C38_arithmetic`, `C38_power`, `C38_equality`, `C38_int_equality_refuted`, `C38_is_element_raises`

### C39 GF(p) division

* Modelled: `Model/GaloisField.v`.
* Proof: arithmetic modulo p; Bezout invariant of egcd (`Proofs/GfProofs.v`).
* Status: proved. Proved for every non-negative divisor that is non-zero mod p, and zero raises; REFUTED for negative integer divisors, which always raise.
* Theorems: `C39_division`, `C39_int_divided_by_element`, `C39_zero_raises`, `C39_negative_refuted`

### C40 Modular inverse

* Modelled: `Model/NumberTheory.v`, `Spec/NumberSpec.v`.
* Proof: loop invariants with explicit fuel bounds (`Proofs/NTBasic.v`), polynomial identities over Z (`Proofs/NTPoly.v`, `Proofs/NTRange.v`).
* Status: proved. Proved with termination: enough fuel exists for every input.
* Theorems: `C40_inverse`

### C41 gcd and lcm

* Modelled: `Model/NumberTheory.v`, `Spec/NumberSpec.v`.
* Proof: loop invariants with explicit fuel bounds (`Proofs/NTBasic.v`), polynomial identities over Z (`Proofs/NTPoly.v`, `Proofs/NTRange.v`).
* Status: proved. Proved with termination; REFUTED for lcm(0,0), which divides by zero.
* Theorems: `C41_gcd2`, `C41_gcd`, `C41_lcm`, `C41_lcm_zeros_refuted`

### C42 modular_exp

* Modelled: `Model/NumberTheory.v`, `Spec/NumberSpec.v`.
* Proof: loop invariants with explicit fuel bounds (`Proofs/NTBasic.v`), polynomial identities over Z (`Proofs/NTPoly.v`, `Proofs/NTRange.v`).
* Status: proved. Proved.
* Theorems: `C42_modular_exp`, `C42_negative`

### C43 Polynomial arithmetic modulo (f, p)

* Modelled: `Model/NumberTheory.v`, `Spec/NumberSpec.v`.
* Proof: loop invariants with explicit fuel bounds (`Proofs/NTBasic.v`), polynomial identities over Z (`Proofs/NTPoly.v`, `Proofs/NTRange.v`).
* Status: proved. Proved as an identity of integer polynomials (r = e + q f + p h); REFUTED that exp_mod always reduces: exponent 1 returns the base unchanged.
* Theorems: `C43_checks`, `C43_multiply`, `C43_power`, `C43_unreduced_base_refuted`, `C43_bad_modulus`

### C44 jacobi computes the Jacobi symbol

* Modelled: jacobi of `Model/NumberTheory.v`.
* Proof: quadratic reciprocity and both supplements are proved from Gauss sums over a finite field extension (mathcomp; `Proofs/Legendre.v`, `Proofs/QuadRec.v`, `Proofs/UnitRoots.v`); the loop by strong induction (`Proofs/Jacobi.v`).
* Status: proved. Model jacobi (fuel for the recursion). For every odd n >= 3 and every a: terminates, the result is the product of Legendre symbols over a prime factorisation and is the only such value; equals the Legendre symbol for prime n. Rests on quadratic reciprocity, proved from Gauss sums in a finite field extension. Other arguments raise AssertionError.
* Theorems: `C44_jacobi`, `C44_bad_arguments`

### C45 square_root_mod_prime

* Modelled: square_root_mod_prime, modular_sqrt, legendre_symbol of `Model/NumberTheory.v`.
* Proof: Euler's criterion; Cipolla's algorithm in GF(p^2) (`Proofs/Cipolla.v`); Tonelli-Shanks invariant (`Proofs/Sqrt.v`).
* Status: proved. Model square_root_mod_prime. For every prime p (2 included) and 0 <= a < p; p = 1 mod 8 under the hypothesis that range(2,p) can be built. The p = 1 mod 8 branch is proved in GF(p^2) and shows that the inner assertion never fails, and that the search for b succeeds.
* Theorems: `C45_square_root`

### C46 square roots exist for all supported curve fields

* Modelled: square_root_mod_prime, modular_sqrt, legendre_symbol of `Model/NumberTheory.v`.
* Proof: Euler's criterion; Cipolla's algorithm in GF(p^2) (`Proofs/Cipolla.v`); Tonelli-Shanks invariant (`Proofs/Sqrt.v`).
* Status: proved. Refuted: for every prime p = 1 mod 8 with p - 2 above the list limit and every non-zero square the function raises OverflowError; instance: the field of secp224r1 (primality proved with a Pocklington certificate).
* Theorems: `C46_overflow`, `C46_p224_refuted`

### C47 modular_sqrt (Tonelli-Shanks)

* Modelled: square_root_mod_prime, modular_sqrt, legendre_symbol of `Model/NumberTheory.v`.
* Proof: Euler's criterion; Cipolla's algorithm in GF(p^2) (`Proofs/Cipolla.v`); Tonelli-Shanks invariant (`Proofs/Sqrt.v`).
* Status: proved. Model modular_sqrt (Tonelli-Shanks). Every odd prime and every integer a: terminates, result in [0,p), a root if a is a square, else 0. For p = 2 refuted (modular_sqrt(1, 2) = 0).
* Theorems: `C47_modular_sqrt`, `C47_even_prime_refuted`, `C47_two`

### C48 legendre_symbol

* Modelled: square_root_mod_prime, modular_sqrt, legendre_symbol of `Model/NumberTheory.v`.
* Proof: Euler's criterion; Cipolla's algorithm in GF(p^2) (`Proofs/Cipolla.v`); Tonelli-Shanks invariant (`Proofs/Sqrt.v`).
* Status: proved. Every odd prime and integer. For p = 2 refuted: legendre_symbol(1, 2) = -1.
* Theorems: `C48_not_positive`, `C48_legendre`, `C48_two_refuted`

### C49 Primality tests never reject a prime

* Modelled: is_prime of `Model/NumberTheory.v`, rabin_miller and fermat_little_test of fmath/prime.py.
* Proof: `Proofs/Primality.v`; the Monier-Rabin bound by counting in the unit group (`Proofs/RabinMiller.v`); the accepted composite is treated by Legendre symbols (`Proofs/Pseudoprime.v`) so that no large computation is needed.
* Status: proved. is_prime, rabin_miller and fermat_little_test accept every prime for every admissible base; is_prime terminates on every integer (whatever the floating-point bit count gives) and is exact up to 1229.
* Theorems: `C49_is_prime`, `C49_is_prime_defined`, `C49_is_prime_small`, `C49_fermat_little_test`, `C49_rabin_miller`

### C50 is_prime never accepts a composite

* Modelled: is_prime of `Model/NumberTheory.v`, rabin_miller and fermat_little_test of fmath/prime.py.
* Proof: `Proofs/Primality.v`; the Monier-Rabin bound by counting in the unit group (`Proofs/RabinMiller.v`); the accepted composite is treated by Legendre symbols (`Proofs/Pseudoprime.v`) so that no large computation is needed.
* Status: proved. Refuted: a 256-bit composite passes (C50_is_prime_refuted, any bit count in 250..299). C50_criterion says exactly what is_prime decides: coprime to 2310 and a strong probable prime to every prime up to a bound depending on the bit count.
* Theorems: `C50_is_prime_refuted`, `C50_criterion`

### C51 Error bound of one Rabin-Miller round

* Modelled: is_prime of `Model/NumberTheory.v`, rabin_miller and fermat_little_test of fmath/prime.py.
* Proof: `Proofs/Primality.v`; the Monier-Rabin bound by counting in the unit group (`Proofs/RabinMiller.v`); the accepted composite is treated by Legendre symbols (`Proofs/Pseudoprime.v`) so that no large computation is needed.
* Status: proved. rabin_miller decides the strong probable prime property, and for every odd composite at most a quarter of the bases 1..n-1 are accepted (full Monier-Rabin bound).
* Theorems: `C51_strong_test`, `C51_quarter`

### C52 factorization

* Modelled: factorization, phi, carmichael*, order_mod, largest_factor_relatively_prime, kinda_order_mod, next_prime of `Model/NumberTheory.v`.
* Proof: `Proofs/Factor.v`, `Proofs/Carmichael.v`, `Proofs/OrderFacts.v`.
* Status: proved. factorization terminates, the product is n, factors strictly increase, and each is prime or a cofactor >= 1231^2 accepted by is_prime; the exact prime factorisation below 1231^2 and whenever is_prime accepts no composite divisor. Refuted in general (C52_prime_factors_refuted).
* Theorems: `C52_factorization`, `C52_exact`, `C52_small`, `C52_prime_factors_refuted`

### C53 phi is Euler's totient

* Modelled: factorization, phi, carmichael*, order_mod, largest_factor_relatively_prime, kinda_order_mod, next_prime of `Model/NumberTheory.v`.
* Proof: `Proofs/Factor.v`, `Proofs/Carmichael.v`, `Proofs/OrderFacts.v`.
* Status: proved. phi is Euler's totient below 1231^2 and whenever is_prime accepts no composite divisor of n; wrong on the C50 composite (C53_refuted).
* Theorems: `C53_phi`, `C53_small`, `C53_refuted`

### C54 carmichael is an exponent of the unit group

* Modelled: factorization, phi, carmichael*, order_mod, largest_factor_relatively_prime, kinda_order_mod, next_prime of `Model/NumberTheory.v`.
* Proof: `Proofs/Factor.v`, `Proofs/Carmichael.v`, `Proofs/OrderFacts.v`.
* Status: proved. carmichael is the least exponent of the unit group and divides every exponent, under the same condition; carmichael_of_factorized for every sorted prime factorisation.
* Theorems: `C54_carmichael`, `C54_small`, `C54_factorized`

### C55 order_mod returns the multiplicative order

* Modelled: factorization, phi, carmichael*, order_mod, largest_factor_relatively_prime, kinda_order_mod, next_prime of `Model/NumberTheory.v`.
* Proof: `Proofs/Factor.v`, `Proofs/Carmichael.v`, `Proofs/OrderFacts.v`.
* Status: proved. order_mod is the multiplicative order for x = 1 or x mod m <> 1; refuted for unreduced x = 1 mod m (returns 2); negative or non-coprime x raises AssertionError; m <= 1 returns 0.
* Theorems: `C55_order`, `C55_unreduced`, `C55_order_refuted`, `C55_refused`, `C55_trivial_modulus`

### C56 largest_factor_relatively_prime

* Modelled: factorization, phi, carmichael*, order_mod, largest_factor_relatively_prime, kinda_order_mod, next_prime of `Model/NumberTheory.v`.
* Proof: `Proofs/Factor.v`, `Proofs/Carmichael.v`, `Proofs/OrderFacts.v`.
* Status: proved. Returns the largest divisor of a coprime to b for a >= 1, b >= 0; a = 0, b >= 2 never returns; kinda_order_mod characterised for x >= 1, m >= 2.
* Theorems: `C56_largest`, `C56_zero_diverges`, `C56_zero_refuted`, `C56_kinda_order`

### C57 next_prime

* Modelled: factorization, phi, carmichael*, order_mod, largest_factor_relatively_prime, kinda_order_mod, next_prime of `Model/NumberTheory.v`.
* Proof: `Proofs/Factor.v`, `Proofs/Carmichael.v`, `Proofs/OrderFacts.v`.
* Status: proved. Terminates, exceeds n, skips no prime, is accepted by is_prime and is prime up to the table limit.
* Theorems: `C57_next_prime`

### C58 Prime tables are exact

* Modelled: smallprimes (`Model/NumberTheory.v`) and `Model/PrimeTable.v`.
* Proof: evaluation of a verified sieve.
* Status: proved. Both tables contain exactly the primes up to 1229 / below 5000, strictly increasing.
* Theorems: `C58_smallprimes`, `C58_primes_to_5k`

### C59 Weierstrass point arithmetic stays on the curve

* Modelled: `Model/Ecc.v`, `Spec/CurveSpec.v` (textbook group law as relations), `Spec/CurveView.v`.
* Proof: the group law of a Weierstrass curve over an arbitrary field is proved with polynomial identities (`Proofs/ECGroup.v`), transferred to integers modulo p (`Proofs/Fp.v`, `Proofs/Curve.v`) and to the program (`Proofs/CurveProg.v`, `Proofs/ScalarMul.v`).
* Status: proved. Addition, doubling and negation of valid points return valid points denoting the sum in the curve group; addition is commutative with IDENTITY neutral; the constructor accepts exactly the points of the curve. Singular curves included.
* Theorems: `C59_closed`, `C59_double`, `C59_negate`, `C59_neutral`, `C59_constructor`

### C60 Weierstrass points form an abelian group

* Modelled: `Model/Ecc.v`, `Spec/CurveSpec.v` (textbook group law as relations), `Spec/CurveView.v`.
* Proof: the group law of a Weierstrass curve over an arbitrary field is proved with polynomial identities (`Proofs/ECGroup.v`), transferred to integers modulo p (`Proofs/Fp.v`, `Proofs/Curve.v`) and to the program (`Proofs/CurveProg.v`, `Proofs/ScalarMul.v`).
* Status: proved. The relational group law is a total, functional, commutative, associative operation with inverses, for every non-singular curve over every prime above 3; the program's additions associate up to the representative of y.
* Theorems: `C60_group`, `C60_associative`, `C60_inverse`

### C61 Scalar multiplication is repeated addition

* Modelled: `Model/Ecc.v`, `Spec/CurveSpec.v` (textbook group law as relations), `Spec/CurveView.v`.
* Proof: the group law of a Weierstrass curve over an arbitrary field is proved with polynomial identities (`Proofs/ECGroup.v`), transferred to integers modulo p (`Proofs/Fp.v`, `Proofs/Curve.v`) and to the program (`Proofs/CurveProg.v`, `Proofs/ScalarMul.v`).
* Status: proved. For a point of exact order n and every integer k the program returns the k-fold sum, except that it raises AssertionError when 4 | n and k = -1 mod n; so it never raises for prime n. C61_builtin instantiates this for the generators of the built-in curves. C61_gost: on GOSTmsg05975sw, whose generator has order n/4, the program raises TypeError exactly for k mod n = n/2 and k mod n = n-1 and is right for every other k.
* Theorems: `C61_builtin`, `C61_scalar_multiple`, `C61_prime_order`, `C61_gost`

### C62 n*G == IDENTITY certifies the group order

* Modelled: `Model/Ecc.v`, `Spec/CurveSpec.v` (textbook group law as relations), `Spec/CurveView.v`.
* Proof: the group law of a Weierstrass curve over an arbitrary field is proved with polynomial identities (`Proofs/ECGroup.v`), transferred to integers modulo p (`Proofs/Fp.v`, `Proofs/Curve.v`) and to the program (`Proofs/CurveProg.v`, `Proofs/ScalarMul.v`).
* Status: proved. Refuted: n*P is IDENTITY for every P and n, with a witness where nP is not zero.
* Theorems: `C62_any_point`, `C62_refuted`

### C63 Scalar multiplication is right for every point of the curve

* Modelled: `Model/Ecc.v`, `Spec/CurveSpec.v` (textbook group law as relations), `Spec/CurveView.v`.
* Proof: the group law of a Weierstrass curve over an arbitrary field is proved with polynomial identities (`Proofs/ECGroup.v`), transferred to integers modulo p (`Proofs/Fp.v`, `Proofs/Curve.v`) and to the program (`Proofs/CurveProg.v`, `Proofs/ScalarMul.v`).
* Status: proved. Refuted with a point of order 28 on a curve declared with prime n = 7.
* Theorems: `C63_refuted`

### C64 Equality and arithmetic respect congruent coordinates

* Modelled: `Model/Ecc.v`, `Spec/CurveSpec.v` (textbook group law as relations), `Spec/CurveView.v`.
* Proof: the group law of a Weierstrass curve over an arbitrary field is proved with polynomial identities (`Proofs/ECGroup.v`), transferred to integers modulo p (`Proofs/Fp.v`, `Proofs/Curve.v`) and to the program (`Proofs/CurveProg.v`, `Proofs/ScalarMul.v`).
* Status: proved. Refuted for every point: (x+p, y) is accepted, unequal to (x, y), and their sum raises AssertionError.
* Theorems: `C64_refuted`, `C64_equality`

### C65 IDENTITY can be negated, doubled and subtracted

* Modelled: `Model/Ecc.v`, `Spec/CurveSpec.v` (textbook group law as relations), `Spec/CurveView.v`.
* Proof: the group law of a Weierstrass curve over an arbitrary field is proved with polynomial identities (`Proofs/ECGroup.v`), transferred to integers modulo p (`Proofs/Fp.v`, `Proofs/Curve.v`) and to the program (`Proofs/CurveProg.v`, `Proofs/ScalarMul.v`).
* Status: proved. Refuted: TypeError for IDENTITY, AssertionError for points of order two.
* Theorems: `C65_refuted`, `C65_order_two_refuted`

### C66 y_from_x lifts exactly the x coordinates of curve points

* Modelled: `Model/Ecc.v`, `Spec/CurveSpec.v` (textbook group law as relations), `Spec/CurveView.v`.
* Proof: the group law of a Weierstrass curve over an arbitrary field is proved with polynomial identities (`Proofs/ECGroup.v`), transferred to integers modulo p (`Proofs/Fp.v`, `Proofs/Curve.v`) and to the program (`Proofs/CurveProg.v`, `Proofs/ScalarMul.v`).
* Status: proved. Proved, also for p = 1 mod 8 when a list of p-2 entries can be made. C66_builtin: decompression works on every built-in short Weierstrass curve except SECP_224r1, NIST_P224, GOST2001_test and GOST2001_CryptoPro_B, where it raises OverflowError for every x of a point with y <> 0.
* Theorems: `C66_y_from_x`, `C66_builtin`

### C67 Points can be serialised

* Modelled: `Model/Ecc.v`, `Spec/CurveSpec.v` (textbook group law as relations), `Spec/CurveView.v`.
* Proof: the group law of a Weierstrass curve over an arbitrary field is proved with polynomial identities (`Proofs/ECGroup.v`), transferred to integers modulo p (`Proofs/Fp.v`, `Proofs/Curve.v`) and to the program (`Proofs/CurveProg.v`, `Proofs/ScalarMul.v`).
* Status: proved. Refuted: NameError for every point.
* Theorems: `C67_refuted`

### C68 Twisted Edwards curves are usable

* Modelled: te_* and mg_* of `Model/Ecc.v`, `Spec/MontgomerySpec.v`.
* Proof: refutations for every modulus; the ladder by the x-only formulas of the group (`Proofs/Montgomery.v`, `Proofs/Ladder.v`).
* Status: proved. Refuted: the constructor raises AssertionError for every p > 2; the test has y in place of y^2; scalar multiplication raises AttributeError.
* Theorems: `C68_refuted`, `C68_equation_refuted`, `C68_scalar_refuted`

### C69 Montgomery curves are usable

* Modelled: te_* and mg_* of `Model/Ecc.v`, `Spec/MontgomerySpec.v`.
* Proof: refutations for every modulus; the ladder by the x-only formulas of the group (`Proofs/Montgomery.v`, `Proofs/Ladder.v`).
* Status: proved. Refuted: the constructor raises AssertionError for every p > 1; negate and montgomery_ladder2 raise NameError; P + (-P) returns P.
* Theorems: `C69_refuted`, `C69_methods_refuted`, `C69_opposite_refuted`

### C70 Montgomery ladder computes the differential-addition ladder modulo p

* Modelled: te_* and mg_* of `Model/Ecc.v`, `Spec/MontgomerySpec.v`.
* Proof: refutations for every modulus; the ladder by the x-only formulas of the group (`Proofs/Montgomery.v`, `Proofs/Ladder.v`).
* Status: proved. The ladder returns the x-coordinate of the multiple by k mod 2^255 in the group of B y^2 = x^3 + a x^2 + x, for every integer k and every x (each x lies on the curve or its twist); two parties applying their keys in either order agree (C70_key_agreement); the integers are not reduced, so after 55 rounds one has over 10^16 bits.
* Theorems: `C70_compose`, `C70_key_agreement`, `C70_cswap`, `C70_ladder`, `C70_every_x`, `C70_unreduced`

### C71 Built-in curve parameters are consistent

* Modelled: `Model/Curves.v`, the constants of ecc/curves.py.
* Proof: primality by Pocklington and elliptic curve certificates (`Proofs/PrimeChain.v`), orders by scalar multiplication in projective coordinates with Montgomery arithmetic on 30-bit limbs (`Proofs/Limbs.v`, `ModRep.v`, `Jacobian.v`, `EcCheck.v`), the certificates in `Proofs/CurveOrder*.v`; identifiers by evaluation.
* Status: proved. All 32 short Weierstrass classes and the NIST_* subclasses: p is prime (certificates by Pocklington's theorem and elliptic curves, checked in the kernel with 30-bit limbs), the discriminant is non-zero, the generator is a point and n times it is zero; n is its prime order except for GOSTmsg05975sw, where it is n/4 (refuted). coord_size is the octet length of p. The certificates were found by tools/ecpp, which is not trusted.
* Theorems: `C71_coord_size`, `C71_parameters`, `C71_order`, `C71_refuted`

### C72 Curve identifiers are unique

* Modelled: `Model/Curves.v`, the constants of ecc/curves.py.
* Proof: primality by Pocklington and elliptic curve certificates (`Proofs/PrimeChain.v`), orders by scalar multiplication in projective coordinates with Montgomery arithmetic on 30-bit limbs (`Proofs/Limbs.v`, `ModRep.v`, `Jacobian.v`, `EcCheck.v`), the certificates in `Proofs/CurveOrder*.v`; identifiers by evaluation.
* Status: proved. REFUTED: SECP_256r1 and SECP_521r1 have the same curveId; C72_only shows that this is the only clash among all classes of the module, and class names are unique.
* Theorems: `C72_refuted`, `C72_only`, `C72_defined`, `C72_class_names`

### C73 Walsh transform: Parseval and inversion

* Modelled: `Model/Analysis.v`, `Spec/AnalysisSpec.v`.
* Proof: the in-place butterfly loops equal the matrix definition by induction on the stage (`Proofs/Walsh.v`, `Proofs/WalshProg.v`); orbits by iterating the permutation (`Proofs/Orbits.v`).
* Status: proved. Proved for every truth table of every size, with inversion, Parseval, injectivity and the assertion for other lengths.
* Theorems: `C73_transform`, `C73_parseval`, `C73_inversion`, `C73_injective`, `C73_bad_length`

### C74 nonLinearity is the distance to the affine functions

* Modelled: `Model/Analysis.v`, `Spec/AnalysisSpec.v`.
* Proof: the in-place butterfly loops equal the matrix definition by induction on the stage (`Proofs/Walsh.v`, `Proofs/WalshProg.v`); orbits by iterating the permutation (`Proofs/Orbits.v`).
* Status: proved. Proved for every n >= 1 (the model returns twice the float); for one entry the program gives -0.5 where the distance is 0. The Parseval bound is proved too.
* Theorems: `C74_nonlinearity`, `C74_bound`, `C74_single_entry`

### C75 Orbit decomposition of permutations

* Modelled: `Model/Analysis.v`, `Spec/AnalysisSpec.v`.
* Proof: the in-place butterfly loops equal the matrix definition by induction on the stage (`Proofs/Walsh.v`, `Proofs/WalshProg.v`); orbits by iterating the permutation (`Proofs/Orbits.v`).
* Status: proved. Proved for every permutation: keys are the least elements, values the orbits in order, and the orbits partition 0..n-1. Dictionary order is left open.
* Theorems: `C75_orbits`, `C75_lengths`

### C76 log2n and binaryInnerProduct

* Modelled: `Model/Analysis.v`, `Spec/AnalysisSpec.v`.
* Proof: the in-place butterfly loops equal the matrix definition by induction on the stage (`Proofs/Walsh.v`, `Proofs/WalshProg.v`); orbits by iterating the permutation (`Proofs/Orbits.v`).
* Status: proved. log2n proved for every integer; the inner product proved and bilinear when one argument is non-negative; refuted for two negative arguments (C76_negative_refuted).
* Theorems: `C76_log2n`, `C76_inner_product`, `C76_bilinear`, `C76_negative_refuted`

### C77 Key agreement

* Modelled: scalar_multiple of `Model/Ecc.v`.
* Proof: from C61 and associativity in the curve group (`Proofs/ScalarMul.v`, `Proofs/CurveFacts.v`).
* Status: proved. Proved for every elliptic curve, reduced generator of prime order n and all integers a, b; the common key is (ab)G. C77_builtin instantiates it for the built-in curves.
* Theorems: `C77_builtin`, `C77_key_agreement`

### C78 XOR helpers

* Modelled: `Model/Encoding.v`, `Model/CmacSiv.v`.
* Proof: pointwise facts about Z.lxor.
* Status: proved. Proved.
* Theorems: `C78_xor_defined`, `C78_xor_octet_wise`, `C78_xor_involutive`, `C78_xor_commutative`, `C78_xor_min`

### C79 pi digits

* Modelled: `Model/Pi.v`, the text of fmath/pi.py verbatim.
* Proof: Machin's formula of the standard library and alternating series bounds; both arctangents and the decimal fraction are evaluated by long division on 62-bit limbs with proved error bounds (`Proofs/PiLimbs.v`, `PiAtan.v`, `PiDigits.v`, `PiValue.v`).
* Status: proved. For every d from 1 to 50000 the fraction is the truncation of the real number pi (the PI of Coq's Reals) to d decimals, shown by evaluating Machin's formula to 50000 digits inside the kernel; larger d raise AssertionError, negative d ValueError or TypeError (C79_negative). REFUTED for 0: pi(0) returns all 50000 digits.
* Theorems: `C79_digits`, `C79_truncation`, `C79_default`, `C79_zero_refuted`, `C79_large`, `C79_negative`

### C80 S-box nonlinearity and dispersion facts used by the analysis

* Modelled: `Model/Analysis.v`, `Model/SboxTables.v`, `Spec/AnalysisSpec.v`.
* Proof: from C74; the values of the tabulated S-boxes by a verified fast Walsh transform (`Proofs/SboxProg.v`).
* Status: proved. Proved for every S-box with 2^n entries, n >= 1; ValueError for one entry. AES and SMS4: (112, 112); the table labelled Streebog: (102, 110), it is not the S-box of GOST R 34.11-2012 tabulated below it, which gives (100, 116).
* Theorems: `C80_range`, `C80_one_entry`, `C80_aes`, `C80_sms4`, `C80_streebog`, `C80_gost`, `C80_aes_table`, `C80_streebog_label`

### C81 new_private_key

* Modelled: new_private_key of `Model/Ecc.v`, the constants of ecc/curves.py.
* Proof: positional notation (C02) and evaluation over the table (`Proofs/TableFacts.v`).
* Status: proved. REFUTED: on every built-in short Weierstrass curve the keys 0 and n occur (each for one string of octets) and scalar_multiple returns IDENTITY for them. The exact range and the uniqueness of the string are proved.
* Theorems: `C81_key_range`, `C81_key_bijection`, `C81_refuted`

### C82 Provenance of the NIST curves

* Modelled: `Model/Curves.v`, `Spec/SeedSpec.v` (X9.62 expansion over the SHA-1 of `Spec/HmacSpec.v`).
* Proof: evaluation of SHA-1 inside Coq.
* Status: proved. Proved for the five curves; the comment seed_c == SHA1(seed) is REFUTED for each of them.
* Theorems: `C82_seed`, `C82_refuted`

### C83 Brainpool twists

* Modelled: `Model/Curves.v`, `Spec/SeedSpec.v` (curve_isomorphism).
* Proof: the scaling map is an isomorphism for any z (`Proofs/Isomorphism.v`); the constants by Montgomery arithmetic (`Proofs/Degree.v`).
* Status: proved. Proved for the seven pairs, for the whole curve group. The class BrainPoolP256t1 has no attribute z (AttributeError); the theorem supplies the value.
* Theorems: `C83_isomorphism`

### C84 Brainpool seeds and parameters

* Modelled: `Model/BrainpoolSeeds.v` (the text of pi1k verbatim), `Model/Curves.v`, `Spec/BrainpoolSpec.v`.
* Proof: the decimals of pi by C79, converted to binary in words of nine decimals (`Proofs/BrainpoolPi.v`); e by the alternating series of exp(-1) (`Proofs/ExpValue.v`); every number between the hash and p that is 3 modulo 4 is composite by a factor or by Fermat's theorem (`Proofs/Composite.v`, `Proofs/BrainpoolCerts.v`).
* Status: proved. The seeds are groups of bits of pi and of e, proved from the real numbers; for the seven curves r1 the tabulated p, a and b are hashes of the seeds increased by the listed amounts, p being the least suitable prime and b the first non-square after a. That no earlier candidate a would also have given an acceptable curve (which needs the orders of all the rejected curves) is not claimed. brainPoolRequirements itself cannot run (NameError), C84_requirements_refuted.
* Theorems: `C84_seeds`, `C84_raises`, `C84_seed_p`, `C84_seed_ab`, `C84_parameters`, `C84_requirements_refuted`

### C85 Embedding degree

* Modelled: `Model/Curves.v`.
* Proof: the product of p^i - 1 is a unit modulo the order, by one inverse per curve (`Proofs/Degree.v`, `Proofs/DegreeCerts.v`).
* Status: proved. Proved for all 37 classes.
* Theorems: `C85_embedding`

### C86 Strength attribute

* Modelled: `Model/Curves.v`.
* Proof: evaluation over allCurves.
* Status: proved. REFUTED for GOST2012_tc26_A, GOST2012_tc26_B (strength 512, n has 512 bits or fewer) and GOSTmsg05975te; proved for all others.
* Theorems: `C86_strength`, `C86_refuted`

### C87 Addition, doubling and scalar multiplication on Montgomery curves

* Modelled: mg_* of `Model/Ecc.v`, `Spec/MontgomerySpec.v`.
* Proof: the isomorphic Weierstrass curve over the field of integers modulo p (`Proofs/MontAdd.v`), induction on the recursion depth.
* Status: proved. IDENTITY is a parameter of the model because no Montgomery curve object can be constructed (C69). C87_scalar gives the exact alternative: the right multiple, or AssertionError and then some multiple up to k is the point at infinity.
* Theorems: `C87_point`, `C87_add`, `C87_double`, `C87_identity`, `C87_scalar`, `C87_order_refuted`, `C87_negative_refuted`, `C87_zero`

### C88 Addition on twisted Edwards curves

* Modelled: te_* of `Model/Ecc.v`, `Spec/EdwardsSpec.v`.
* Proof: polynomial identities in the field of integers modulo p (`Proofs/EdwardsFacts.v`).
* Status: proved. C88_add relates the code to the textbook sum; C88_sum, C88_complete and C88_assoc are about the textbook sum itself and show that the formulas in the code are the right ones; the test of on_curve is the wrong one (C88_accepted_refuted, C88_double_refuted).
* Theorems: `C88_assoc`, `C88_point`, `C88_accepted_refuted`, `C88_add`, `C88_sum`, `C88_complete`, `C88_double_refuted`, `C88_zero`, `C88_negate`

### C89 Known-answer vectors of the test files

* Modelled: all models, vectors in `Spec/VectorSpec.v`.
* Proof: evaluation by the kernel (`Proofs/VectorFacts.v`); independence of the recursion depth from `inverse_mod_spec`.
* Status: proved. All vectors of the listed test files hold in the model except the TKIP key mixing ones whose IV16 octets differ (C89_tkip says exactly which, C89_tkip_refuted gives vector 2). The multiples on secp256k1, P-192, P-521 and Curve25519 follow from the correctness theorems of the programs and a verified modular computation of the point. Not evaluated for cost: the 4096-iteration PBKDF2 vectors, the RFC 3211 vector, the two longer PRF vectors. The Curve25519 test builds Curve25519(), which raises (C90); the ladder it would call gives the published values.
* Theorems: `C89_secp256k1`, `C89_p192_scalar`, `C89_p521`, `C89_curve25519`, `C89_quarter`, `C89_block`, `C89_chacha`, `C89_poly`, `C89_otk`, `C89_aead`, `C89_subkey`, `C89_cmac`, `C89_siv`, `C89_hmac`, `C89_prf`, `C89_michael`, `C89_tkip_mic`, `C89_tkip`, `C89_tkip_refuted`, `C89_rfc1924`, `C89_p192`, `C89_small_curve`, `C89_x962`, `C89_galois`

### C90 The built-in Edwards and Montgomery curves

* Modelled: classes of `Model/Curves.v`, constructor and generator in `Model/EdCurves.v`, `Spec/EdwardsSpec.v`, `Spec/MontgomerySpec.v`.
* Proof: Edwards points are mapped to the Weierstrass group by a proved homomorphism (`Proofs/EdMap.v`, `EdOrder.v`), the order there is checked as for C62 with primality certificates (`Proofs/EdCerts.v`, made by `tools/gen_ed_orders.py`), non-squares by the criterion of Euler (`Proofs/EdCurveFacts.v`).
* Status: proved. Full for the parameters of E382, Curve3617, E521, Curve25519 and M383. n h is shown to lie in the interval of Hasse, the number of points itself is not counted. The claims for GOSTmsg05975te, Ed25519, M511, for construction and for generator() are refuted.
* Theorems: `C90_lists`, `C90_edwards`, `C90_montgomery`, `C90_gost_refuted`, `C90_ed25519_refuted`, `C90_m511_refuted`, `C90_construct_refuted`, `C90_generator_refuted`

### C91 Elements of different fields

* Modelled: `Model/Compare.v` over `Model/GaloisField.v` and `Model/Ecc.v`: elements with their modulus, points with the identity of their curve object.
* Proof: unfolding and modular arithmetic (`Proofs/CompareFacts.v`).
* Status: proved. False of the code: C91_result, C91_division and C91_sides say what the operators return instead; C91_refuted shows for any two moduli that == is not compatible with + and that x + w and w + x differ.
* Theorems: `C91_result`, `C91_division`, `C91_sides`, `C91_refuted`

### C92 Order operators

* Modelled: `Model/Compare.v` over `Model/GaloisField.v` and `Model/Ecc.v`: elements with their modulus, points with the identity of their curve object.
* Proof: unfolding and modular arithmetic (`Proofs/CompareFacts.v`).
* Status: proved. False of the code: C92_elements and C92_points show that < is never true, >= always, > is != and <= is ==; C92_refuted gives x > y and y > x.
* Theorems: `C92_elements`, `C92_points`, `C92_refuted`

### C93 Points of two curve objects

* Modelled: `Model/Compare.v` over `Model/GaloisField.v` and `Model/Ecc.v`: elements with their modulus, points with the identity of their curve object.
* Proof: unfolding and modular arithmetic (`Proofs/CompareFacts.v`).
* Status: proved. The first half holds (C93_same, C93_equality); the second is false (C93_refuted): two objects of one class raise AssertionError on + and have different identities.
* Theorems: `C93_same`, `C93_equality`, `C93_refuted`

### C94 Equivalent Poly1305 keys

* Modelled: `Model/ChaCha.v`, `Model/Hmac.v`, `Spec/ChaChaSpec.v`.
* Proof: linear arithmetic modulo 2^130 - 5 on the tags of three messages (C94), injectivity of the pads (C95) and of the little-endian words (C96) (`Proofs/KeyFacts.v`).
* Status: proved. False as first stated (C94_refuted); C94_equivalent characterises the equivalent keys and C94_three shows that three messages suffice to tell keys apart.
* Theorems: `C94_equivalent`, `C94_three`, `C94_refuted`

### C95 Equivalent HMAC keys

* Modelled: `Model/ChaCha.v`, `Model/Hmac.v`, `Spec/ChaChaSpec.v`.
* Proof: linear arithmetic modulo 2^130 - 5 on the tags of three messages (C94), injectivity of the pads (C95) and of the little-endian words (C96) (`Proofs/KeyFacts.v`).
* Status: proved. False as first stated (C95_refuted, C95_passphrase); C95_equivalent is exact. Equal object states behave equally in every history; that different states give different tags is not claimed, it depends on the hash.
* Theorems: `C95_equivalent`, `C95_refuted`, `C95_passphrase`

### C96 ChaCha20 states and reuse of the key stream

* Modelled: `Model/ChaCha.v`, `Model/Hmac.v`, `Spec/ChaChaSpec.v`.
* Proof: linear arithmetic modulo 2^130 - 5 on the tags of three messages (C94), injectivity of the pads (C95) and of the little-endian words (C96) (`Proofs/KeyFacts.v`).
* Status: proved. C96_malleable uses that decrypt does not check the tag (C17).
* Theorems: `C96_injective`, `C96_reuse`, `C96_malleable`

### C97 Encoded strings sort like the numbers

* Modelled: `Model/Encoding.v`, orders in `Spec/SortSpec.v`.
* Proof: positional values compare like digit strings of one length (`Proofs/SortFacts.v`).
* Status: proved. C97_padded, C97_shortest, C97_base_N and C97_b94 hold; plain string comparison fails for b27encode, b85encode and unpadded int_to_string (C97_refuted).
* Theorems: `C97_padded`, `C97_shortest`, `C97_base_N`, `C97_b94`, `C97_refuted`

### C98 The Montgomery ladder as a key agreement function

* Modelled: `Model/Ecc.v`, `Spec/MontgomerySpec.v`.
* Proof: the ladder is multiplication of points (C70), transferred to the Weierstrass group of `Proofs/Ladder.v`; square roots in a field (`Proofs/Contributory.v`), explicit doublings of the points of small order (`Proofs/ContribCurve.v`).
* Status: proved. False as first stated (C98_zero, C98_small, C98_curve25519, C98_refuted); C98_collision and C98_public_keys say exactly which private keys share a public key. The package does not check for a zero result.
* Theorems: `C98_zero`, `C98_small`, `C98_curve25519`, `C98_collision`, `C98_public_keys`, `C98_refuted`

### C99 Laws of the Jacobi symbol and of orders

* Modelled: `Model/NumberTheory.v`, `Spec/NumberSpec.v`.
* Proof: products of Legendre symbols (C44) and the theorems of C53-C55 (`Proofs/NumberLaws.v`).
* Status: proved. C99_orders is subject to is_prime_exact as C53 and C54 are; C99_orders_small has no such premise. order_mod answers 2 for x > 1 with x = 1 modulo m (C55_unreduced), so these x are excluded.
* Theorems: `C99_multiplicative`, `C99_modulus`, `C99_periodic`, `C99_coprime`, `C99_reciprocity`, `C99_supplements`, `C99_orders`, `C99_orders_small`

### C100 Invariants of nonLinearity

* Modelled: `Model/Analysis.v`, `Spec/AnalysisSpec.v`.
* Proof: distances to affine functions (C74), re-indexing of sums by bijections, orthogonality of the characters (`Proofs/BooleanFacts.v`).
* Status: proved. nonLinearity is modelled doubled (C74); one-entry tables are excluded as in C74_single_entry.
* Theorems: `C100_affine`, `C100_balanced`, `C100_add_affine`, `C100_shift`, `C100_permutation`

### C101 String forms of points and elements

* Modelled: `Model/Strings.v`, numerals in `Spec/StringSpec.v`.
* Proof: induction on the digits; a string of decimal digits determines its value (`Proofs/StringFacts.v`); prefixes of PRF (C30).
* Status: proved. str() is modelled as a list of character codes; the decimal form is stated by digit values, without leading zeros.
* Theorems: `C101_decimal`, `C101_form`, `C101_point`, `C101_element`, `C101_element_refuted`, `C101_edwards_refuted`, `C101_montgomery`

### C102 Fixed-size PRFs of 802.11

* Modelled: `Model/Strings.v`, numerals in `Spec/StringSpec.v`.
* Proof: induction on the digits; a string of decimal digits determines its value (`Proofs/StringFacts.v`); prefixes of PRF (C30).
* Status: proved. HMAC is a parameter of output length 20, as in C30.
* Theorems: `C102_sizes`

### C103 Orbits determine the order of an S-box

* Modelled: `Model/Analysis.v`, `Spec/AnalysisSpec.v`.
* Proof: orbits are cycles (C75), periods divide (`Proofs/OrbitOrder.v`); the two tables by computation.
* Status: proved. The iterates are those of the specification of C75; the orders of the two tables are lcms of their orbit lengths.
* Theorems: `C103_order`, `C103_aes`, `C103_sms4`, `C103_streebog`, `C103_gost`, `C103_inverse`

### C104 Stub methods

* Modelled: `Model/Strings.v`.
* Proof: by definition of the model: each method raises before doing anything (`Proofs/StringFacts.v`).
* Status: proved. The errors are those of Python 2.7 (a raised string is a TypeError, an unbound method called with a list is a TypeError); the model records them, so the theorems hold by definition.
* Theorems: `C104_points_refuted`, `C104_michael_refuted`, `C104_permutation_refuted`

### C105 Prefixes of Michael messages

* Modelled: `Model/Michael.v`, `Spec/MichaelSpec.v`.
* Proof: the words of the prefix are absorbed first, and absorbing is a permutation of a finite set of states (`Proofs/MichaelChain.v`).
* Status: proved. The number of repetitions is shown to exist by counting states; it depends on key and prefix.
* Theorems: `C105_prefix`, `C105_unique`, `C105_collision`, `C105_cycle_refuted`, `C105_word`

### C106 Seeds of the TKIP key mixer

* Modelled: `Model/Michael.v`.
* Proof: bit operations on octets (`Proofs/SeedFacts.v`).
* Status: proved. The octet order is that of the code, which differs from IEEE 802.11i in octets 0 to 2 (C37).
* Theorems: `C106_seed`
