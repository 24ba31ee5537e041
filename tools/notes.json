{
 "C01": {
  "note": "Full characterisation of int_to_string/string_to_int. REFUTED for the copy in ecc/ecc.py: padto is ignored for 0 (C01_ecc_padding_refuted)."
 },
 "C02": {
  "note": "Proved for every octet string."
 },
 "C03": {
  "note": "REFUTED as stated (leading zero octets are lost); the exact set of strings that survive is proved (C03_round_trip_iff)."
 },
 "C04": {
  "note": "REFUTED: the three decoders ignore padto; base_N_decode itself honours it (C04_base_N_decode_padded)."
 },
 "C05": {
  "note": "Proved for every alphabet of at least two distinct characters; additionally REFUTED that b85encode always emits the 20 characters of RFC 1924."
 },
 "C06": {
  "note": "Proved for every key, nonce, counter and message."
 },
 "C07": {
  "note": "Proved: word function, double round, block function and encrypt equal an independent transcription of RFC 7539 while the counter stays below 2^32."
 },
 "C08": {
  "note": "Proved for every history of encrypt/decrypt calls."
 },
 "C09": {
  "note": "REFUTED as stated; proved for splits at a multiple of 64 octets or an empty second part."
 },
 "C10": {
  "note": "REFUTED: the block after counter 2^32-1 is neither an error nor block 0; any initial counter is accepted."
 },
 "C100": {
  "note": "nonLinearity is modelled doubled (C74); one-entry tables are excluded as in C74_single_entry."
 },
 "C101": {
  "note": "str() is modelled as a list of character codes; the decimal form is stated by digit values, without leading zeros."
 },
 "C102": {
  "note": "HMAC is a parameter of output length 20, as in C30."
 },
 "C103": {
  "note": "The iterates are those of the specification of C75; the orders of the two tables are lcms of their orbit lengths."
 },
 "C104": {
  "note": "The errors are those of Python 2.7 (a raised string is a TypeError, an unbound method called with a list is a TypeError); the model records them, so the theorems hold by definition."
 },
 "C105": {
  "note": "The number of repetitions is shown to exist by counting states; it depends on key and prefix."
 },
 "C106": {
  "note": "The octet order is that of the code, which differs from IEEE 802.11i in octets 0 to 2 (C37)."
 },
 "C11": {
  "note": "REFUTED for the empty nonce (also through the AEAD); the accepted argument sizes are characterised exactly."
 },
 "C12": {
  "note": "Proved: injective and onto for all states of 32-bit words."
 },
 "C13": {
  "note": "Proved against the sum-of-powers definition."
 },
 "C14": {
  "note": "Proved: at most 8 times the number of blocks among keys with pairwise different clamped r; 2^130-5 is proved prime with a Pocklington certificate, the count is by roots of polynomials modulo a prime."
 },
 "C15": {
  "note": "REFUTED: 17 octets or more are accepted; exact characterisation proved."
 },
 "C16": {
  "note": "Proved against an independent transcription of the RFC 7539 AEAD."
 },
 "C17": {
  "note": "REFUTED: every ciphertext is accepted and the returned tag is that of the plaintext."
 },
 "C18": {
  "note": "Proved."
 },
 "C19": {
  "note": "REFUTED: both methods raise on every input (read from the source: super() without arguments, undefined name)."
 },
 "C20": {
  "note": "Proved for every cipher class with 16-octet blocks, every key and message (AES instance checked against RFC 4493 vectors)."
 },
 "C21": {
  "note": "REFUTED: with FIPS 197 AES a concrete valid key makes every call raise; C21_exact says exactly when the call raises for any cipher."
 },
 "C22": {
  "note": "REFUTED: the subkeys come from AES whatever CIPH is."
 },
 "C23": {
  "note": "Proved: dbl (and subkey) multiply by x modulo the GF(2^128) polynomial, linear, injective."
 },
 "C24": {
  "note": "Proved for every 16-octet block cipher, key, message and list of associated data."
 },
 "C25": {
  "note": "Proved."
 },
 "C26": {
  "note": "Equality with RFC 5297 proved whenever siv_encrypt returns (messages up to 2^31 blocks); always-returns is REFUTED (C26_refuted), C26_defined gives the sufficient condition on the subkeys; counters proved distinct."
 },
 "C27": {
  "note": "Proved for every hash class whose digest depends only on the octets absorbed since the last reset, keys up to one block, any history of calls; histories with setKey of an over-long key are REFUTED (C27_rekey_refuted)."
 },
 "C28": {
  "note": "Equality with RFC 2104 proved for all keys up to one block; for longer keys C28_long_keys gives what is computed and C28_long_keys_refuted shows it differs."
 },
 "C29": {
  "note": "Equality with RFC 2898 proved over an arbitrary PRF, including the limits; under Python 2.7 the function always raises (C29_python27_refuted)."
 },
 "C30": {
  "note": "Exact value, length, prefix and ragged-length facts proved; raising beyond 5120 octets is REFUTED as a definedness claim (C30_defined_refuted)."
 },
 "C31": {
  "note": "Proved against an independent transcription of IEEE 802.11i Michael, including padding injectivity and the bad-key exception."
 },
 "C32": {
  "note": "Proved by an explicit inverse of the block function."
 },
 "C33": {
  "note": "Framing, unambiguity (draft 3) and bad arguments proved; the draft-2 framing drops the priority and the object is not callable: both REFUTED."
 },
 "C34": {
  "note": "Proved for every S-box and every history of constructor, setKey, setTA, newKey calls, including failing ones."
 },
 "C35": {
  "note": "REFUTED: setPnBytes followed by setKey leaves a stale phase-1 key."
 },
 "C36": {
  "note": "Proved for every S-box by running both phases backwards."
 },
 "C37": {
  "note": "Phase 1 and seed octets 3..15 proved equal to IEEE 802.11i; the whole seed is equal exactly when TSC0 = TSC1, so the property is REFUTED in general."
 },
 "C38": {
  "note": "Proved for elements and integer operands on either side. REFUTED for equality with an integer outside [0,p), and is_element always raises NameError."
 },
 "C39": {
  "note": "Proved for every non-negative divisor that is non-zero mod p, and zero raises; REFUTED for negative integer divisors, which always raise."
 },
 "C40": {
  "note": "Proved with termination: enough fuel exists for every input."
 },
 "C41": {
  "note": "Proved with termination; REFUTED for lcm(0,0), which divides by zero."
 },
 "C42": {
  "note": "Proved."
 },
 "C43": {
  "note": "Proved as an identity of integer polynomials (r = e + q f + p h); REFUTED that exp_mod always reduces: exponent 1 returns the base unchanged."
 },
 "C44": {
  "note": "Model jacobi (fuel for the recursion). For every odd n >= 3 and every a: terminates, the result is the product of Legendre symbols over a prime factorisation and is the only such value; equals the Legendre symbol for prime n. Rests on quadratic reciprocity, proved from Gauss sums in a finite field extension. Other arguments raise AssertionError."
 },
 "C45": {
  "note": "Model square_root_mod_prime. For every prime p (2 included) and 0 <= a < p; p = 1 mod 8 under the hypothesis that range(2,p) can be built. The p = 1 mod 8 branch is proved in GF(p^2) and shows that the inner assertion never fails, and that the search for b succeeds."
 },
 "C46": {
  "note": "Refuted: for every prime p = 1 mod 8 with p - 2 above the list limit and every non-zero square the function raises OverflowError; instance: the field of secp224r1 (primality proved with a Pocklington certificate)."
 },
 "C47": {
  "note": "Model modular_sqrt (Tonelli-Shanks). Every odd prime and every integer a: terminates, result in [0,p), a root if a is a square, else 0. For p = 2 refuted (modular_sqrt(1, 2) = 0)."
 },
 "C48": {
  "note": "Every odd prime and integer. For p = 2 refuted: legendre_symbol(1, 2) = -1."
 },
 "C49": {
  "note": "is_prime, rabin_miller and fermat_little_test accept every prime for every admissible base; is_prime terminates on every integer (whatever the floating-point bit count gives) and is exact up to 1229."
 },
 "C50": {
  "note": "Refuted: a 256-bit composite passes (C50_is_prime_refuted, any bit count in 250..299). C50_criterion says exactly what is_prime decides: coprime to 2310 and a strong probable prime to every prime up to a bound depending on the bit count."
 },
 "C51": {
  "note": "rabin_miller decides the strong probable prime property, and for every odd composite at most a quarter of the bases 1..n-1 are accepted (full Monier-Rabin bound)."
 },
 "C52": {
  "note": "factorization terminates, the product is n, factors strictly increase, and each is prime or a cofactor >= 1231^2 accepted by is_prime; the exact prime factorisation below 1231^2 and whenever is_prime accepts no composite divisor. Refuted in general (C52_prime_factors_refuted)."
 },
 "C53": {
  "note": "phi is Euler's totient below 1231^2 and whenever is_prime accepts no composite divisor of n; wrong on the C50 composite (C53_refuted)."
 },
 "C54": {
  "note": "carmichael is the least exponent of the unit group and divides every exponent, under the same condition; carmichael_of_factorized for every sorted prime factorisation."
 },
 "C55": {
  "note": "order_mod is the multiplicative order for x = 1 or x mod m <> 1; refuted for unreduced x = 1 mod m (returns 2); negative or non-coprime x raises AssertionError; m <= 1 returns 0."
 },
 "C56": {
  "note": "Returns the largest divisor of a coprime to b for a >= 1, b >= 0; a = 0, b >= 2 never returns; kinda_order_mod characterised for x >= 1, m >= 2."
 },
 "C57": {
  "note": "Terminates, exceeds n, skips no prime, is accepted by is_prime and is prime up to the table limit."
 },
 "C58": {
  "note": "Both tables contain exactly the primes up to 1229 / below 5000, strictly increasing."
 },
 "C59": {
  "note": "Addition, doubling and negation of valid points return valid points denoting the sum in the curve group; addition is commutative with IDENTITY neutral; the constructor accepts exactly the points of the curve. Singular curves included."
 },
 "C60": {
  "note": "The relational group law is a total, functional, commutative, associative operation with inverses, for every non-singular curve over every prime above 3; the program's additions associate up to the representative of y."
 },
 "C61": {
  "note": "For a point of exact order n and every integer k the program returns the k-fold sum, except that it raises AssertionError when 4 | n and k = -1 mod n; so it never raises for prime n. C61_builtin instantiates this for the generators of the built-in curves. C61_gost: on GOSTmsg05975sw, whose generator has order n/4, the program raises TypeError exactly for k mod n = n/2 and k mod n = n-1 and is right for every other k."
 },
 "C62": {
  "note": "Refuted: n*P is IDENTITY for every P and n, with a witness where nP is not zero."
 },
 "C63": {
  "note": "Refuted with a point of order 28 on a curve declared with prime n = 7."
 },
 "C64": {
  "note": "Refuted for every point: (x+p, y) is accepted, unequal to (x, y), and their sum raises AssertionError."
 },
 "C65": {
  "note": "Refuted: TypeError for IDENTITY, AssertionError for points of order two."
 },
 "C66": {
  "note": "Proved, also for p = 1 mod 8 when a list of p-2 entries can be made. C66_builtin: decompression works on every built-in short Weierstrass curve except SECP_224r1, NIST_P224, GOST2001_test and GOST2001_CryptoPro_B, where it raises OverflowError for every x of a point with y <> 0."
 },
 "C67": {
  "note": "Refuted: NameError for every point."
 },
 "C68": {
  "note": "Refuted: the constructor raises AssertionError for every p > 2; the test has y in place of y^2; scalar multiplication raises AttributeError."
 },
 "C69": {
  "note": "Refuted: the constructor raises AssertionError for every p > 1; negate and montgomery_ladder2 raise NameError; P + (-P) returns P."
 },
 "C70": {
  "note": "The ladder returns the x-coordinate of the multiple by k mod 2^255 in the group of B y^2 = x^3 + a x^2 + x, for every integer k and every x (each x lies on the curve or its twist); two parties applying their keys in either order agree (C70_key_agreement); the integers are not reduced, so after 55 rounds one has over 10^16 bits."
 },
 "C71": {
  "note": "All 32 short Weierstrass classes and the NIST_* subclasses: p is prime (certificates by Pocklington's theorem and elliptic curves, checked in the kernel with 30-bit limbs), the discriminant is non-zero, the generator is a point and n times it is zero; n is its prime order except for GOSTmsg05975sw, where it is n/4 (refuted). coord_size is the octet length of p. The certificates were found by tools/ecpp, which is not trusted."
 },
 "C72": {
  "note": "REFUTED: SECP_256r1 and SECP_521r1 have the same curveId; C72_only shows that this is the only clash among all classes of the module, and class names are unique."
 },
 "C73": {
  "note": "Proved for every truth table of every size, with inversion, Parseval, injectivity and the assertion for other lengths."
 },
 "C74": {
  "note": "Proved for every n >= 1 (the model returns twice the float); for one entry the program gives -0.5 where the distance is 0. The Parseval bound is proved too."
 },
 "C75": {
  "note": "Proved for every permutation: keys are the least elements, values the orbits in order, and the orbits partition 0..n-1. Dictionary order is left open."
 },
 "C76": {
  "note": "log2n proved for every integer; the inner product proved and bilinear when one argument is non-negative; refuted for two negative arguments (C76_negative_refuted)."
 },
 "C77": {
  "note": "Proved for every elliptic curve, reduced generator of prime order n and all integers a, b; the common key is (ab)G. C77_builtin instantiates it for the built-in curves."
 },
 "C78": {
  "note": "Proved."
 },
 "C79": {
  "note": "For every d from 1 to 50000 the fraction is the truncation of the real number pi (the PI of Coq's Reals) to d decimals, shown by evaluating Machin's formula to 50000 digits inside the kernel; larger d raise AssertionError, negative d ValueError or TypeError (C79_negative). REFUTED for 0: pi(0) returns all 50000 digits."
 },
 "C80": {
  "note": "Proved for every S-box with 2^n entries, n >= 1; ValueError for one entry. AES and SMS4: (112, 112); the table labelled Streebog: (102, 110), it is not the S-box of GOST R 34.11-2012 tabulated below it, which gives (100, 116)."
 },
 "C81": {
  "note": "REFUTED: on every built-in short Weierstrass curve the keys 0 and n occur (each for one string of octets) and scalar_multiple returns IDENTITY for them. The exact range and the uniqueness of the string are proved."
 },
 "C82": {
  "note": "Proved for the five curves; the comment seed_c == SHA1(seed) is REFUTED for each of them."
 },
 "C83": {
  "note": "Proved for the seven pairs, for the whole curve group. The class BrainPoolP256t1 has no attribute z (AttributeError); the theorem supplies the value."
 },
 "C84": {
  "note": "The seeds are groups of bits of pi and of e, proved from the real numbers; for the seven curves r1 the tabulated p, a and b are hashes of the seeds increased by the listed amounts, p being the least suitable prime and b the first non-square after a. That no earlier candidate a would also have given an acceptable curve (which needs the orders of all the rejected curves) is not claimed. brainPoolRequirements itself cannot run (NameError), C84_requirements_refuted."
 },
 "C85": {
  "note": "Proved for all 37 classes."
 },
 "C86": {
  "note": "REFUTED for GOST2012_tc26_A, GOST2012_tc26_B (strength 512, n has 512 bits or fewer) and GOSTmsg05975te; proved for all others."
 },
 "C87": {
  "note": "IDENTITY is a parameter of the model because no Montgomery curve object can be constructed (C69). C87_scalar gives the exact alternative: the right multiple, or AssertionError and then some multiple up to k is the point at infinity."
 },
 "C88": {
  "note": "C88_add relates the code to the textbook sum; C88_sum, C88_complete and C88_assoc are about the textbook sum itself and show that the formulas in the code are the right ones; the test of on_curve is the wrong one (C88_accepted_refuted, C88_double_refuted)."
 },
 "C89": {
  "note": "All vectors of the listed test files hold in the model except the TKIP key mixing ones whose IV16 octets differ (C89_tkip says exactly which, C89_tkip_refuted gives vector 2). The multiples on secp256k1, P-192, P-521 and Curve25519 follow from the correctness theorems of the programs and a verified modular computation of the point. Not evaluated for cost: the 4096-iteration PBKDF2 vectors, the RFC 3211 vector, the two longer PRF vectors. The Curve25519 test builds Curve25519(), which raises (C90); the ladder it would call gives the published values."
 },
 "C90": {
  "note": "Full for the parameters of E382, Curve3617, E521, Curve25519 and M383. n h is shown to lie in the interval of Hasse, the number of points itself is not counted. The claims for GOSTmsg05975te, Ed25519, M511, for construction and for generator() are refuted."
 },
 "C91": {
  "note": "False of the code: C91_result, C91_division and C91_sides say what the operators return instead; C91_refuted shows for any two moduli that == is not compatible with + and that x + w and w + x differ."
 },
 "C92": {
  "note": "False of the code: C92_elements and C92_points show that < is never true, >= always, > is != and <= is ==; C92_refuted gives x > y and y > x."
 },
 "C93": {
  "note": "The first half holds (C93_same, C93_equality); the second is false (C93_refuted): two objects of one class raise AssertionError on + and have different identities."
 },
 "C94": {
  "note": "False as first stated (C94_refuted); C94_equivalent characterises the equivalent keys and C94_three shows that three messages suffice to tell keys apart."
 },
 "C95": {
  "note": "False as first stated (C95_refuted, C95_passphrase); C95_equivalent is exact. Equal object states behave equally in every history; that different states give different tags is not claimed, it depends on the hash."
 },
 "C96": {
  "note": "C96_malleable uses that decrypt does not check the tag (C17)."
 },
 "C97": {
  "note": "C97_padded, C97_shortest, C97_base_N and C97_b94 hold; plain string comparison fails for b27encode, b85encode and unpadded int_to_string (C97_refuted)."
 },
 "C98": {
  "note": "False as first stated (C98_zero, C98_small, C98_curve25519, C98_refuted); C98_collision and C98_public_keys say exactly which private keys share a public key. The package does not check for a zero result."
 },
 "C99": {
  "note": "C99_orders is subject to is_prime_exact as C53 and C54 are; C99_orders_small has no such premise. order_mod answers 2 for x > 1 with x = 1 modulo m (C55_unreduced), so these x are excluded."
 }
}