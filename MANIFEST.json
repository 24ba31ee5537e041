{
 "claims": [
  {
   "property": "C01",
   "status": "proved",
   "theorems": [
    "C01_ecc_edges",
    "C01_int_to_string_shortest",
    "C01_int_to_string_total",
    "C01_int_to_string_padded",
    "C01_int_to_string_does_not_fit",
    "C01_int_to_string_negative",
    "C01_pad_zero_is_no_pad",
    "C01_round_trip",
    "C01_ecc_int_to_string",
    "C01_ecc_padding_refuted"
   ],
   "note": "Full characterisation of int_to_string/string_to_int. REFUTED for the copy in ecc/ecc.py: padto is ignored for 0 (C01_ecc_padding_refuted)."
  },
  {
   "property": "C02",
   "status": "proved",
   "theorems": [
    "C02_string_round_trip_padded",
    "C02_string_round_trip_strips",
    "C02_string_to_int_value"
   ],
   "note": "Proved for every octet string."
  },
  {
   "property": "C03",
   "status": "proved",
   "theorems": [
    "C03_round_trip_iff",
    "C03_encode_total",
    "C03_decode_of_encode",
    "C03_lossless_refuted"
   ],
   "note": "REFUTED as stated (leading zero octets are lost); the exact set of strings that survive is proved (C03_round_trip_iff)."
  },
  {
   "property": "C04",
   "status": "proved",
   "theorems": [
    "C04_padto_is_ignored",
    "C04_padto_restores_length_refuted",
    "C04_base_N_decode_padded"
   ],
   "note": "REFUTED: the three decoders ignore padto; base_N_decode itself honours it (C04_base_N_decode_padded)."
  },
  {
   "property": "C05",
   "status": "proved",
   "theorems": [
    "C05_printable",
    "C05_encoder_alphabet_and_length",
    "C05_decoder_accepts_alphabet",
    "C05_decoder_rejects_others",
    "C05_encoder_injective",
    "C05_alphabets",
    "C05_rfc1924_length_refuted"
   ],
   "note": "Proved for every alphabet of at least two distinct characters; additionally REFUTED that b85encode always emits the 20 characters of RFC 1924."
  },
  {
   "property": "C06",
   "status": "proved",
   "theorems": [
    "C06_round_trip",
    "C06_defined"
   ],
   "note": "Proved for every key, nonce, counter and message."
  },
  {
   "property": "C07",
   "status": "proved",
   "theorems": [
    "C07_quarter_round",
    "C07_inner_block",
    "C07_block",
    "C07_encrypt"
   ],
   "note": "Proved: word function, double round, block function and encrypt equal an independent transcription of RFC 7539 while the counter stays below 2^32."
  },
  {
   "property": "C08",
   "status": "proved",
   "theorems": [
    "C08_history",
    "C08_call_position",
    "C08_runs_disjoint",
    "C08_counter_after"
   ],
   "note": "Proved for every history of encrypt/decrypt calls."
  },
  {
   "property": "C09",
   "status": "proved",
   "theorems": [
    "C09_split_at_block",
    "C09_split_elsewhere_refuted"
   ],
   "note": "REFUTED as stated; proved for splits at a multiple of 64 octets or an empty second part."
  },
  {
   "property": "C10",
   "status": "proved",
   "theorems": [
    "C10_counter_wraps_refuted",
    "C10_counter_unchecked"
   ],
   "note": "REFUTED: the block after counter 2^32-1 is neither an error nor block 0; any initial counter is accepted."
  },
  {
   "property": "C11",
   "status": "proved",
   "theorems": [
    "C11_accepted_iff",
    "C11_empty_nonce_refuted",
    "C11_aead_empty_nonce_refuted",
    "C11_aead_rejects"
   ],
   "note": "REFUTED for the empty nonce (also through the AEAD); the accepted argument sizes are characterised exactly."
  },
  {
   "property": "C12",
   "status": "proved",
   "theorems": [
    "C12_quarter_round_injective",
    "C12_quarter_round_onto",
    "C12_inner_block_injective",
    "C12_inner_block_onto",
    "C12_word_function_bijective"
   ],
   "note": "Proved: injective and onto for all states of 32-bit words."
  },
  {
   "property": "C13",
   "status": "proved",
   "theorems": [
    "C13_poly1305",
    "C13_tag_size"
   ],
   "note": "Proved against the sum-of-powers definition."
  },
  {
   "property": "C14",
   "status": "proved",
   "theorems": [
    "C14_almost_universal",
    "C14_polynomials_differ"
   ],
   "note": "Proved: at most 8 times the number of blocks among keys with pairwise different clamped r; 2^130-5 is proved prime with a Pocklington certificate, the count is by roots of polynomials modulo a prime."
  },
  {
   "property": "C15",
   "status": "proved",
   "theorems": [
    "C15_key_lengths",
    "C15_wrong_size_refuted",
    "C15_extra_octets_ignored"
   ],
   "note": "REFUTED: 17 octets or more are accepted; exact characterisation proved."
  },
  {
   "property": "C16",
   "status": "proved",
   "theorems": [
    "C16_encrypt",
    "C16_decrypt_recovers"
   ],
   "note": "Proved against an independent transcription of the RFC 7539 AEAD."
  },
  {
   "property": "C17",
   "status": "proved",
   "theorems": [
    "C17_never_rejects",
    "C17_tag_recomputed_refuted",
    "C17_decrypt_tag"
   ],
   "note": "REFUTED: every ciphertext is accepted and the returned tag is that of the plaintext."
  },
  {
   "property": "C18",
   "status": "proved",
   "theorems": [
    "C18_mac_input_injective",
    "C18_mac_input"
   ],
   "note": "Proved."
  },
  {
   "property": "C19",
   "status": "proved",
   "theorems": [
    "C19_unusable_refuted",
    "C19_errors"
   ],
   "note": "REFUTED: both methods raise on every input (read from the source: super() without arguments, undefined name)."
  },
  {
   "property": "C20",
   "status": "proved",
   "theorems": [
    "C20_cmac",
    "C20_bad_key"
   ],
   "note": "Proved for every cipher class with 16-octet blocks, every key and message (AES instance checked against RFC 4493 vectors)."
  },
  {
   "property": "C21",
   "status": "proved",
   "theorems": [
    "C21_exact",
    "C21_refuted",
    "C21_weak_key"
   ],
   "note": "REFUTED: with FIPS 197 AES a concrete valid key makes every call raise; C21_exact says exactly when the call raises for any cipher."
  },
  {
   "property": "C22",
   "status": "proved",
   "theorems": [
    "C22_refuted"
   ],
   "note": "REFUTED: the subkeys come from AES whatever CIPH is."
  },
  {
   "property": "C23",
   "status": "proved",
   "theorems": [
    "C23_mult",
    "C23_linear",
    "C23_injective",
    "C23_subkeys"
   ],
   "note": "Proved: dbl (and subkey) multiply by x modulo the GF(2^128) polynomial, linear, injective."
  },
  {
   "property": "C24",
   "status": "proved",
   "theorems": [
    "C24_round_trip"
   ],
   "note": "Proved for every 16-octet block cipher, key, message and list of associated data."
  },
  {
   "property": "C25",
   "status": "proved",
   "theorems": [
    "C25_genuine",
    "C25_short",
    "C25_change"
   ],
   "note": "Proved."
  },
  {
   "property": "C26",
   "status": "proved",
   "theorems": [
    "C26_rfc5297",
    "C26_defined",
    "C26_refuted",
    "C26_counters",
    "C26_bad_key",
    "C26_empty"
   ],
   "note": "Equality with RFC 5297 proved whenever siv_encrypt returns (messages up to 2^31 blocks); always-returns is REFUTED (C26_refuted), C26_defined gives the sufficient condition on the subkeys; counters proved distinct."
  },
  {
   "property": "C27",
   "status": "proved",
   "theorems": [
    "C27_histories",
    "C27_digest_pure",
    "C27_rekey_refuted"
   ],
   "note": "Proved for every hash class whose digest depends only on the octets absorbed since the last reset, keys up to one block, any history of calls; histories with setKey of an over-long key are REFUTED (C27_rekey_refuted)."
  },
  {
   "property": "C28",
   "status": "proved",
   "theorems": [
    "C28_rfc2104",
    "C28_long_keys",
    "C28_long_keys_refuted"
   ],
   "note": "Equality with RFC 2104 proved for all keys up to one block; for longer keys C28_long_keys gives what is computed and C28_long_keys_refuted shows it differs."
  },
  {
   "property": "C29",
   "status": "proved",
   "theorems": [
    "C29_zero_digest",
    "C29_index",
    "C29_rfc2898",
    "C29_limits",
    "C29_python27_always_raises",
    "C29_python27_refuted",
    "C29_wpa_psk"
   ],
   "note": "Equality with RFC 2898 proved over an arbitrary PRF, including the limits; under Python 2.7 the function always raises (C29_python27_refuted)."
  },
  {
   "property": "C30",
   "status": "proved",
   "theorems": [
    "C30_exact",
    "C30_length",
    "C30_prefix",
    "C30_ragged",
    "C30_long_raises",
    "C30_defined_refuted"
   ],
   "note": "Exact value, length, prefix and ragged-length facts proved; raising beyond 5120 octets is REFUTED as a definedness claim (C30_defined_refuted)."
  },
  {
   "property": "C31",
   "status": "proved",
   "theorems": [
    "C31_no_key",
    "C31_ieee",
    "C31_padding_injective",
    "C31_bad_key"
   ],
   "note": "Proved against an independent transcription of IEEE 802.11i Michael, including padding injectivity and the bad-key exception."
  },
  {
   "property": "C32",
   "status": "proved",
   "theorems": [
    "C32_bijection",
    "C32_keys_differ"
   ],
   "note": "Proved by an explicit inverse of the block function."
  },
  {
   "property": "C33",
   "status": "proved",
   "theorems": [
    "C33_frame",
    "C33_unambiguous",
    "C33_bad_arguments",
    "C33_draft2_refuted",
    "C33_callable_refuted"
   ],
   "note": "Framing, unambiguity (draft 3) and bad arguments proved; the draft-2 framing drops the priority and the object is not callable: both REFUTED."
  },
  {
   "property": "C34",
   "status": "proved",
   "theorems": [
    "C34_setters",
    "C34_newKey",
    "C34_cache_transparent"
   ],
   "note": "Proved for every S-box and every history of constructor, setKey, setTA, newKey calls, including failing ones."
  },
  {
   "property": "C35",
   "status": "proved",
   "theorems": [
    "C35_setPnBytes_refuted"
   ],
   "note": "REFUTED: setPnBytes followed by setKey leaves a stale phase-1 key."
  },
  {
   "property": "C36",
   "status": "proved",
   "theorems": [
    "C36_injective"
   ],
   "note": "Proved for every S-box by running both phases backwards."
  },
  {
   "property": "C37",
   "status": "proved",
   "theorems": [
    "C37_phase1",
    "C37_last13",
    "C37_exactly_when",
    "C37_refuted"
   ],
   "note": "Phase 1 and seed octets 3..15 proved equal to IEEE 802.11i; the whole seed is equal exactly when TSC0 = TSC1, so the property is REFUTED in general."
  },
  {
   "property": "C38",
   "status": "proved",
   "theorems": [
    "C38_arithmetic",
    "C38_power",
    "C38_equality",
    "C38_int_equality_refuted",
    "C38_is_element_raises"
   ],
   "note": "Proved for elements and integer operands on either side. REFUTED for equality with an integer outside [0,p), and is_element always raises NameError."
  },
  {
   "property": "C39",
   "status": "proved",
   "theorems": [
    "C39_division",
    "C39_int_divided_by_element",
    "C39_zero_raises",
    "C39_negative_refuted"
   ],
   "note": "Proved for every non-negative divisor that is non-zero mod p, and zero raises; REFUTED for negative integer divisors, which always raise."
  },
  {
   "property": "C40",
   "status": "proved",
   "theorems": [
    "C40_inverse"
   ],
   "note": "Proved with termination: enough fuel exists for every input."
  },
  {
   "property": "C41",
   "status": "proved",
   "theorems": [
    "C41_gcd2",
    "C41_gcd",
    "C41_lcm",
    "C41_lcm_zeros_refuted"
   ],
   "note": "Proved with termination; REFUTED for lcm(0,0), which divides by zero."
  },
  {
   "property": "C42",
   "status": "proved",
   "theorems": [
    "C42_modular_exp",
    "C42_negative"
   ],
   "note": "Proved."
  },
  {
   "property": "C43",
   "status": "proved",
   "theorems": [
    "C43_checks",
    "C43_multiply",
    "C43_power",
    "C43_unreduced_base_refuted",
    "C43_bad_modulus"
   ],
   "note": "Proved as an identity of integer polynomials (r = e + q f + p h); REFUTED that exp_mod always reduces: exponent 1 returns the base unchanged."
  },
  {
   "property": "C44",
   "status": "proved",
   "theorems": [
    "C44_jacobi",
    "C44_bad_arguments"
   ],
   "note": "Model jacobi (fuel for the recursion). For every odd n >= 3 and every a: terminates, the result is the product of Legendre symbols over a prime factorisation and is the only such value; equals the Legendre symbol for prime n. Rests on quadratic reciprocity, proved from Gauss sums in a finite field extension. Other arguments raise AssertionError."
  },
  {
   "property": "C45",
   "status": "proved",
   "theorems": [
    "C45_square_root"
   ],
   "note": "Model square_root_mod_prime. For every prime p (2 included) and 0 <= a < p; p = 1 mod 8 under the hypothesis that range(2,p) can be built. The p = 1 mod 8 branch is proved in GF(p^2) and shows that the inner assertion never fails, and that the search for b succeeds."
  },
  {
   "property": "C46",
   "status": "proved",
   "theorems": [
    "C46_overflow",
    "C46_p224_refuted"
   ],
   "note": "Refuted: for every prime p = 1 mod 8 with p - 2 above the list limit and every non-zero square the function raises OverflowError; instance: the field of secp224r1 (primality proved with a Pocklington certificate)."
  },
  {
   "property": "C47",
   "status": "proved",
   "theorems": [
    "C47_modular_sqrt",
    "C47_even_prime_refuted",
    "C47_two"
   ],
   "note": "Model modular_sqrt (Tonelli-Shanks). Every odd prime and every integer a: terminates, result in [0,p), a root if a is a square, else 0. For p = 2 refuted (modular_sqrt(1, 2) = 0)."
  },
  {
   "property": "C48",
   "status": "proved",
   "theorems": [
    "C48_not_positive",
    "C48_legendre",
    "C48_two_refuted"
   ],
   "note": "Every odd prime and integer. For p = 2 refuted: legendre_symbol(1, 2) = -1."
  },
  {
   "property": "C49",
   "status": "proved",
   "theorems": [
    "C49_is_prime",
    "C49_is_prime_defined",
    "C49_is_prime_small",
    "C49_fermat_little_test",
    "C49_rabin_miller"
   ],
   "note": "is_prime, rabin_miller and fermat_little_test accept every prime for every admissible base; is_prime terminates on every integer (whatever the floating-point bit count gives) and is exact up to 1229."
  },
  {
   "property": "C50",
   "status": "proved",
   "theorems": [
    "C50_is_prime_refuted",
    "C50_criterion"
   ],
   "note": "Refuted: a 256-bit composite passes (C50_is_prime_refuted, any bit count in 250..299). C50_criterion says exactly what is_prime decides: coprime to 2310 and a strong probable prime to every prime up to a bound depending on the bit count."
  },
  {
   "property": "C51",
   "status": "proved",
   "theorems": [
    "C51_strong_test",
    "C51_quarter"
   ],
   "note": "rabin_miller decides the strong probable prime property, and for every odd composite at most a quarter of the bases 1..n-1 are accepted (full Monier-Rabin bound)."
  },
  {
   "property": "C52",
   "status": "proved",
   "theorems": [
    "C52_factorization",
    "C52_exact",
    "C52_small",
    "C52_prime_factors_refuted"
   ],
   "note": "factorization terminates, the product is n, factors strictly increase, and each is prime or a cofactor >= 1231^2 accepted by is_prime; the exact prime factorisation below 1231^2 and whenever is_prime accepts no composite divisor. Refuted in general (C52_prime_factors_refuted)."
  },
  {
   "property": "C53",
   "status": "proved",
   "theorems": [
    "C53_phi",
    "C53_small",
    "C53_refuted"
   ],
   "note": "phi is Euler's totient below 1231^2 and whenever is_prime accepts no composite divisor of n; wrong on the C50 composite (C53_refuted)."
  },
  {
   "property": "C54",
   "status": "proved",
   "theorems": [
    "C54_carmichael",
    "C54_small",
    "C54_factorized"
   ],
   "note": "carmichael is the least exponent of the unit group and divides every exponent, under the same condition; carmichael_of_factorized for every sorted prime factorisation."
  },
  {
   "property": "C55",
   "status": "proved",
   "theorems": [
    "C55_order",
    "C55_unreduced",
    "C55_order_refuted",
    "C55_refused",
    "C55_trivial_modulus"
   ],
   "note": "order_mod is the multiplicative order for x = 1 or x mod m <> 1; refuted for unreduced x = 1 mod m (returns 2); negative or non-coprime x raises AssertionError; m <= 1 returns 0."
  },
  {
   "property": "C56",
   "status": "proved",
   "theorems": [
    "C56_largest",
    "C56_zero_diverges",
    "C56_zero_refuted",
    "C56_kinda_order"
   ],
   "note": "Returns the largest divisor of a coprime to b for a >= 1, b >= 0; a = 0, b >= 2 never returns; kinda_order_mod characterised for x >= 1, m >= 2."
  },
  {
   "property": "C57",
   "status": "proved",
   "theorems": [
    "C57_next_prime"
   ],
   "note": "Terminates, exceeds n, skips no prime, is accepted by is_prime and is prime up to the table limit."
  },
  {
   "property": "C58",
   "status": "proved",
   "theorems": [
    "C58_smallprimes",
    "C58_primes_to_5k"
   ],
   "note": "Both tables contain exactly the primes up to 1229 / below 5000, strictly increasing."
  },
  {
   "property": "C59",
   "status": "proved",
   "theorems": [
    "C59_closed",
    "C59_double",
    "C59_negate",
    "C59_neutral",
    "C59_constructor"
   ],
   "note": "Addition, doubling and negation of valid points return valid points denoting the sum in the curve group; addition is commutative with IDENTITY neutral; the constructor accepts exactly the points of the curve. Singular curves included."
  },
  {
   "property": "C60",
   "status": "proved",
   "theorems": [
    "C60_group",
    "C60_associative",
    "C60_inverse"
   ],
   "note": "The relational group law is a total, functional, commutative, associative operation with inverses, for every non-singular curve over every prime above 3; the program's additions associate up to the representative of y."
  },
  {
   "property": "C61",
   "status": "proved",
   "theorems": [
    "C61_builtin",
    "C61_scalar_multiple",
    "C61_prime_order",
    "C61_gost"
   ],
   "note": "For a point of exact order n and every integer k the program returns the k-fold sum, except that it raises AssertionError when 4 | n and k = -1 mod n; so it never raises for prime n. C61_builtin instantiates this for the generators of the built-in curves. C61_gost: on GOSTmsg05975sw, whose generator has order n/4, the program raises TypeError exactly for k mod n = n/2 and k mod n = n-1 and is right for every other k."
  },
  {
   "property": "C62",
   "status": "proved",
   "theorems": [
    "C62_any_point",
    "C62_refuted"
   ],
   "note": "Refuted: n*P is IDENTITY for every P and n, with a witness where nP is not zero."
  },
  {
   "property": "C63",
   "status": "proved",
   "theorems": [
    "C63_refuted"
   ],
   "note": "Refuted with a point of order 28 on a curve declared with prime n = 7."
  },
  {
   "property": "C64",
   "status": "proved",
   "theorems": [
    "C64_refuted",
    "C64_equality"
   ],
   "note": "Refuted for every point: (x+p, y) is accepted, unequal to (x, y), and their sum raises AssertionError."
  },
  {
   "property": "C65",
   "status": "proved",
   "theorems": [
    "C65_refuted",
    "C65_order_two_refuted"
   ],
   "note": "Refuted: TypeError for IDENTITY, AssertionError for points of order two."
  },
  {
   "property": "C66",
   "status": "proved",
   "theorems": [
    "C66_y_from_x",
    "C66_builtin"
   ],
   "note": "Proved, also for p = 1 mod 8 when a list of p-2 entries can be made. C66_builtin: decompression works on every built-in short Weierstrass curve except SECP_224r1, NIST_P224, GOST2001_test and GOST2001_CryptoPro_B, where it raises OverflowError for every x of a point with y <> 0."
  },
  {
   "property": "C67",
   "status": "proved",
   "theorems": [
    "C67_refuted"
   ],
   "note": "Refuted: NameError for every point."
  },
  {
   "property": "C68",
   "status": "proved",
   "theorems": [
    "C68_refuted",
    "C68_equation_refuted",
    "C68_scalar_refuted"
   ],
   "note": "Refuted: the constructor raises AssertionError for every p > 2; the test has y in place of y^2; scalar multiplication raises AttributeError."
  },
  {
   "property": "C69",
   "status": "proved",
   "theorems": [
    "C69_refuted",
    "C69_methods_refuted",
    "C69_opposite_refuted"
   ],
   "note": "Refuted: the constructor raises AssertionError for every p > 1; negate and montgomery_ladder2 raise NameError; P + (-P) returns P."
  },
  {
   "property": "C70",
   "status": "proved",
   "theorems": [
    "C70_compose",
    "C70_key_agreement",
    "C70_cswap",
    "C70_ladder",
    "C70_every_x",
    "C70_unreduced"
   ],
   "note": "The ladder returns the x-coordinate of the multiple by k mod 2^255 in the group of B y^2 = x^3 + a x^2 + x, for every integer k and every x (each x lies on the curve or its twist); two parties applying their keys in either order agree (C70_key_agreement); the integers are not reduced, so after 55 rounds one has over 10^16 bits."
  },
  {
   "property": "C71",
   "status": "proved",
   "theorems": [
    "C71_coord_size",
    "C71_parameters",
    "C71_order",
    "C71_refuted"
   ],
   "note": "All 32 short Weierstrass classes and the NIST_* subclasses: p is prime (certificates by Pocklington's theorem and elliptic curves, checked in the kernel with 30-bit limbs), the discriminant is non-zero, the generator is a point and n times it is zero; n is its prime order except for GOSTmsg05975sw, where it is n/4 (refuted). coord_size is the octet length of p. The certificates were found by tools/ecpp, which is not trusted."
  },
  {
   "property": "C72",
   "status": "proved",
   "theorems": [
    "C72_refuted",
    "C72_only",
    "C72_defined",
    "C72_class_names"
   ],
   "note": "REFUTED: SECP_256r1 and SECP_521r1 have the same curveId; C72_only shows that this is the only clash among all classes of the module, and class names are unique."
  },
  {
   "property": "C73",
   "status": "proved",
   "theorems": [
    "C73_transform",
    "C73_parseval",
    "C73_inversion",
    "C73_injective",
    "C73_bad_length"
   ],
   "note": "Proved for every truth table of every size, with inversion, Parseval, injectivity and the assertion for other lengths."
  },
  {
   "property": "C74",
   "status": "proved",
   "theorems": [
    "C74_nonlinearity",
    "C74_bound",
    "C74_single_entry"
   ],
   "note": "Proved for every n >= 1 (the model returns twice the float); for one entry the program gives -0.5 where the distance is 0. The Parseval bound is proved too."
  },
  {
   "property": "C75",
   "status": "proved",
   "theorems": [
    "C75_orbits",
    "C75_lengths"
   ],
   "note": "Proved for every permutation: keys are the least elements, values the orbits in order, and the orbits partition 0..n-1. Dictionary order is left open."
  },
  {
   "property": "C76",
   "status": "proved",
   "theorems": [
    "C76_log2n",
    "C76_inner_product",
    "C76_bilinear",
    "C76_negative_refuted"
   ],
   "note": "log2n proved for every integer; the inner product proved and bilinear when one argument is non-negative; refuted for two negative arguments (C76_negative_refuted)."
  },
  {
   "property": "C77",
   "status": "proved",
   "theorems": [
    "C77_builtin",
    "C77_key_agreement"
   ],
   "note": "Proved for every elliptic curve, reduced generator of prime order n and all integers a, b; the common key is (ab)G. C77_builtin instantiates it for the built-in curves."
  },
  {
   "property": "C78",
   "status": "proved",
   "theorems": [
    "C78_xor_defined",
    "C78_xor_octet_wise",
    "C78_xor_involutive",
    "C78_xor_commutative",
    "C78_xor_min"
   ],
   "note": "Proved."
  },
  {
   "property": "C79",
   "status": "proved",
   "theorems": [
    "C79_digits",
    "C79_truncation",
    "C79_default",
    "C79_zero_refuted",
    "C79_large",
    "C79_negative"
   ],
   "note": "For every d from 1 to 50000 the fraction is the truncation of the real number pi (the PI of Coq's Reals) to d decimals, shown by evaluating Machin's formula to 50000 digits inside the kernel; larger d raise AssertionError, negative d ValueError or TypeError (C79_negative). REFUTED for 0: pi(0) returns all 50000 digits."
  },
  {
   "property": "C80",
   "status": "proved",
   "theorems": [
    "C80_range",
    "C80_one_entry",
    "C80_aes",
    "C80_sms4",
    "C80_streebog",
    "C80_gost",
    "C80_aes_table",
    "C80_streebog_label"
   ],
   "note": "Proved for every S-box with 2^n entries, n >= 1; ValueError for one entry. AES and SMS4: (112, 112); the table labelled Streebog: (102, 110), it is not the S-box of GOST R 34.11-2012 tabulated below it, which gives (100, 116)."
  },
  {
   "property": "C81",
   "status": "proved",
   "theorems": [
    "C81_key_range",
    "C81_key_bijection",
    "C81_refuted"
   ],
   "note": "REFUTED: on every built-in short Weierstrass curve the keys 0 and n occur (each for one string of octets) and scalar_multiple returns IDENTITY for them. The exact range and the uniqueness of the string are proved."
  },
  {
   "property": "C82",
   "status": "proved",
   "theorems": [
    "C82_seed",
    "C82_refuted"
   ],
   "note": "Proved for the five curves; the comment seed_c == SHA1(seed) is REFUTED for each of them."
  },
  {
   "property": "C83",
   "status": "proved",
   "theorems": [
    "C83_isomorphism"
   ],
   "note": "Proved for the seven pairs, for the whole curve group. The class BrainPoolP256t1 has no attribute z (AttributeError); the theorem supplies the value."
  },
  {
   "property": "C84",
   "status": "proved",
   "theorems": [
    "C84_seeds",
    "C84_raises",
    "C84_seed_p",
    "C84_seed_ab",
    "C84_parameters",
    "C84_requirements_refuted"
   ],
   "note": "The seeds are groups of bits of pi and of e, proved from the real numbers; for the seven curves r1 the tabulated p, a and b are hashes of the seeds increased by the listed amounts, p being the least suitable prime and b the first non-square after a. That no earlier candidate a would also have given an acceptable curve (which needs the orders of all the rejected curves) is not claimed. brainPoolRequirements itself cannot run (NameError), C84_requirements_refuted."
  },
  {
   "property": "C85",
   "status": "proved",
   "theorems": [
    "C85_embedding"
   ],
   "note": "Proved for all 37 classes."
  },
  {
   "property": "C86",
   "status": "proved",
   "theorems": [
    "C86_strength",
    "C86_refuted"
   ],
   "note": "REFUTED for GOST2012_tc26_A, GOST2012_tc26_B (strength 512, n has 512 bits or fewer) and GOSTmsg05975te; proved for all others."
  },
  {
   "property": "C87",
   "status": "proved",
   "theorems": [
    "C87_point",
    "C87_add",
    "C87_double",
    "C87_identity",
    "C87_scalar",
    "C87_order_refuted",
    "C87_negative_refuted",
    "C87_zero"
   ],
   "note": "IDENTITY is a parameter of the model because no Montgomery curve object can be constructed (C69). C87_scalar gives the exact alternative: the right multiple, or AssertionError and then some multiple up to k is the point at infinity."
  },
  {
   "property": "C88",
   "status": "proved",
   "theorems": [
    "C88_assoc",
    "C88_point",
    "C88_accepted_refuted",
    "C88_add",
    "C88_sum",
    "C88_complete",
    "C88_double_refuted",
    "C88_zero",
    "C88_negate"
   ],
   "note": "C88_add relates the code to the textbook sum; C88_sum, C88_complete and C88_assoc are about the textbook sum itself and show that the formulas in the code are the right ones; the test of on_curve is the wrong one (C88_accepted_refuted, C88_double_refuted)."
  },
  {
   "property": "C89",
   "status": "proved",
   "theorems": [
    "C89_secp256k1",
    "C89_p192_scalar",
    "C89_p521",
    "C89_curve25519",
    "C89_quarter",
    "C89_block",
    "C89_chacha",
    "C89_poly",
    "C89_otk",
    "C89_aead",
    "C89_subkey",
    "C89_cmac",
    "C89_siv",
    "C89_hmac",
    "C89_prf",
    "C89_michael",
    "C89_tkip_mic",
    "C89_tkip",
    "C89_tkip_refuted",
    "C89_rfc1924",
    "C89_p192",
    "C89_small_curve",
    "C89_x962",
    "C89_galois"
   ],
   "note": "All vectors of the listed test files hold in the model except the TKIP key mixing ones whose IV16 octets differ (C89_tkip says exactly which, C89_tkip_refuted gives vector 2). The multiples on secp256k1, P-192, P-521 and Curve25519 follow from the correctness theorems of the programs and a verified modular computation of the point. Not evaluated for cost: the 4096-iteration PBKDF2 vectors, the RFC 3211 vector, the two longer PRF vectors. The Curve25519 test builds Curve25519(), which raises (C90); the ladder it would call gives the published values."
  },
  {
   "property": "C90",
   "status": "proved",
   "theorems": [
    "C90_lists",
    "C90_edwards",
    "C90_montgomery",
    "C90_gost_refuted",
    "C90_ed25519_refuted",
    "C90_m511_refuted",
    "C90_construct_refuted",
    "C90_generator_refuted"
   ],
   "note": "Full for the parameters of E382, Curve3617, E521, Curve25519 and M383. n h is shown to lie in the interval of Hasse, the number of points itself is not counted. The claims for GOSTmsg05975te, Ed25519, M511, for construction and for generator() are refuted."
  },
  {
   "property": "C91",
   "status": "proved",
   "theorems": [
    "C91_result",
    "C91_division",
    "C91_sides",
    "C91_refuted"
   ],
   "note": "False of the code: C91_result, C91_division and C91_sides say what the operators return instead; C91_refuted shows for any two moduli that == is not compatible with + and that x + w and w + x differ."
  },
  {
   "property": "C92",
   "status": "proved",
   "theorems": [
    "C92_elements",
    "C92_points",
    "C92_refuted"
   ],
   "note": "False of the code: C92_elements and C92_points show that < is never true, >= always, > is != and <= is ==; C92_refuted gives x > y and y > x."
  },
  {
   "property": "C93",
   "status": "proved",
   "theorems": [
    "C93_same",
    "C93_equality",
    "C93_refuted"
   ],
   "note": "The first half holds (C93_same, C93_equality); the second is false (C93_refuted): two objects of one class raise AssertionError on + and have different identities."
  },
  {
   "property": "C94",
   "status": "proved",
   "theorems": [
    "C94_equivalent",
    "C94_three",
    "C94_refuted"
   ],
   "note": "False as first stated (C94_refuted); C94_equivalent characterises the equivalent keys and C94_three shows that three messages suffice to tell keys apart."
  },
  {
   "property": "C95",
   "status": "proved",
   "theorems": [
    "C95_equivalent",
    "C95_refuted",
    "C95_passphrase"
   ],
   "note": "False as first stated (C95_refuted, C95_passphrase); C95_equivalent is exact. Equal object states behave equally in every history; that different states give different tags is not claimed, it depends on the hash."
  },
  {
   "property": "C96",
   "status": "proved",
   "theorems": [
    "C96_injective",
    "C96_reuse",
    "C96_malleable"
   ],
   "note": "C96_malleable uses that decrypt does not check the tag (C17)."
  },
  {
   "property": "C97",
   "status": "proved",
   "theorems": [
    "C97_padded",
    "C97_shortest",
    "C97_base_N",
    "C97_b94",
    "C97_refuted"
   ],
   "note": "C97_padded, C97_shortest, C97_base_N and C97_b94 hold; plain string comparison fails for b27encode, b85encode and unpadded int_to_string (C97_refuted)."
  },
  {
   "property": "C98",
   "status": "proved",
   "theorems": [
    "C98_zero",
    "C98_small",
    "C98_curve25519",
    "C98_collision",
    "C98_public_keys",
    "C98_refuted"
   ],
   "note": "False as first stated (C98_zero, C98_small, C98_curve25519, C98_refuted); C98_collision and C98_public_keys say exactly which private keys share a public key. The package does not check for a zero result."
  },
  {
   "property": "C99",
   "status": "proved",
   "theorems": [
    "C99_multiplicative",
    "C99_modulus",
    "C99_periodic",
    "C99_coprime",
    "C99_reciprocity",
    "C99_supplements",
    "C99_orders",
    "C99_orders_small"
   ],
   "note": "C99_orders is subject to is_prime_exact as C53 and C54 are; C99_orders_small has no such premise. order_mod answers 2 for x > 1 with x = 1 modulo m (C55_unreduced), so these x are excluded."
  },
  {
   "property": "C100",
   "status": "proved",
   "theorems": [
    "C100_affine",
    "C100_balanced",
    "C100_add_affine",
    "C100_shift",
    "C100_permutation"
   ],
   "note": "nonLinearity is modelled doubled (C74); one-entry tables are excluded as in C74_single_entry."
  },
  {
   "property": "C101",
   "status": "proved",
   "theorems": [
    "C101_decimal",
    "C101_form",
    "C101_point",
    "C101_element",
    "C101_element_refuted",
    "C101_edwards_refuted",
    "C101_montgomery"
   ],
   "note": "str() is modelled as a list of character codes; the decimal form is stated by digit values, without leading zeros."
  },
  {
   "property": "C102",
   "status": "proved",
   "theorems": [
    "C102_sizes"
   ],
   "note": "HMAC is a parameter of output length 20, as in C30."
  },
  {
   "property": "C103",
   "status": "proved",
   "theorems": [
    "C103_order",
    "C103_aes",
    "C103_sms4",
    "C103_streebog",
    "C103_gost",
    "C103_inverse"
   ],
   "note": "The iterates are those of the specification of C75; the orders of the two tables are lcms of their orbit lengths."
  },
  {
   "property": "C104",
   "status": "proved",
   "theorems": [
    "C104_points_refuted",
    "C104_michael_refuted",
    "C104_permutation_refuted"
   ],
   "note": "The errors are those of Python 2.7 (a raised string is a TypeError, an unbound method called with a list is a TypeError); the model records them, so the theorems hold by definition."
  },
  {
   "property": "C105",
   "status": "proved",
   "theorems": [
    "C105_prefix",
    "C105_unique",
    "C105_collision",
    "C105_cycle_refuted",
    "C105_word"
   ],
   "note": "The number of repetitions is shown to exist by counting states; it depends on key and prefix."
  },
  {
   "property": "C106",
   "status": "proved",
   "theorems": [
    "C106_seed"
   ],
   "note": "The octet order is that of the code, which differs from IEEE 802.11i in octets 0 to 2 (C37)."
  }
 ]
}