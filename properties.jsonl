{"id": "C01", "title": "Integer/octet-string codec round trip", "statement": "For every integer x >= 0, int_to_string(x) returns the shortest non-empty big-endian octet string of x and string_to_int gives x back; with padto=k it returns exactly k octets of the same value whenever x fits, raises an error when x does not fit and always raises ValueError for negative x.", "quantifier": "for every integer x and every padto", "why_tests_cant": "unbounded integer domain; tests sample a handful of values", "anchors": ["cipher/encoding.py:int_to_string", "cipher/encoding.py:string_to_int", "cipher/common.py:int_to_string", "cipher/common.py:string_to_int", "ecc/ecc.py:int_to_string", "ecc/ecc.py:string_to_int"]}
{"id": "C02", "title": "Octet strings survive string_to_int followed by int_to_string(padto=len)", "statement": "For every non-empty octet string s, int_to_string(string_to_int(s), padto=len(s)) == s, and without padto the result is s with its leading zero octets removed (at least one octet is kept).", "quantifier": "for every octet string s", "why_tests_cant": "unbounded domain, leading zeros are the interesting corner", "anchors": ["cipher/encoding.py:int_to_string", "cipher/encoding.py:string_to_int", "cipher/common.py"]}
{"id": "C03", "title": "Text encodings b27/b85/b94 are lossless", "statement": "For every octet string s, decoding the text produced by encoding s gives s back (b27, b85, b94). (Expected to fail for strings with leading zero octets; the exact set of strings on which it holds is to be characterised.)", "quantifier": "for every octet string", "why_tests_cant": "unbounded domain; the repo's tests only use strings that happen to survive", "anchors": ["cipher/encoding.py:base_N_encode", "cipher/encoding.py:base_N_decode", "cipher/encoding.py:b27encode", "cipher/encoding.py:b85encode", "cipher/encoding.py:b94encode"]}
{"id": "C04", "title": "padto restores the length when decoding b27/b85/b94 text", "statement": "b27decode/b85decode/b94decode(text, padto=k) returns exactly k octets whenever the value fits in k octets.", "quantifier": "for every text and padto", "why_tests_cant": "needs all texts and pad lengths", "anchors": ["cipher/encoding.py:b27decode", "cipher/encoding.py:b85decode", "cipher/encoding.py:b94decode"]}
{"id": "C05", "title": "Text codec alphabet discipline and injectivity", "statement": "Encoders only ever output characters of their alphabet; decoders accept exactly the texts over the alphabet and raise ValueError on every other text; two octet strings with different integer values never get the same text; the number of characters produced is the minimal one.", "quantifier": "for every octet string / text", "why_tests_cant": "unbounded domain", "anchors": ["cipher/encoding.py:base_N_encode", "cipher/encoding.py:base_N_decode"]}
{"id": "C06", "title": "ChaCha decrypts what it encrypted", "statement": "For every 32-octet key, 12-octet nonce, starting block counter and message, decrypting with a fresh ChaCha object the result of encrypting with a fresh object gives the message back and lengths are preserved.", "quantifier": "for every key, nonce, counter and message", "why_tests_cant": "unbounded message length, 2^256 keys", "anchors": ["cipher/chacha_poly.py:ChaCha"]}
{"id": "C07", "title": "ChaCha equals the RFC 7539 cipher", "statement": "For every key, nonce and counter with counter + number of blocks <= 2^32, ChaCha.encrypt returns plaintext XOR (ChaCha20 block function of RFC 7539 at successive counters), and quarter_round / inner_block / chacha20_block equal the RFC's definitions on 32-bit words.", "quantifier": "for every key, nonce, counter, message", "why_tests_cant": "tests check the RFC's vectors only", "anchors": ["cipher/chacha_poly.py:quarter_round", "cipher/chacha_poly.py:inner_block", "cipher/chacha_poly.py:ChaCha.chacha20_block", "cipher/chacha_poly.py:ChaCha.encrypt"]}
{"id": "C08", "title": "A ChaCha object never reuses a keystream block", "statement": "In any sequence of encrypt/decrypt calls on one object, the calls consume disjoint, consecutive runs of block counters, each call starting where the previous one ended (partial blocks are discarded).", "quantifier": "for every history of calls", "why_tests_cant": "all call histories and message lengths", "anchors": ["cipher/chacha_poly.py:ChaCha.encrypt"]}
{"id": "C09", "title": "Splitting a message over several encrypt calls", "statement": "Encrypting m1 and then m2 on one object gives the same octets as encrypting m1+m2. (Expected to hold exactly when len(m1) is a multiple of 64 or m2 is empty; characterise.)", "quantifier": "for every m1, m2", "why_tests_cant": "needs all split positions and all messages", "anchors": ["cipher/chacha_poly.py:ChaCha.encrypt"]}
{"id": "C10", "title": "ChaCha block counter is a 32-bit counter", "statement": "Encrypting past block counter 2^32-1 either raises an error or continues with counter 0 as a 32-bit counter would. (Suspected false: the counter is not masked.)", "quantifier": "for every counter", "why_tests_cant": "needs 256 GiB of data or an explicit counter nobody tests", "anchors": ["cipher/chacha_poly.py:ChaCha.encrypt", "cipher/chacha_poly.py:ChaCha.initialize"]}
{"id": "C11", "title": "Key and nonce sizes are enforced", "statement": "ChaCha(key, nonce) raises unless the key has 32 and the nonce 12 octets. (Suspected false for the empty nonce, which is silently replaced by a random one; also through the AEAD.)", "quantifier": "for every key and nonce string", "why_tests_cant": "all lengths and the falsy-string corner", "anchors": ["cipher/chacha_poly.py:ChaCha.__init__", "cipher/chacha_poly.py:ChaCha.initialize", "cipher/chacha_poly.py:ChaCha20_AEAD"]}
{"id": "C12", "title": "ChaCha rounds are invertible", "statement": "quarter_round and inner_block are permutations of the 16-word state: two different states of 32-bit words never have the same image, and every state is an image.", "quantifier": "for every pair of states", "why_tests_cant": "2^512 states", "anchors": ["cipher/chacha_poly.py:quarter_round", "cipher/chacha_poly.py:inner_block", "cipher/chacha_poly.py:chacha_q_round"]}
{"id": "C13", "title": "poly1305_mac computes the Poly1305 polynomial", "statement": "For every 32-octet key and every message, poly1305_mac returns 16 octets: the little-endian encoding of ((sum_i c_i r^(q+1-i)) mod 2^130-5 + s) mod 2^128, where c_i are the 16-octet blocks with the 0x01 octet appended and r is the clamped first half of the key.", "quantifier": "for every key and message", "why_tests_cant": "unbounded message length", "anchors": ["cipher/chacha_poly.py:poly1305_mac", "cipher/chacha_poly.py:clamp"]}
{"id": "C14", "title": "Poly1305 is almost universal", "statement": "For any two different messages of at most L octets and any difference d of tags, at most 8*ceil(L/16) of the clamped r values make the two tags differ by d (mod 2^128).", "quantifier": "for every pair of distinct messages and every tag difference", "why_tests_cant": "a counting statement over 2^106 keys", "anchors": ["cipher/chacha_poly.py:poly1305_mac"]}
{"id": "C15", "title": "poly1305_mac rejects keys that are not 32 octets", "statement": "poly1305_mac raises for every key whose length is not 32. (Suspected false: 17..31 and >32 octets are accepted.)", "quantifier": "for every key length", "why_tests_cant": "all lengths", "anchors": ["cipher/chacha_poly.py:poly1305_mac", "cipher/chacha_poly.py:le_bytes_to_num"]}
{"id": "C16", "title": "ChaCha20_AEAD equals the RFC 7539 AEAD and decrypt recovers the plaintext", "statement": "For every key, constant+iv of 12 octets, aad and plaintext (lengths < 2^64 and fewer than 2^32-1 blocks) encrypt returns the RFC 7539 ciphertext and tag, and decrypt of that ciphertext returns the plaintext as its first component.", "quantifier": "for every key, nonce, aad and plaintext", "why_tests_cant": "unbounded inputs", "anchors": ["cipher/chacha_poly.py:ChaCha20_AEAD"]}
{"id": "C17", "title": "AEAD decryption authenticates", "statement": "A ciphertext that was not produced by encrypt for that aad/iv is rejected by decrypt, and the tag decrypt returns equals the tag encrypt returned for the genuine ciphertext. (Suspected false: decrypt is encrypt, takes no tag and authenticates the plaintext.)", "quantifier": "for every ciphertext, aad, iv", "why_tests_cant": "adversarial inputs", "anchors": ["cipher/chacha_poly.py:ChaCha20_AEAD.decrypt"]}
{"id": "C18", "title": "AEAD MAC input is unambiguous", "statement": "Two different (aad, ciphertext) pairs with lengths below 2^64 never produce the same octet string to be MACed.", "quantifier": "for every two pairs", "why_tests_cant": "all pairs of inputs", "anchors": ["cipher/chacha_poly.py:ChaCha20_AEAD.encrypt", "cipher/chacha_poly.py:pad16", "cipher/chacha_poly.py:num_to_8_le_bytes"]}
{"id": "C19", "title": "ChaCha_Poly_AEAD can be used", "statement": "ChaCha_Poly_AEAD(...).decrypt(aad, iv, encrypt(aad, iv, pt)) == pt. (Suspected false: both methods raise on every input.)", "quantifier": "for every key, aad, iv and plaintext", "why_tests_cant": "no test exercises the class", "anchors": ["cipher/chacha_poly.py:ChaCha_Poly_AEAD"]}
{"id": "C20", "title": "aes_cmac equals RFC 4493 whenever it returns", "statement": "For every block cipher, key and message, if aes_cmac returns a value it is the CMAC of RFC 4493 / SP 800-38B.", "quantifier": "for every cipher, key and message", "why_tests_cant": "unbounded messages", "anchors": ["cipher/aes_cmac.py:aes_cmac", "cipher/aes_cmac.py:subkey"]}
{"id": "C21", "title": "aes_cmac is defined for every key", "statement": "aes_cmac returns for every valid AES key and every message. (Suspected false: subkeys with a leading zero octet make it raise AssertionError.)", "quantifier": "for every key and message", "why_tests_cant": "about one key in 128 fails; test keys do not", "anchors": ["cipher/aes_cmac.py:subkey", "cipher/aes_cmac.py:xor"]}
{"id": "C22", "title": "aes_cmac honours the CIPH argument", "statement": "aes_cmac(key, M, CIPH) is the CMAC of the cipher CIPH. (Suspected false: the subkeys always come from AES.)", "quantifier": "for every cipher", "why_tests_cant": "needs a second cipher", "anchors": ["cipher/aes_cmac.py:aes_cmac"]}
{"id": "C23", "title": "dbl is multiplication by x in GF(2^128)", "statement": "For every 16-octet string, dbl returns 16 octets; it is linear for XOR, injective, and equals multiplication by x modulo x^128+x^7+x^2+x+1.", "quantifier": "for every 16-octet string", "why_tests_cant": "2^128 inputs", "anchors": ["cipher/aes_siv.py:dbl", "cipher/aes_cmac.py:subkey"]}
{"id": "C24", "title": "AES-SIV decrypts what it encrypted", "statement": "For every key, plaintext and list of associated data, if siv_encrypt returns c then siv_decrypt(key, c, ad) returns the plaintext.", "quantifier": "for every key, plaintext and ad list", "why_tests_cant": "unbounded inputs", "anchors": ["cipher/aes_siv.py:siv_encrypt", "cipher/aes_siv.py:siv_decrypt"]}
{"id": "C25", "title": "AES-SIV accepts only genuine ciphertexts", "statement": "If siv_decrypt(key, c, ad) returns pt then siv_encrypt(key, pt, ad) returns exactly c; in particular strings shorter than 16 octets and any change of the synthetic IV are rejected by an exception.", "quantifier": "for every key, octet string c and ad list", "why_tests_cant": "adversarial inputs", "anchors": ["cipher/aes_siv.py:siv_decrypt"]}
{"id": "C26", "title": "AES-SIV equals RFC 5297", "statement": "For every key, plaintext and ad list, siv_encrypt returns S2V || CTR as RFC 5297 defines it, and the counter blocks used for up to 2^31 blocks are pairwise distinct and differ only in the low 32 bits.", "quantifier": "for every input", "why_tests_cant": "unbounded inputs", "anchors": ["cipher/aes_siv.py:s2v", "cipher/aes_siv.py:siv_encrypt"]}
{"id": "C27", "title": "HMAC depends only on the concatenation of the updates since the last reset", "statement": "For every underlying hash that is itself chunking independent, any history of update/digest/reset/setKey/call on an HMAC object gives at each digest the HMAC of the concatenation of the data since the last reset under the current key; digest does not disturb the state.", "quantifier": "for every history of calls", "why_tests_cant": "all interleavings", "anchors": ["hash/hmac.py:HMAC"]}
{"id": "C28", "title": "HMAC equals RFC 2104", "statement": "For every key and message, HMAC returns H(K^opad, H(K^ipad, m)) with K zero padded to the block size, long keys being hashed first. (Suspected false for keys longer than the block.)", "quantifier": "for every key and message", "why_tests_cant": "keys longer than the block are not covered by vectors that check the padding", "anchors": ["hash/hmac.py:HMAC.setKey"]}
{"id": "C29", "title": "pbkdf2 equals PBKDF2 of RFC 2898", "statement": "For every password of at most 63 octets, salt, iteration count c >= 1 and key size <= 10000 pbkdf2 returns the first keySize octets of T_1 || T_2 || ... with T_i = U_1 xor ... xor U_c; otherwise it raises. (On Python 2.7 suspected to always raise TypeError because range() is given a float.)", "quantifier": "for every password, salt, count, key size", "why_tests_cant": "unbounded inputs", "anchors": ["hash/pbkdf2.py:pbkdf2", "hash/pbkdf2.py:F"]}
{"id": "C30", "title": "PRF output is exact, prefix consistent, and defined for every length", "statement": "For every key, prefix, data and number of bits n (multiple of 8), PRF returns the first n/8 octets of HMAC_0 || HMAC_1 || ...; a shorter request is a prefix of a longer one; other n raise ValueError. (Suspected to fail from 5120 octets on.)", "quantifier": "for every key, prefix, data, n", "why_tests_cant": "all lengths", "anchors": ["hash/prf_dot11.py:PRF"]}
{"id": "C31", "title": "Michael equals the IEEE 802.11i function", "statement": "For every 8-octet key and message, Michael returns 8 octets equal to the IEEE 802.11i definition over the message padded with 0x5a and 4..7 zero octets up to a multiple of 4; it never raises, and the padding is injective.", "quantifier": "for every key and message", "why_tests_cant": "unbounded messages", "anchors": ["hash/michael.py:Michael", "hash/michael.py:b"]}
{"id": "C32", "title": "Michael is invertible: MIC and message determine the key", "statement": "For every message, the map from keys to MICs is a bijection of 64-bit strings; two different keys never give the same MIC on the same message.", "quantifier": "for every message and pair of keys", "why_tests_cant": "2^64 keys times all messages", "anchors": ["hash/michael.py:Michael", "hash/michael.py:b"]}
{"id": "C33", "title": "TKIP MIC framing is unambiguous and usable as a hash object", "statement": "TKIP_MIC.hash(SA, DA, priority, msdu) is Michael over DA|SA|priority|0|0|0|msdu; different argument tuples give different MIC inputs; bad lengths raise. Calling the object as a hash, TKIP_MIC(key)(data), works. (The last part suspected false.)", "quantifier": "for every argument tuple", "why_tests_cant": "all arguments", "anchors": ["hash/tkip_mic.py:TKIP_MIC"]}
{"id": "C34", "title": "TKIP key mixer cache is transparent", "statement": "After any history of constructor/setKey/setTA/newKey calls (including failing ones), newKey(pn) returns the same WEP seed as an uncached computation from the current key, transmitter address and pn.", "quantifier": "for every history of calls", "why_tests_cant": "stale-cache bugs depend on the order of calls", "anchors": ["hash/tkip_key_mixing.py:TKIP_Mixer"]}
{"id": "C35", "title": "TKIP key mixer cache is transparent even when setPnBytes is used directly", "statement": "Same as C34 for histories that also use the public method setPnBytes. (Suspected false.)", "quantifier": "for every history of calls", "why_tests_cant": "depends on the order of calls", "anchors": ["hash/tkip_key_mixing.py:TKIP_Mixer.setPnBytes"]}
{"id": "C36", "title": "TKIP per-packet keys are unique", "statement": "Under one temporal key, two different (transmitter address, 48-bit packet number) pairs never give the same WEP seed; the mixing is injective.", "quantifier": "for every key and every two packets", "why_tests_cant": "2^96 packets squared", "anchors": ["hash/tkip_key_mixing.py:phase1KeyMixing", "hash/tkip_key_mixing.py:phase2KeyMixing"]}
{"id": "C37", "title": "TKIP key mixing equals IEEE 802.11i", "statement": "For every temporal key, transmitter address and TSC, the mixer returns the WEP seed of IEEE 802.11i. (Suspected false in the first three octets: TSC1 and TSC0 are exchanged.)", "quantifier": "for every key, address and counter", "why_tests_cant": "tests check eight vectors", "anchors": ["hash/tkip_key_mixing.py:phase1KeyMixing", "hash/tkip_key_mixing.py:phase2KeyMixing"]}
{"id": "C38", "title": "GF(p) elements compute modulo p", "statement": "For every modulus p > 0 and integers a, b: elements print, compare and combine (+,-,*,^,negation, with int operands on either side) as integers modulo p, results always being in [0,p); hence the ring laws hold.", "quantifier": "for every p, a, b", "why_tests_cant": "unbounded integers", "anchors": ["fmath/galoisfield.py:GFp", "fmath/galoisfield.py:Element"]}
{"id": "C39", "title": "GF(p) division", "statement": "For prime p and every non-zero divisor b (element or integer), (a/b)*b == a; division by zero raises. (Suspected false for negative integer divisors, which always raise.)", "quantifier": "for every prime p, a, b", "why_tests_cant": "all integers incl. negative ones", "anchors": ["fmath/galoisfield.py:Element.__div__", "fmath/galoisfield.py:inverse_mod", "fmath/galoisfield.py:egcd"]}
{"id": "C40", "title": "Modular inverse", "statement": "For every m >= 2 and integer a, inverse_mod(a, m) terminates; it returns the unique x in [1, m-1] with a*x = 1 mod m when gcd(a,m)=1 and raises AssertionError otherwise.", "quantifier": "for every a and m", "why_tests_cant": "unbounded integers, termination", "anchors": ["ecc/numbertheory.py:inverse_mod"]}
{"id": "C41", "title": "gcd and lcm", "statement": "gcd/lcm of any non-empty sequence of non-negative integers are the greatest common divisor / least common multiple; for arbitrary signs gcd2 returns plus or minus the gcd; all calls terminate.", "quantifier": "for every list of integers", "why_tests_cant": "unbounded", "anchors": ["ecc/numbertheory.py:gcd2", "ecc/numbertheory.py:gcd", "ecc/numbertheory.py:lcm2", "ecc/numbertheory.py:lcm"]}
{"id": "C42", "title": "modular_exp", "statement": "modular_exp(b, e, m) = b^e mod m for all e >= 0, m > 0, and raises NegativeExponentError for e < 0.", "quantifier": "for every b, e, m", "why_tests_cant": "unbounded", "anchors": ["ecc/numbertheory.py:modular_exp"]}
{"id": "C43", "title": "Polynomial arithmetic modulo (f, p)", "statement": "For every monic f of degree d >= 1 (at least 2 coefficients) and polynomials over the integers: multiply_mod and exp_mod return a polynomial of degree < d congruent to the product / power modulo f and p.", "quantifier": "for every polynomial and p", "why_tests_cant": "unbounded", "anchors": ["ecc/numbertheory.py:polynomial_reduce_mod", "ecc/numbertheory.py:polynomial_multiply_mod", "ecc/numbertheory.py:polynomial_exp_mod"]}
{"id": "C44", "title": "jacobi computes the Jacobi symbol", "statement": "For every odd n >= 3 and every integer a, jacobi(a, n) terminates and equals the Jacobi symbol (product of Legendre symbols over the prime factorisation of n); for prime n it is 1, -1, 0 for residues, non-residues, multiples.", "quantifier": "for every a and odd n", "why_tests_cant": "needs quadratic reciprocity; unbounded", "anchors": ["ecc/numbertheory.py:jacobi"]}
{"id": "C45", "title": "square_root_mod_prime", "statement": "For every odd prime p and 0 <= a < p: if a is a square mod p the function returns some r with r^2 = a mod p, otherwise it raises SquareRootError.", "quantifier": "for every prime p (p = 3 mod 4, 5 mod 8; p = 1 mod 8 as long as range() does not overflow) and a", "why_tests_cant": "unbounded primes", "anchors": ["ecc/numbertheory.py:square_root_mod_prime"]}
{"id": "C46", "title": "square roots exist for all supported curve fields", "statement": "square_root_mod_prime works for every prime p used by the curves. (Suspected false: for p = 1 mod 8 above the list size limit range(2,p) raises OverflowError, which hits secp224r1 and two GOST fields.)", "quantifier": "for every prime p = 1 mod 8 above the limit and every square a", "why_tests_cant": "no test computes a root modulo such p", "anchors": ["ecc/numbertheory.py:square_root_mod_prime"]}
{"id": "C47", "title": "modular_sqrt (Tonelli-Shanks)", "statement": "For every odd prime p and integer a, modular_sqrt terminates and returns r with r^2 = a mod p when a is a square, and 0 otherwise.", "quantifier": "for every odd prime and a", "why_tests_cant": "unbounded; termination", "anchors": ["ecc/numbertheory.py:modular_sqrt"]}
{"id": "C48", "title": "legendre_symbol", "statement": "For every odd prime p and integer a: 1 for non-zero squares, -1 for non-squares, 0 for multiples of p.", "quantifier": "for every odd prime and a", "why_tests_cant": "unbounded", "anchors": ["ecc/numbertheory.py:legendre_symbol"]}
{"id": "C49", "title": "Primality tests never reject a prime", "statement": "is_prime(p) is True, rabin_miller(p, a) and fermat_little_test(p, a) return 1 for every prime p and admissible base a; is_prime is exact up to 1229.", "quantifier": "for every prime and base", "why_tests_cant": "unbounded primes", "anchors": ["ecc/numbertheory.py:is_prime", "fmath/prime.py:rabin_miller", "fmath/prime.py:fermat_little_test"]}
{"id": "C50", "title": "is_prime never accepts a composite", "statement": "is_prime(n) is True only for primes. (Suspected false: the witnesses are fixed.)", "quantifier": "for every n", "why_tests_cant": "needs adversarially constructed composites", "anchors": ["ecc/numbertheory.py:is_prime"]}
{"id": "C51", "title": "Error bound of one Rabin-Miller round", "statement": "For every odd composite n at most half (better: a quarter) of the bases 1..n-1 make rabin_miller return 1.", "quantifier": "for every odd composite n", "why_tests_cant": "counting over all bases of all composites", "anchors": ["fmath/prime.py:rabin_miller", "ecc/numbertheory.py:is_prime"]}
{"id": "C52", "title": "factorization", "statement": "For every n >= 2, factorization terminates and returns strictly increasing factors with positive exponents whose product is n; every factor is prime or a composite that passed is_prime.", "quantifier": "for every n", "why_tests_cant": "unbounded", "anchors": ["ecc/numbertheory.py:factorization"]}
{"id": "C53", "title": "phi is Euler's totient", "statement": "phi(n) equals the number of 1 <= k <= n coprime to n, whenever the factorisation it uses is into primes.", "quantifier": "for every n >= 1", "why_tests_cant": "unbounded", "anchors": ["ecc/numbertheory.py:phi"]}
{"id": "C54", "title": "carmichael is an exponent of the unit group", "statement": "m^carmichael(n) = 1 mod n for every m coprime to n, and no smaller positive exponent works for all m.", "quantifier": "for every n and m", "why_tests_cant": "unbounded", "anchors": ["ecc/numbertheory.py:carmichael", "ecc/numbertheory.py:carmichael_of_factorized", "ecc/numbertheory.py:carmichael_of_ppower"]}
{"id": "C55", "title": "order_mod returns the multiplicative order", "statement": "order_mod(x, m) is the least k >= 1 with x^k = 1 mod m for every x coprime to m. (Suspected false for unreduced x = 1 mod m.)", "quantifier": "for every x, m", "why_tests_cant": "unbounded", "anchors": ["ecc/numbertheory.py:order_mod"]}
{"id": "C56", "title": "largest_factor_relatively_prime", "statement": "For a >= 1 and b >= 1 it terminates and returns the largest divisor of a coprime to b; kinda_order_mod terminates for every x >= 1 and m >= 2. (For a = 0 suspected not to terminate.)", "quantifier": "for every a, b", "why_tests_cant": "termination and unbounded domain", "anchors": ["ecc/numbertheory.py:largest_factor_relatively_prime", "ecc/numbertheory.py:kinda_order_mod"]}
{"id": "C57", "title": "next_prime", "statement": "next_prime(n) terminates for every n, returns a value > n accepted by is_prime and skips no prime; below the table limit it is exactly the next prime.", "quantifier": "for every n", "why_tests_cant": "termination relies on the infinitude of primes and on no prime being rejected", "anchors": ["ecc/numbertheory.py:next_prime"]}
{"id": "C58", "title": "Prime tables are exact", "statement": "smallprimes lists exactly the primes up to 1229 and primes_to_5k exactly the primes below 5000, in increasing order.", "quantifier": "for every integer in range", "why_tests_cant": "a semantic (not sampled) statement about every integer in the range", "anchors": ["ecc/numbertheory.py:smallprimes", "fmath/primes_to_5k.py"]}
{"id": "C59", "title": "Weierstrass point arithmetic stays on the curve", "statement": "For every prime p > 3 and curve coefficients, sums, doubles, negatives of points with reduced x are points of the curve or IDENTITY, the validating constructor never fails on them, and addition is commutative with IDENTITY as neutral element.", "quantifier": "for every curve and pair of points", "why_tests_cant": "unbounded", "anchors": ["ecc/ecc.py:SmallWeierstrassCurveFp.add_points", "ecc/ecc.py:SmallWeierstrassCurveFp.double_point", "ecc/ecc.py:SmallWeierstrassCurveFp.negate", "ecc/ecc.py:SmallWeierstrassCurveFp.on_curve"]}
{"id": "C60", "title": "Weierstrass points form an abelian group", "statement": "P+(Q+R) and (P+Q)+R denote the same point, and P+(-P) is IDENTITY, for all points of every non-singular curve over every prime field p > 3.", "quantifier": "for every curve and all triples of points", "why_tests_cant": "a theorem about all curves", "anchors": ["ecc/ecc.py:SmallWeierstrassCurveFp.add_points"]}
{"id": "C61", "title": "Scalar multiplication is repeated addition", "statement": "For every point P of odd prime order n (the curve's n) and every integer k, k*P equals the k-fold sum of P (of -P for negative k), for every sign and size of k, and never raises.", "quantifier": "for every curve, P, k", "why_tests_cant": "unbounded", "anchors": ["ecc/ecc.py:SmallWeierstrassCurveFp.scalar_multiple", "ecc/ellipticcurve.py:Point"]}
{"id": "C62", "title": "n*G == IDENTITY certifies the group order", "statement": "If c.n * G == c.IDENTITY evaluates to true then n is a multiple of the order of G (what the unit tests rely on). (Suspected false: the scalar is reduced modulo n first, so the equation holds for every point and every n.)", "quantifier": "for every curve, declared order n and point", "why_tests_cant": "the existing test itself is vacuous", "anchors": ["ecc/ecc.py:SmallWeierstrassCurveFp.scalar_multiple"]}
{"id": "C63", "title": "Scalar multiplication is right for every point of the curve", "statement": "k*P is the k-fold sum for every point P of the curve. (Suspected false for points whose order does not divide n.)", "quantifier": "for every point", "why_tests_cant": "needs points outside the subgroup", "anchors": ["ecc/ecc.py:SmallWeierstrassCurveFp.scalar_multiple"]}
{"id": "C64", "title": "Equality and arithmetic respect congruent coordinates", "statement": "Points accepted by the constructor whose coordinates are congruent modulo p are equal and interchangeable. (Suspected false.)", "quantifier": "for every pair of representations", "why_tests_cant": "needs unreduced coordinates", "anchors": ["ecc/ellipticcurve.py:Point.__cmp__", "ecc/ecc.py:SmallWeierstrassCurveFp.add_points"]}
{"id": "C65", "title": "IDENTITY can be negated, doubled and subtracted", "statement": "-IDENTITY, IDENTITY.double(), P - IDENTITY and the double of a point of order two return group elements. (Suspected false: they raise.)", "quantifier": "for every curve", "why_tests_cant": "corner operand", "anchors": ["ecc/ecc.py:SmallWeierstrassCurveFp.negate", "ecc/ecc.py:SmallWeierstrassCurveFp.double_point"]}
{"id": "C66", "title": "y_from_x lifts exactly the x coordinates of curve points", "statement": "For every curve over a prime p = 3 mod 4 or 5 mod 8 and every 0 <= x < p: y_from_x returns y with (x,y) on the curve if such a y exists, otherwise raises SquareRootError.", "quantifier": "for every curve and x", "why_tests_cant": "unbounded", "anchors": ["ecc/ecc.py:SmallWeierstrassCurveFp.y_from_x", "ecc/ecc.py:SmallWeierstrassCurveFp.on_curve"]}
{"id": "C67", "title": "Points can be serialised", "statement": "Point.encode / Point.toOctets return an octet string for every point. (Suspected false: they raise NameError.)", "quantifier": "for every point", "why_tests_cant": "no test serialises a point", "anchors": ["ecc/ellipticcurve.py:Point.encode", "ecc/ellipticcurve.py:Point.toOctets"]}
{"id": "C68", "title": "Twisted Edwards curves are usable", "statement": "Every twisted Edwards curve object can be constructed, IDENTITY is neutral and scalar multiplication works. (Suspected false: wrong curve equation, wrong identity, missing method.)", "quantifier": "for every p, a, d", "why_tests_cant": "the tests of these curves cannot run", "anchors": ["ecc/ecc.py:TwistedEdwardsCurveFp"]}
{"id": "C69", "title": "Montgomery curves are usable", "statement": "Every Montgomery curve object can be constructed, points can be negated and both ladders return. (Suspected false.)", "quantifier": "for every p, a", "why_tests_cant": "the tests of these curves cannot run", "anchors": ["ecc/ecc.py:MontgomeryCurveFp"]}
{"id": "C70", "title": "Montgomery ladder computes the differential-addition ladder modulo p", "statement": "For every prime p, coefficient a, scalar in [0, 2^255) and x, the value of montgomery_ladder equals the standard ladder (x-coordinate of the multiple) computed with reduction modulo p; cswap swaps exactly when the bit is 1.", "quantifier": "for every scalar and x", "why_tests_cant": "unbounded", "anchors": ["ecc/ecc.py:MontgomeryCurveFp.montgomery_ladder", "ecc/ecc.py:cswap"]}
{"id": "C71", "title": "Built-in curve parameters are consistent", "statement": "For every built-in short Weierstrass curve the generator is accepted, the discriminant is non-zero, the coordinates are reduced, coord_size is the octet length of p, and n annihilates G.", "quantifier": "for every built-in curve", "why_tests_cant": "the order check of the test-suite is vacuous (C62)", "anchors": ["ecc/curves.py", "ecc/ellipticcurve.py:EllipticCurveFp"]}
{"id": "C72", "title": "Curve identifiers are unique", "statement": "No two built-in curve classes share a curveId. (Suspected false: secp256r1/secp521r1.)", "quantifier": "for every pair of curves", "why_tests_cant": "all pairs", "anchors": ["ecc/curves.py"]}
{"id": "C73", "title": "Walsh transform: Parseval and inversion", "statement": "For every binary truth table of length 2^n, walshTransform returns the integer correlation with every linear function, the squares sum to 4^n, and applying the transform again recovers the table.", "quantifier": "for every n and truth table", "why_tests_cant": "unbounded n", "anchors": ["analysis/sbox_nonlinearity.py:walshTransform", "analysis/walshtransform.py:walshTransform"]}
{"id": "C74", "title": "nonLinearity is the distance to the affine functions", "statement": "For every binary truth table of length 2^n, n >= 1, nonLinearity is the minimal Hamming distance to an affine function.", "quantifier": "for every n and truth table", "why_tests_cant": "unbounded n", "anchors": ["analysis/sbox_nonlinearity.py:nonLinearity", "analysis/walshtransform.py:nonLinearity"]}
{"id": "C75", "title": "Orbit decomposition of permutations", "statement": "For every permutation of 0..n-1 the returned dictionary lists each cycle exactly once, keyed by its least element, in orbit order; lengths sum to n and every element occurs in exactly one orbit.", "quantifier": "for every n and permutation", "why_tests_cant": "n! permutations for all n", "anchors": ["analysis/sbox_analysis.py:map_orbits_of_permutation", "analysis/sbox_analysis.py:orbit_start_and_length"]}
{"id": "C76", "title": "log2n and binaryInnerProduct", "statement": "log2n(l) returns n iff l == 2^n and raises AssertionError for every other l >= 0; binaryInnerProduct(a,b) is the parity of the bits of a AND b and is bilinear for XOR.", "quantifier": "for every integer", "why_tests_cant": "unbounded", "anchors": ["analysis/sbox_nonlinearity.py:log2n", "analysis/sbox_nonlinearity.py:binaryInnerProduct"]}
{"id": "C77", "title": "Key agreement", "statement": "For every curve and generator of odd prime order n and all private keys a, b: a*(b*G) == b*(a*G).", "quantifier": "for every pair of private keys", "why_tests_cant": "unbounded", "anchors": ["ecc/ecc.py:SmallWeierstrassCurveFp.scalar_multiple", "ecc/ellipticcurve.py:Point.__mul__"]}
{"id": "C78", "title": "XOR helpers", "statement": "xor(a,b) is defined exactly for equal lengths, xor_min truncates to the shorter string; both are involutive and commutative.", "quantifier": "for every pair of octet strings", "why_tests_cant": "unbounded", "anchors": ["cipher/common.py:xor", "cipher/common.py:xor_min", "cipher/aes_cmac.py:xor"]}
{"id": "C79", "title": "pi digits", "statement": "pi(d) is the truncation of the decimal expansion of pi to d digits for 1 <= d <= 50000, so shorter requests are truncations of longer ones, and other d raise. (pi(0) suspected to return all digits.)", "quantifier": "for every d", "why_tests_cant": "needs the real number pi", "anchors": ["fmath/pi.py:pi"]}
{"id": "C80", "title": "S-box nonlinearity and dispersion facts used by the analysis", "statement": "sboxNonlinearity returns the minimum and maximum of the nonlinearity over all non-zero output masks for every S-box of length 2^n; for the AES S-box both are 112.", "quantifier": "for every S-box", "why_tests_cant": "all masks, all S-boxes", "anchors": ["analysis/sbox_nonlinearity.py:sboxNonlinearity"]}
{"id": "C81", "title": "new_private_key", "statement": "new_private_key returns the big-endian value of coord_size random octets: every value below 256^coord_size from exactly one string. Intended: the key lies in [1, n-1]. (Suspected false: 0 and n are possible, and their public key is the point at infinity.)", "quantifier": "for every octet string and every built-in short Weierstrass curve", "why_tests_cant": "the bad keys have probability 2^-256", "anchors": ["ecc/ecc.py:new_private_key", "ecc/ecc.py:string_to_int"]}
{"id": "C82", "title": "Provenance of the NIST curves", "statement": "For the curves with attributes seed and seed_c, seed_c is the ANSI X9.62 expansion of seed with SHA-1 and seed_c*b^2 = a^3 (mod p), which is the comment's (seed_c*b**2 + 27) % p == 0. (The comment seed_c == SHA1(seed) suspected false.)", "quantifier": "for every curve with seed_c", "why_tests_cant": "the assertions are comments, no test runs them", "anchors": ["ecc/curves.py:SECP_192r1", "ecc/curves.py:SECP_521r1"]}
{"id": "C83", "title": "Brainpool twists", "statement": "Each BrainPoolP*t1 curve is isomorphic to its r1 curve by (x,y) -> (z^2 x, z^3 y), the map takes the generator to the generator and the group law to the group law; z is the attribute of the class.", "quantifier": "for every pair and every point of the curves", "why_tests_cant": "2^512 points", "anchors": ["ecc/curves.py:BrainPoolP160t1", "ecc/curves.py:BrainPoolP512t1"]}
{"id": "C84", "title": "Brainpool seeds and parameters", "statement": "brainpool_seeds(num, bits) returns the consecutive bits-bit groups of the binary expansion of the real number pi, beginning four bits before the point; the seed_p attributes of the seven BrainPoolP*r1 classes are these groups for 160 bits and the seed_ab attributes the same groups of the real number e; and p, a, b follow from the seeds as RFC 5639 section 5 says: p is the least prime = 3 (mod 4) not below the SHA-1 expansion of the seed, a is a hash with a z^4 = -3 solvable and b the first hash after it that is not a square.  brainPoolRequirements accepts the curves.", "quantifier": "for all num >= 0 and bits > 0 divisible by 8 with num*bits <= 3321; every BrainPool r1 class", "why_tests_cant": "no test compares with the real numbers or proves that every candidate below p is composite", "anchors": ["ecc/test/test_brainpoolseeds.py:18-76", "ecc/curves.py:BrainPoolP160r1"]}
{"id": "C85", "title": "Embedding degree", "statement": "For every built-in short Weierstrass curve the order q of the generator is a prime different from p and p^k <> 1 (mod q) for 1 <= k <= 100, so that the curve is neither anomalous nor open to the MOV reduction to a field of degree up to 100.", "quantifier": "for every built-in short Weierstrass curve and 1 <= k <= 100", "why_tests_cant": "not a property of the running code", "anchors": ["ecc/curves.py"]}
{"id": "C86", "title": "Strength attribute", "statement": "The attribute strength s of a curve does not exceed half of the bit length of n: 2^(2s-1) <= n. (Suspected false for GOST2012_tc26_A, GOST2012_tc26_B and GOSTmsg05975te.)", "quantifier": "for every curve of allCurves", "why_tests_cant": "documentation of the attribute", "anchors": ["ecc/curves.py:allCurves"]}
{"id": "C87", "title": "Addition, doubling and scalar multiplication on Montgomery curves", "statement": "For points accepted by a Montgomery curve over a prime field, different from IDENTITY, add_points returns the chord-and-tangent sum, reduced and on the curve, whenever the x-coordinates differ modulo p; double_point returns the tangent sum unless the point has order two. Whenever scalar_multiple returns for a positive scalar, the result is the multiple. (Suspected false: opposite points, multiples that are the identity, negative scalars.)", "quantifier": "for every prime p > 3, coefficient a, identity object, pair of points and scalar", "why_tests_cant": "all fields, curves and scalars", "anchors": ["ecc/ecc.py:MontgomeryCurveFp.add_points", "ecc/ecc.py:MontgomeryCurveFp.double_point", "ecc/ecc.py:MontgomeryCurveFp.scalar_multiple"]}
{"id": "C88", "title": "Addition on twisted Edwards curves", "statement": "add_points of a twisted Edwards curve returns the Edwards sum whenever the denominators are invertible, the sum stays on the curve, and every sum is defined when a is a square and d is not; every point of the curve is accepted. (Suspected false: on_curve has y where the equation has y^2.)", "quantifier": "for every prime p, coefficients a, d and pair of points", "why_tests_cant": "all fields and curves", "anchors": ["ecc/ecc.py:TwistedEdwardsCurveFp.on_curve", "ecc/ecc.py:TwistedEdwardsCurveFp.add_points", "ecc/ecc.py:TwistedEdwardsCurveFp.double_point"]}
{"id": "C89", "title": "Known-answer vectors of the test files", "statement": "The code returns the published values listed in its own test files: ChaCha20 and Poly1305 (RFC 7539), CMAC (SP 800-38B), SIV (RFC 5297), HMAC (RFC 2104), the 802.11 PRF, Michael, the TKIP MIC, TKIP key mixing (IEEE 802.11i), base 85 (RFC 1924), P-192, P-521, secp256k1 (with BIP 32) and small-curve arithmetic, the Curve25519 key exchange, GF(p) arithmetic. (Suspected false: TKIP key mixing.)", "quantifier": "for every vector, every random string and every sufficient recursion depth", "why_tests_cant": "the tests are not runnable in this repository layout, so which of them hold is not known", "anchors": ["cipher/test/test_chacha_poly.py", "cipher/test/test_aes_cmac.py", "cipher/test/test_aes_siv.py", "cipher/test/test_encoding.py", "hash/test/test_hmac.py", "hash/test/prf_dot11_test.py", "hash/test/michael_test.py", "hash/test/tkip_mic_test.py", "hash/test/tkip_key_mixing_test.py", "ecc/test/test_ecc.py", "ecc/test/test_nist_curves.py", "fmath/test/test_galoisfields.py", "ecc/test/test_sec256k1.py", "ecc/test/test_curve25519.py"]}
{"id": "C90", "title": "The built-in Edwards and Montgomery curves", "statement": "For every class of twistedEdwardsCurves, edwardsCurves and montgomeryCurves: p is prime, the coefficients give a curve (a complete one for Edwards), the generator is a point of it, n is prime and is the order of the generator, n h is a possible number of points, and the class can be instantiated. (Suspected false: GOSTmsg05975te has two assignments to n, Ed25519 has d = 1, M511 has no coefficient, and the constructors build a point that is not on the curve.)", "quantifier": "for every class of the three lists and every sufficient recursion depth", "why_tests_cant": "an order near 2^519 cannot be established by counting, primality of 500-bit numbers is not tested by examples", "anchors": ["ecc/curves.py:GOSTmsg05975te", "ecc/curves.py:Ed25519", "ecc/curves.py:E382", "ecc/curves.py:Curve3617", "ecc/curves.py:E521", "ecc/curves.py:Curve25519", "ecc/curves.py:M383", "ecc/curves.py:M511", "ecc/ellipticcurve.py:EllipticCurveFp.__init__"]}
{"id": "C91", "title": "Elements of different fields", "statement": "An operation on elements of two different fields GF(p) and GF(q) is rejected, or at least == between them is compatible with the operations and sums do not depend on the order of the operands. (Suspected false: the operators only look at int(other).)", "quantifier": "for every pair of moduli and every pair of elements", "why_tests_cant": "the tests use one field; the claim is about all pairs of fields", "anchors": ["fmath/galoisfield.py:Element_of_GFp.__add__", "fmath/galoisfield.py:Element_of_GFp.__sub__", "fmath/galoisfield.py:Element_of_GFp.__mul__", "fmath/galoisfield.py:Element_of_GFp.__div__", "fmath/galoisfield.py:Element_of_GFp.__cmp__"]}
{"id": "C92", "title": "Order operators", "statement": "For field elements and for points exactly one of a < b, a == b, a > b holds. (Suspected false: __cmp__ returns 0 or 1, never -1.)", "quantifier": "for every pair of elements and every pair of points", "why_tests_cant": "an order is a statement about all pairs", "anchors": ["fmath/galoisfield.py:Element_of_GFp.__cmp__", "ecc/ellipticcurve.py:Point.__cmp__"]}
{"id": "C93", "title": "Points of two curve objects", "statement": "Within one curve object the operators + - * and == on points are the methods of the curve and equality of coordinates; points of two objects of the same curve class can be added and compared like points of one object. (Suspected false: curve objects are compared by identity.)", "quantifier": "for every assignment of curves to objects, every pair of points and every recursion depth", "why_tests_cant": "all curves, points and objects", "anchors": ["ecc/ellipticcurve.py:Point.__add__", "ecc/ellipticcurve.py:Point.__sub__", "ecc/ellipticcurve.py:Point.__cmp__", "ecc/ecc.py:SmallWeierstrassCurveFp.add_points"]}
{"id": "C94", "title": "Equivalent Poly1305 keys", "statement": "Two Poly1305 keys of 32 octets that give the same tag for every message are equal. (Suspected false because of the clamp: exactly the keys with equal second halves and equal clamped first halves are equivalent.)", "quantifier": "for every pair of 32-octet keys and every message", "why_tests_cant": "the claim compares two functions on all messages", "anchors": ["cipher/chacha_poly.py:poly1305_mac", "cipher/chacha_poly.py:clamp"]}
{"id": "C95", "title": "Equivalent HMAC keys", "statement": "Two HMAC keys no longer than a block that make the same object, or two pass phrases with the same PSK for every SSID, are equal. (Suspected false because of the zero padding: exactly the keys that differ in trailing zero octets are equivalent.)", "quantifier": "for every hash class, every pair of keys up to the block size and every history of calls", "why_tests_cant": "all keys, all hash functions and all histories", "anchors": ["hash/hmac.py:HMAC.setKey", "hash/pbkdf2.py:pbkdf2", "hash/pbkdf2.py:dot11PassPhraseToPSK"]}
{"id": "C96", "title": "ChaCha20 states and reuse of the key stream", "statement": "The initial state determines key, counter and nonce; two messages encrypted from the same state reveal their exclusive or; a cipher text changed in some places decrypts, through the AEAD, to the plain text changed in the same places.", "quantifier": "for every key, nonce, counter, state, message and change", "why_tests_cant": "all messages and all states", "anchors": ["cipher/chacha_poly.py:ChaCha.initialize", "cipher/chacha_poly.py:ChaCha.encrypt", "cipher/chacha_poly.py:ChaCha20_AEAD.decrypt"]}
{"id": "C97", "title": "Encoded strings sort like the numbers", "statement": "Strings made by int_to_string with one positive pad length compare as the numbers do; without padding, and for base_N_encode with an increasing alphabet, shorter strings come first and equal lengths compare as strings. (Suspected false for plain string comparison and for the alphabets of b27 and b85.)", "quantifier": "for every pair of integers or octet strings, every pad length and every alphabet", "why_tests_cant": "all pairs of numbers and all alphabets", "anchors": ["cipher/encoding.py:int_to_string", "cipher/encoding.py:base_N_encode", "cipher/encoding.py:b27encode", "cipher/encoding.py:b85encode", "cipher/encoding.py:b94encode"]}
{"id": "C98", "title": "The Montgomery ladder as a key agreement function", "statement": "The public key determines the private key below the order of the base point, and the shared secret depends on the private key. (Suspected false: k and n - k share a public key, exactly they do; an input of small order gives 0 for every private key its order divides, on Curve25519 the five abscissas 0, 1, p - 1 and the two of order 8.)", "quantifier": "for every curve over a prime field, every abscissa, every scalar, and Curve25519", "why_tests_cant": "all scalars and all abscissas", "anchors": ["ecc/ecc.py:MontgomeryCurveFp.montgomery_ladder", "ecc/curves.py:Curve25519"]}
{"id": "C99", "title": "Laws of the Jacobi symbol and of orders", "statement": "jacobi is multiplicative in both arguments, periodic in the first, zero exactly for arguments with a common factor, and obeys quadratic reciprocity with its two supplements; the value of order_mod divides that of carmichael, which divides that of phi.", "quantifier": "for every integer a and every odd n, m >= 3; for every modulus whose large prime factors is_prime recognises and every reduced unit x", "why_tests_cant": "all arguments; the laws relate several calls", "anchors": ["ecc/numbertheory.py:jacobi", "ecc/numbertheory.py:order_mod", "ecc/numbertheory.py:carmichael", "ecc/numbertheory.py:carmichael_of_factorized", "ecc/numbertheory.py:carmichael_of_ppower", "ecc/numbertheory.py:phi"]}
{"id": "C100", "title": "Invariants of nonLinearity", "statement": "nonLinearity is zero exactly for affine functions and does not change when an affine function is added or the argument is shifted; the first Walsh coefficient counts the ones of the table; every component of a bijective S-box is balanced.", "quantifier": "for every number of variables, every truth table, every affine function and every bijective S-box", "why_tests_cant": "all truth tables of all sizes", "anchors": ["analysis/sbox_nonlinearity.py:walshTransform", "analysis/walshtransform.py:walshTransform", "analysis/sbox_nonlinearity.py:nonLinearity", "analysis/walshtransform.py:nonLinearity"]}
{"id": "C101", "title": "String forms of points and elements", "statement": "str() of a Weierstrass point or a field element is IDENTITY or the decimal form of its coordinates, and two points (elements) have the same string exactly when they have the same coordinates (residue); on Montgomery curves likewise when the identity exists. False for elements of different fields, which share strings, and for twisted Edwards points, whose str always raises AssertionError.", "quantifier": "for all points, elements and integers", "why_tests_cant": "all coordinates; the tests only print", "anchors": ["ecc/ellipticcurve.py:Point.__str__", "fmath/galoisfield.py:Element_of_GFp.__str__"]}
{"id": "C102", "title": "Fixed-size PRFs of 802.11", "statement": "PRF_128, PRF_192, PRF_256, PRF_384 and PRF_512 return the first 16, 24, 32, 48 and 64 octets of the 96 octets that PRF_768 returns.", "quantifier": "for every key, prefix and data and every 20-octet HMAC", "why_tests_cant": "all keys and messages", "anchors": ["hash/prf_dot11.py:PRF_128", "hash/prf_dot11.py:PRF_192", "hash/prf_dot11.py:PRF_256", "hash/prf_dot11.py:PRF_384", "hash/prf_dot11.py:PRF_512", "hash/prf_dot11.py:PRF_768"]}
{"id": "C103", "title": "Orbits determine the order of an S-box", "statement": "The k-th iterate of a permutation is the identity exactly when every orbit length reported by orbit_start_and_length divides k, and complementary iterates undo each other; the AES S-box has order 277182, that of SMS4 2520, the Streebog table 185640 and the GOST table 3159.", "quantifier": "for every permutation table of every size and every k", "why_tests_cant": "all permutations and all numbers of iterations", "anchors": ["analysis/sbox_analysis.py:orbit_start_and_length", "analysis/sbox_analysis.py:map_orbits_of_permutation"]}
{"id": "C104", "title": "Stub methods", "statement": "Point.to_octetstring and from_octetstring, the update, digest and final methods of Michael and the methods of class permutation can be called. False: each raises TypeError or NameError whatever the arguments.", "quantifier": "for all arguments", "why_tests_cant": "the tests do not call them", "anchors": ["ecc/ellipticcurve.py:Point.to_octetstring", "ecc/ellipticcurve.py:Point.from_octetstring", "hash/michael.py:Michael.update", "hash/michael.py:Michael.digest", "hash/michael.py:Michael.final", "analysis/permutation.py:permutation"]}
{"id": "C105", "title": "Prefixes of Michael messages", "statement": "Michael with a key on a message whose prefix is a multiple of four octets is Michael with another key, found from one message, on the rest; if two prefixes give one message the same tag they do so for all; a change within one aligned word of four octets always changes the tag. A prefix always changes some tag is false: every prefix repeated often enough leaves the tags of all messages as they are.", "quantifier": "for all keys, prefixes of 4k octets and messages", "why_tests_cant": "all messages of all lengths under all keys", "anchors": ["hash/michael.py:Michael.hash", "hash/michael.py:b"]}
{"id": "C106", "title": "Seeds of the TKIP key mixer", "statement": "Every seed that newKey returns is 16 octets; octets 0 and 2 are octets 0 and 1 of the packet number, and octet 1 repeats octet 0 of the packet number with bit 5 set and bit 7 clear, so it lies between 32 and 127 and is never 255 as in the weak initialisation vectors of WEP.", "quantifier": "for every state of the mixer, every S-box and every packet number", "why_tests_cant": "all states and packet numbers", "anchors": ["hash/tkip_key_mixing.py:TKIP_Mixer.newKey", "hash/tkip_key_mixing.py:phase2KeyMixing"]}
