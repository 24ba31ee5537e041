[
 [
  "C01",
  "C05",
  "`Model/Encoding.v` (cipher/encoding.py, cipher/common.py, codecs of ecc/ecc.py); independent positional-value specification in `Spec/EncodingSpec.v`",
  "induction on the number of digits; uniqueness of positional representations (`Proofs/EncodingProofs.v`)."
 ],
 [
  "C06",
  "C12",
  "`Model/ChaCha.v` against `Spec/ChaChaSpec.v`, the RFC 7539 matrices over words modulo 2^32",
  "bit-level lemmas for 32-bit words (`Proofs/Bits.v`), inverse rounds exhibited (`Proofs/ChaChaInv.v`), histories by induction on the list of calls (`Proofs/ChaChaHist.v`)."
 ],
 [
  "C14",
  "C14",
  "poly1305_mac of `Model/ChaCha.v`",
  "2^130-5 is prime by a Pocklington certificate (`Proofs/Pocklington.v`, `Proofs/PrimeCert.v`); a polynomial of degree d has at most d roots modulo a prime (`Proofs/Universal.v`)."
 ],
 [
  "C13",
  "C19",
  "`Model/ChaCha.v` (poly1305_mac, ChaCha20_AEAD, ChaCha_Poly_AEAD) against `Spec/ChaChaSpec.v`",
  "Horner evaluation equals the sum of powers (`Proofs/PolyProofs.v`); AEAD by unfolding; refutations by evaluation of a witness."
 ],
 [
  "C20",
  "C26",
  "`Model/CmacSiv.v` over an arbitrary 16-octet block cipher, `Spec/CmacSivSpec.v` (RFC 4493, RFC 5297), `Spec/AesSpec.v` (FIPS 197, for the witnesses)",
  "`Proofs/CmacSivProofs.v`, `Proofs/SivProofs.v`: doubling as multiplication by x, induction over blocks and over the list of strings."
 ],
 [
  "C27",
  "C30",
  "`Model/Hmac.v` over an arbitrary incremental hash (or PRF), `Spec/HmacSpec.v` (RFC 2104, RFC 2898, IEEE 802.11i)",
  "invariant on the object state, induction on the list of calls (`Proofs/HmacProofs.v`)."
 ],
 [
  "C31",
  "C33",
  "`Model/Michael.v`, `Spec/MichaelSpec.v` (IEEE 802.11i)",
  "explicit inverse of the block function; framing by positional arguments (`Proofs/MichaelProofs.v`)."
 ],
 [
  "C34",
  "C37",
  "TKIP_Mixer of `Model/Michael.v` over an arbitrary S-box table, `Spec/MichaelSpec.v`",
  "state-machine invariant over every history of calls; injectivity by running both phases backwards (`Proofs/TkipProofs.v`)."
 ],
 [
  "C38",
  "C39",
  "`Model/GaloisField.v`",
  "arithmetic modulo p; Bezout invariant of egcd (`Proofs/GfProofs.v`)."
 ],
 [
  "C40",
  "C43",
  "`Model/NumberTheory.v`, `Spec/NumberSpec.v`",
  "loop invariants with explicit fuel bounds (`Proofs/NTBasic.v`), polynomial identities over Z (`Proofs/NTPoly.v`, `Proofs/NTRange.v`)."
 ],
 [
  "C44",
  "C44",
  "jacobi of `Model/NumberTheory.v`",
  "quadratic reciprocity and both supplements are proved from Gauss sums over a finite field extension (mathcomp; `Proofs/Legendre.v`, `Proofs/QuadRec.v`, `Proofs/UnitRoots.v`); the loop by strong induction (`Proofs/Jacobi.v`)."
 ],
 [
  "C45",
  "C48",
  "square_root_mod_prime, modular_sqrt, legendre_symbol of `Model/NumberTheory.v`",
  "Euler's criterion; Cipolla's algorithm in GF(p^2) (`Proofs/Cipolla.v`); Tonelli-Shanks invariant (`Proofs/Sqrt.v`)."
 ],
 [
  "C49",
  "C51",
  "is_prime of `Model/NumberTheory.v`, rabin_miller and fermat_little_test of fmath/prime.py",
  "`Proofs/Primality.v`; the Monier-Rabin bound by counting in the unit group (`Proofs/RabinMiller.v`); the accepted composite is treated by Legendre symbols (`Proofs/Pseudoprime.v`) so that no large computation is needed."
 ],
 [
  "C52",
  "C57",
  "factorization, phi, carmichael*, order_mod, largest_factor_relatively_prime, kinda_order_mod, next_prime of `Model/NumberTheory.v`",
  "`Proofs/Factor.v`, `Proofs/Carmichael.v`, `Proofs/OrderFacts.v`."
 ],
 [
  "C58",
  "C58",
  "smallprimes (`Model/NumberTheory.v`) and `Model/PrimeTable.v`",
  "evaluation of a verified sieve."
 ],
 [
  "C59",
  "C67",
  "`Model/Ecc.v`, `Spec/CurveSpec.v` (textbook group law as relations), `Spec/CurveView.v`",
  "the group law of a Weierstrass curve over an arbitrary field is proved with polynomial identities (`Proofs/ECGroup.v`), transferred to integers modulo p (`Proofs/Fp.v`, `Proofs/Curve.v`) and to the program (`Proofs/CurveProg.v`, `Proofs/ScalarMul.v`)."
 ],
 [
  "C68",
  "C70",
  "te_* and mg_* of `Model/Ecc.v`, `Spec/MontgomerySpec.v`",
  "refutations for every modulus; the ladder by the x-only formulas of the group (`Proofs/Montgomery.v`, `Proofs/Ladder.v`)."
 ],
 [
  "C71",
  "C72",
  "`Model/Curves.v`, the constants of ecc/curves.py",
  "primality by Pocklington and elliptic curve certificates (`Proofs/PrimeChain.v`), orders by scalar multiplication in projective coordinates with Montgomery arithmetic on 30-bit limbs (`Proofs/Limbs.v`, `ModRep.v`, `Jacobian.v`, `EcCheck.v`), the certificates in `Proofs/CurveOrder*.v`; identifiers by evaluation."
 ],
 [
  "C73",
  "C76",
  "`Model/Analysis.v`, `Spec/AnalysisSpec.v`",
  "the in-place butterfly loops equal the matrix definition by induction on the stage (`Proofs/Walsh.v`, `Proofs/WalshProg.v`); orbits by iterating the permutation (`Proofs/Orbits.v`)."
 ],
 [
  "C77",
  "C77",
  "scalar_multiple of `Model/Ecc.v`",
  "from C61 and associativity in the curve group (`Proofs/ScalarMul.v`, `Proofs/CurveFacts.v`)."
 ],
 [
  "C78",
  "C78",
  "`Model/Encoding.v`, `Model/CmacSiv.v`",
  "pointwise facts about Z.lxor."
 ],
 [
  "C79",
  "C79",
  "`Model/Pi.v`, the text of fmath/pi.py verbatim",
  "Machin's formula of the standard library and alternating series bounds; both arctangents and the decimal fraction are evaluated by long division on 62-bit limbs with proved error bounds (`Proofs/PiLimbs.v`, `PiAtan.v`, `PiDigits.v`, `PiValue.v`)."
 ],
 [
  "C80",
  "C80",
  "`Model/Analysis.v`, `Model/SboxTables.v`, `Spec/AnalysisSpec.v`",
  "from C74; the values of the tabulated S-boxes by a verified fast Walsh transform (`Proofs/SboxProg.v`)."
 ],
 [
  "C81",
  "C81",
  "new_private_key of `Model/Ecc.v`, the constants of ecc/curves.py",
  "positional notation (C02) and evaluation over the table (`Proofs/TableFacts.v`)."
 ],
 [
  "C82",
  "C82",
  "`Model/Curves.v`, `Spec/SeedSpec.v` (X9.62 expansion over the SHA-1 of `Spec/HmacSpec.v`)",
  "evaluation of SHA-1 inside Coq."
 ],
 [
  "C83",
  "C83",
  "`Model/Curves.v`, `Spec/SeedSpec.v` (curve_isomorphism)",
  "the scaling map is an isomorphism for any z (`Proofs/Isomorphism.v`); the constants by Montgomery arithmetic (`Proofs/Degree.v`)."
 ],
 [
  "C84",
  "C84",
  "`Model/BrainpoolSeeds.v` (the text of pi1k verbatim), `Model/Curves.v`, `Spec/BrainpoolSpec.v`",
  "the decimals of pi by C79, converted to binary in words of nine decimals (`Proofs/BrainpoolPi.v`); e by the alternating series of exp(-1) (`Proofs/ExpValue.v`); every number between the hash and p that is 3 modulo 4 is composite by a factor or by Fermat's theorem (`Proofs/Composite.v`, `Proofs/BrainpoolCerts.v`)."
 ],
 [
  "C85",
  "C85",
  "`Model/Curves.v`",
  "the product of p^i - 1 is a unit modulo the order, by one inverse per curve (`Proofs/Degree.v`, `Proofs/DegreeCerts.v`)."
 ],
 [
  "C86",
  "C86",
  "`Model/Curves.v`",
  "evaluation over allCurves."
 ],
 [
  "C87",
  "C87",
  "mg_* of `Model/Ecc.v`, `Spec/MontgomerySpec.v`",
  "the isomorphic Weierstrass curve over the field of integers modulo p (`Proofs/MontAdd.v`), induction on the recursion depth."
 ],
 [
  "C88",
  "C88",
  "te_* of `Model/Ecc.v`, `Spec/EdwardsSpec.v`",
  "polynomial identities in the field of integers modulo p (`Proofs/EdwardsFacts.v`)."
 ],
 [
  "C89",
  "C89",
  "all models, vectors in `Spec/VectorSpec.v`",
  "evaluation by the kernel (`Proofs/VectorFacts.v`); independence of the recursion depth from `inverse_mod_spec`."
 ],
 [
  "C90",
  "C90",
  "classes of `Model/Curves.v`, constructor and generator in `Model/EdCurves.v`, `Spec/EdwardsSpec.v`, `Spec/MontgomerySpec.v`",
  "Edwards points are mapped to the Weierstrass group by a proved homomorphism (`Proofs/EdMap.v`, `EdOrder.v`), the order there is checked as for C62 with primality certificates (`Proofs/EdCerts.v`, made by `tools/gen_ed_orders.py`), non-squares by the criterion of Euler (`Proofs/EdCurveFacts.v`)."
 ],
 [
  "C91",
  "C93",
  "`Model/Compare.v` over `Model/GaloisField.v` and `Model/Ecc.v`: elements with their modulus, points with the identity of their curve object",
  "unfolding and modular arithmetic (`Proofs/CompareFacts.v`)."
 ],
 [
  "C94",
  "C96",
  "`Model/ChaCha.v`, `Model/Hmac.v`, `Spec/ChaChaSpec.v`",
  "linear arithmetic modulo 2^130 - 5 on the tags of three messages (C94), injectivity of the pads (C95) and of the little-endian words (C96) (`Proofs/KeyFacts.v`)."
 ],
 [
  "C97",
  "C97",
  "`Model/Encoding.v`, orders in `Spec/SortSpec.v`",
  "positional values compare like digit strings of one length (`Proofs/SortFacts.v`)."
 ],
 [
  "C98",
  "C98",
  "`Model/Ecc.v`, `Spec/MontgomerySpec.v`",
  "the ladder is multiplication of points (C70), transferred to the Weierstrass group of `Proofs/Ladder.v`; square roots in a field (`Proofs/Contributory.v`), explicit doublings of the points of small order (`Proofs/ContribCurve.v`)."
 ],
 [
  "C99",
  "C99",
  "`Model/NumberTheory.v`, `Spec/NumberSpec.v`",
  "products of Legendre symbols (C44) and the theorems of C53-C55 (`Proofs/NumberLaws.v`)."
 ],
 [
  "C100",
  "C100",
  "`Model/Analysis.v`, `Spec/AnalysisSpec.v`",
  "distances to affine functions (C74), re-indexing of sums by bijections, orthogonality of the characters (`Proofs/BooleanFacts.v`)."
 ],
 [
  "C101",
  "C102",
  "`Model/Strings.v`, numerals in `Spec/StringSpec.v`",
  "induction on the digits; a string of decimal digits determines its value (`Proofs/StringFacts.v`); prefixes of PRF (C30)."
 ],
 [
  "C103",
  "C103",
  "`Model/Analysis.v`, `Spec/AnalysisSpec.v`",
  "orbits are cycles (C75), periods divide (`Proofs/OrbitOrder.v`); the two tables by computation."
 ],
 [
  "C104",
  "C104",
  "`Model/Strings.v`",
  "by definition of the model: each method raises before doing anything (`Proofs/StringFacts.v`)."
 ],
 [
  "C105",
  "C105",
  "`Model/Michael.v`, `Spec/MichaelSpec.v`",
  "the words of the prefix are absorbed first, and absorbing is a permutation of a finite set of states (`Proofs/MichaelChain.v`)."
 ],
 [
  "C106",
  "C106",
  "`Model/Michael.v`",
  "bit operations on octets (`Proofs/SeedFacts.v`)."
 ]
]