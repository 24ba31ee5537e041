(** Boundary cases of C01, C05, C19, C20, C26, C29, C31, C34, C43, C48, C64, C87 and C88: which error is raised, and the values at the ends of the ranges. *)
From Coq Require Import ZArith List Bool Lia.
From Verif Require Import Model.Py Model.Encoding Model.ChaCha Model.CmacSiv Model.Hmac Model.Michael Model.Ecc Model.NumberTheory
  Spec.EncodingSpec Spec.CmacSivSpec Spec.AesSpec Proofs.AesProofs Proofs.CmacSivProofs Proofs.SivProofs Proofs.EdgeFacts.
Import ListNotations.
Local Open Scope Z_scope.

(** C01: ecc.py's variant at and below zero *)
Theorem C01_ecc_edges : forall padto, ecc_int_to_string 0 padto = Ok [0] /\ forall n, n < 0 -> ecc_int_to_string n padto = Raise AssertionError.
Proof. exact c01_ecc_edges. Qed.
Print Assumptions C01_ecc_edges.

(** C05: the base-94 alphabet is the printable ASCII range without the space *)
Theorem C05_printable : forall c, In c ascii_printable <-> 33 <= c <= 126.
Proof. exact c05_printable. Qed.
Print Assumptions C05_printable.

(** C19: the errors of the two unusable functions *)
Theorem C19_errors : forall key constant aad iv pt, chacha_poly_aead_encrypt key constant aad iv pt = Raise TypeError /\ chacha_poly_aead_decrypt key constant aad iv = Raise NameError.
Proof. exact c19_errors. Qed.
Print Assumptions C19_errors.

(** C20: a key the cipher class rejects is rejected, whatever the message *)
Theorem C20_bad_key : forall A C key M, valid_key C key = false -> subkey key C = Raise ValueError /\ aes_cmac A key M C = Raise ValueError.
Proof. exact c20_bad_key. Qed.
Print Assumptions C20_bad_key.

Example C20_bad_key_example : valid_key AES [1; 2; 3] = false /\ aes_cmac AES [1; 2; 3] [] AES = Raise ValueError.
Proof. split; vm_compute; reflexivity. Qed.

(** C26: encryption rejects a bad first half of the key, decryption a bad second half, and S2V of no strings is CMAC(<one>) (RFC 5297 2.4) *)
Theorem C26_bad_key : forall A ka kb pt ads, len ka = len kb -> 1 <= len ka ->
  (valid_key A ka = false -> siv_encrypt A (ka ++ kb) pt ads = Raise ValueError) /\ (valid_key A kb = false -> siv_decrypt A (ka ++ kb) pt ads = Raise ValueError).
Proof. exact c26_bad_key. Qed.
Print Assumptions C26_bad_key.

Example C26_bad_key_example : len [1; 2] = len [3; 4] /\ 1 <= len [1; 2] /\ valid_key AES [1; 2] = false /\ siv_encrypt AES [1; 2; 3; 4] [5] [] = Raise ValueError.
Proof. repeat split; vm_compute; congruence. Qed.

Theorem C26_empty : forall A key, block_cipher A -> valid_key A key = true -> forall v, s2v A key [] = Ok v -> v = rfc_cmac (encrypt_block A key) (repeat 0 15 ++ [1]).
Proof. exact c26_empty. Qed.
Print Assumptions C26_empty.

Example C26_empty_example : valid_key AES (repeat 7 16) = true /\ exists v, s2v AES (repeat 7 16) [] = Ok v /\ v <> rfc_cmac (encrypt_block AES (repeat 7 16)) (repeat 0 16).
Proof. split; [reflexivity|]. eexists. split; [vm_compute; reflexivity|]. vm_compute. discriminate. Qed.

(** C29: a hash with an empty digest, and the four octets of the block index *)
Theorem C29_zero_digest : forall T (C : hash T) py27 password salt c k, digest_size C = 0 -> len password <= 63 -> k <= 10000 -> pbkdf2 py27 C password salt c k = Raise ZeroDivisionError.
Proof. exact c29_zero_digest. Qed.
Print Assumptions C29_zero_digest.

Theorem C29_index : forall n, (- 2 ^ 31 <= n < 2 ^ 31 -> exists s, pack_be_i n = Ok s /\ octets s /\ length s = 4%nat /\ be_value 256 s = n mod 2 ^ 32) /\
  (~ - 2 ^ 31 <= n < 2 ^ 31 -> pack_be_i n = Raise ValueError).
Proof. exact c29_index. Qed.
Print Assumptions C29_index.

Example C29_index_example : pack_be_i (- 2) = Ok [255; 255; 255; 254] /\ pack_be_i (2 ^ 31) = Raise ValueError.
Proof. split; reflexivity. Qed.

(** C64: equality of points is equality of the stored coordinates *)
Theorem C64_equality : forall P Q, point_eqb P Q = true <-> P = Q.
Proof. exact c64_equality. Qed.
Print Assumptions C64_equality.

(** C31: an object without key *)
Theorem C31_no_key : forall data, michael_hash None data = Raise AttributeError.
Proof. exact c31_no_key. Qed.
Print Assumptions C31_no_key.

(** C87, C88: multiples by zero and the negative of an Edwards point *)
Theorem C87_zero : forall fuel p a depth identity P, mg_scalar_multiple fuel p a depth identity P 0 = Ok identity.
Proof. exact c87_zero. Qed.
Print Assumptions C87_zero.

Theorem C88_zero : forall identity P, te_scalar_multiple identity P 0 = Ok identity.
Proof. exact c88_zero. Qed.
Print Assumptions C88_zero.

Theorem C88_negate : forall p a d x y, 0 < p ->
  (te_point p a d x y = Ok (x, y) -> te_negate p a d (x, y) = Ok (- x, y)) /\ (te_point p a d x y = Raise AssertionError -> te_negate p a d (x, y) = Raise AssertionError) /\
  (te_point p a d x y = Ok (x, y) \/ te_point p a d x y = Raise AssertionError).
Proof. exact c88_negate. Qed.
Print Assumptions C88_negate.

Example C88_negate_example : te_point 13 1 2 1 0 = Ok (1, 0) /\ te_negate 13 1 2 (1, 0) = Ok (-1, 0) /\ te_negate 13 1 2 (4, 4) = Raise AssertionError.
Proof. repeat split. Qed.

(** C34: what the setters accept, and that newKey fails only for want of a key, an address or six octets *)
Theorem C34_setters : forall Sbox m s,
  (len s = 16 -> snd (mixer_setKey Sbox m s) = Ok [] /\ m_tk (fst (mixer_setKey Sbox m s)) = Some s) /\
  (len s <> 16 -> mixer_setKey Sbox m s = (m, Raise TypeError)) /\
  (len s = 6 -> snd (mixer_setTA Sbox m s) = Ok [] /\ m_ta (fst (mixer_setTA Sbox m s)) = Some s /\
     snd (mixer_setPnBytes m s) = Ok [] /\ m_pn (fst (mixer_setPnBytes m s)) = s) /\
  (len s <> 6 -> mixer_setTA Sbox m s = (m, Raise TypeError) /\ mixer_setPnBytes m s = (m, Raise AssertionError)).
Proof. exact c34_setters. Qed.
Print Assumptions C34_setters.

Theorem C34_newKey : forall Sbox tk ta pn0 m ops pn, mixer_new Sbox tk ta pn0 = Ok m ->
  let s := mixer_run Sbox m ops in
  (m_tk s <> None /\ m_ta s <> None /\ len pn = 6 -> exists k, snd (mixer_newKey Sbox s pn) = Ok k) /\
  (~ (m_tk s <> None /\ m_ta s <> None /\ len pn = 6) -> snd (mixer_newKey Sbox s pn) = Raise AssertionError).
Proof. exact c34_newKey. Qed.
Print Assumptions C34_newKey.

(** a mixer without an address, then with one *)
Example C34_newKey_example : forall Sbox, exists m, mixer_new Sbox (Some (repeat 1 16)) None (repeat 0 6) = Ok m /\
  snd (mixer_newKey Sbox m (repeat 3 6)) = Raise AssertionError /\
  m_ta (mixer_run Sbox m [MSetPnBytes (repeat 5 6); MSetTA (repeat 2 6)]) = Some (repeat 2 6).
Proof. intros Sbox. eexists. split; [reflexivity|]. split; reflexivity. Qed.

(** C48: moduli that are not positive *)
Theorem C48_not_positive : forall fuel a p, p <= 0 ->
  legendre_symbol a p = Raise TypeError /\ modular_sqrt fuel a p = Raise TypeError.
Proof. exact c48_not_positive. Qed.
Print Assumptions C48_not_positive.

Example C48_not_positive_example : legendre_symbol 3 (-7) = Raise TypeError /\ legendre_symbol 3 7 = Ok (-1).
Proof. vm_compute. auto. Qed.

(** C43: the checks of the reduction *)
Theorem C43_checks : forall poly p, polynomial_reduce_mod poly [] p = Raise IndexError /\
  (forall f, f <> [] -> last f 0 <> 1 \/ len f = 1 -> polynomial_reduce_mod poly f p = Raise AssertionError) /\
  (forall f, 1 < len f -> last f 0 = 1 -> p <> 0 -> exists r, polynomial_reduce_mod poly f p = Ok r).
Proof. exact c43_checks. Qed.
Print Assumptions C43_checks.

Example C43_checks_example : polynomial_reduce_mod [1; 2; 3] [5; 1] 7 = Ok [3] /\
  polynomial_reduce_mod [1; 2; 3] [5; 2] 7 = Raise AssertionError.
Proof. vm_compute. auto. Qed.
