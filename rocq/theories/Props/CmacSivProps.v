(** CMAC and SIV (C20-C26).  The AES class is an argument of the model
    ([A], or [AES] when it is FIPS 197). *)
From Coq Require Import ZArith List Bool Lia.
From Verif Require Import Model.Py Model.Encoding Model.CmacSiv
  Spec.EncodingSpec Spec.CmacSivSpec Spec.AesSpec Proofs.CmacSivProofs Proofs.SivProofs
  Proofs.AesProofs Proofs.CmacSivFacts.
Import ListNotations.
Local Open Scope Z_scope.

(** C20 *)
Theorem C20_cmac : forall A key M t, block_cipher A -> octets M ->
  aes_cmac A key M A = Ok t -> t = rfc_cmac (encrypt_block A key) M.
Proof. exact c20_cmac. Qed.
Print Assumptions C20_cmac.


(** RFC 4493 section 4, examples 1 and 2; the AES class meets [block_cipher] *)
Example C20_vector1 : aes_cmac AES
  [0x2b;0x7e;0x15;0x16;0x28;0xae;0xd2;0xa6;0xab;0xf7;0x15;0x88;0x09;0xcf;0x4f;0x3c] [] AES =
  Ok [0xbb;0x1d;0x69;0x29;0xe9;0x59;0x37;0x28;0x7f;0xa3;0x7d;0x12;0x9b;0x75;0x67;0x46].
Proof. vm_compute. reflexivity. Qed.
Example C20_vector2 : aes_cmac AES
  [0x2b;0x7e;0x15;0x16;0x28;0xae;0xd2;0xa6;0xab;0xf7;0x15;0x88;0x09;0xcf;0x4f;0x3c]
  [0x6b;0xc1;0xbe;0xe2;0x2e;0x40;0x9f;0x96;0xe9;0x3d;0x7e;0x11;0x73;0x93;0x17;0x2a] AES =
  Ok [0x07;0x0a;0x16;0xb4;0x6b;0x4d;0x41;0x44;0xf7;0x9b;0xdd;0x9d;0xd0;0x4a;0x28;0x7c].
Proof. vm_compute. reflexivity. Qed.
Example C20_example : block_cipher AES.
Proof. exact aes_block_cipher. Qed.

(** C21 *)
Theorem C21_exact : forall A key M, block_cipher A -> valid_key A key = true -> octets M ->
  let E := encrypt_block A key in
  let k := if (0 <? len M) && (len M mod 16 =? 0) then K1 E else K2 E in
  aes_cmac A key M A = if nth 0 k 0 =? 0 then Raise AssertionError else Ok (rfc_cmac E M).
Proof. exact c21_exact. Qed.
Print Assumptions C21_exact.

Theorem C21_refuted : exists key M, valid_key AES key = true /\ octets M /\
  aes_cmac AES key M AES = Raise AssertionError.
Proof. exact c21_refuted. Qed.
Print Assumptions C21_refuted.

Theorem C21_weak_key : forall M, octets M -> aes_cmac AES weak_key M AES = Raise AssertionError.
Proof. exact c21_weak_key. Qed.
Print Assumptions C21_weak_key.


(** C22 *)
Theorem C22_refuted : exists C key M t, block_cipher C /\ valid_key C key = true /\ octets M /\
  aes_cmac AES key M C = Ok t /\ t <> rfc_cmac (encrypt_block C key) M.
Proof. exact c22_refuted. Qed.
Print Assumptions C22_refuted.


(** C23 *)
Theorem C23_mult : forall s, octets s -> len s = 16 ->
  exists r, dbl s = Ok r /\ octets r /\ len r = 16 /\ pmod128 (pmul 2 (be_value 256 s)) (be_value 256 r).
Proof. exact c23_mult. Qed.
Print Assumptions C23_mult.

Theorem C23_linear : forall a b ra rb, octets a -> len a = 16 -> octets b -> len b = 16 ->
  dbl a = Ok ra -> dbl b = Ok rb -> dbl (xor_octets a b) = Ok (xor_octets ra rb).
Proof. exact c23_linear. Qed.
Print Assumptions C23_linear.

Theorem C23_injective : forall a b, octets a -> len a = 16 -> octets b -> len b = 16 ->
  dbl a = dbl b -> a = b.
Proof. exact c23_injective. Qed.
Print Assumptions C23_injective.

Theorem C23_subkeys : forall C key, block_cipher C -> valid_key C key = true ->
  exists k1 k2, subkey key C = Ok (k1, k2) /\
  pmod128 (pmul 2 (be_value 256 (encrypt_block C key zero16))) (be_value 256 k1) /\
  pmod128 (pmul 2 (be_value 256 k1)) (be_value 256 k2).
Proof. exact c23_subkeys. Qed.
Print Assumptions C23_subkeys.


Example C23_example : dbl ([128] ++ repeat 0 14 ++ [3]) = Ok (repeat 0 15 ++ [129]).
Proof. reflexivity. Qed.
Example C23_linear_example : dbl (repeat 200 16) = Ok (repeat 145 15 ++ [23]).
Proof. reflexivity. Qed.

(** C24 *)
Theorem C24_round_trip : forall A key pt ads c, block_cipher A -> octets pt -> Forall octets ads ->
  siv_encrypt A key pt ads = Ok c -> siv_decrypt A key c ads = Ok pt.
Proof. exact c24_round_trip. Qed.
Print Assumptions C24_round_trip.


(** RFC 5297 A.1 *)
Definition a1_key : list Z := [0xff;0xfe;0xfd;0xfc;0xfb;0xfa;0xf9;0xf8;0xf7;0xf6;0xf5;0xf4;0xf3;0xf2;0xf1;0xf0]
  ++ [0xf0;0xf1;0xf2;0xf3;0xf4;0xf5;0xf6;0xf7;0xf8;0xf9;0xfa;0xfb;0xfc;0xfd;0xfe;0xff].
Definition a1_ad : list Z := map Z.of_nat (seq 16 24).
Definition a1_pt : list Z := [0x11;0x22;0x33;0x44;0x55;0x66;0x77;0x88;0x99;0xaa;0xbb;0xcc;0xdd;0xee].
Definition a1_out : list Z := [0x85;0x63;0x2d;0x07;0xc6;0xe8;0xf3;0x7f;0x95;0x0a;0xcd;0x32;0x0a;0x2e;0xcc;0x93;
  0x40;0xc0;0x2b;0x96;0x90;0xc4;0xdc;0x04;0xda;0xef;0x7f;0x6a;0xfe;0x5c].
Example C24_vector : siv_encrypt AES a1_key a1_pt [a1_ad] = Ok a1_out.
Proof. vm_compute. reflexivity. Qed.

(** C25 *)
Theorem C25_genuine : forall A key c ads pt, block_cipher A -> octets c -> Forall octets ads ->
  siv_decrypt A key c ads = Ok pt -> siv_encrypt A key pt ads = Ok c.
Proof. exact c25_genuine. Qed.
Print Assumptions C25_genuine.

Theorem C25_short : forall A key c ads, block_cipher A -> octets c -> Forall octets ads ->
  len c < 16 -> exists e, siv_decrypt A key c ads = Raise e.
Proof. exact c25_short. Qed.
Print Assumptions C25_short.

Theorem C25_change : forall A key c c' ads pt, block_cipher A -> octets c -> octets c' -> Forall octets ads ->
  siv_decrypt A key c ads = Ok pt -> c' <> c -> siv_decrypt A key c' ads <> Ok pt.
Proof. exact c25_change. Qed.
Print Assumptions C25_change.


Example C25_example : siv_decrypt AES a1_key a1_out [a1_ad] = Ok a1_pt.
Proof. vm_compute. reflexivity. Qed.
Example C25_tampered : siv_decrypt AES a1_key (0x84 :: tl a1_out) [a1_ad] = Raise TypeError.
Proof. vm_compute. reflexivity. Qed.

(** C26 *)
Theorem C26_rfc5297 : forall A ka kb pt ads c, block_cipher A -> octets pt -> Forall octets ads ->
  len ka = len kb -> 1 <= len ka -> len pt <= 16 * 2 ^ 31 ->
  siv_encrypt A (ka ++ kb) pt ads = Ok c ->
  c = rfc_siv (encrypt_block A ka) (encrypt_block A kb) pt ads.
Proof. exact c26_rfc5297. Qed.
Print Assumptions C26_rfc5297.

Theorem C26_defined : forall A ka kb pt ads, block_cipher A -> octets pt -> Forall octets ads ->
  len ka = len kb -> 1 <= len ka -> len pt <= 16 * 2 ^ 31 ->
  valid_key A ka = true -> valid_key A kb = true ->
  nth 0 (K1 (encrypt_block A ka)) 0 <> 0 -> nth 0 (K2 (encrypt_block A ka)) 0 <> 0 ->
  siv_encrypt A (ka ++ kb) pt ads = Ok (rfc_siv (encrypt_block A ka) (encrypt_block A kb) pt ads).
Proof. exact c26_defined. Qed.
Print Assumptions C26_defined.

Example C26_example : nth 0 (K1 (encrypt_block AES (firstn 16 a1_key))) 0 <> 0 /\
  nth 0 (K2 (encrypt_block AES (firstn 16 a1_key))) 0 <> 0.
Proof. split; vm_compute; discriminate. Qed.
Theorem C26_refuted : exists ka kb pt ads, len ka = len kb /\ valid_key AES ka = true /\ valid_key AES kb = true /\
  octets pt /\ Forall octets ads /\ siv_encrypt AES (ka ++ kb) pt ads = Raise AssertionError.
Proof. exact c26_refuted. Qed.
Print Assumptions C26_refuted.

Theorem C26_counters : forall v i j, octets v -> len v = 16 -> 0 <= i < 2 ^ 31 -> 0 <= j < 2 ^ 31 -> i <> j ->
  be_octets 16 (siv_q v + i) <> be_octets 16 (siv_q v + j) /\
  0 <= siv_q v + i < 2 ^ 128 /\
  (siv_q v + i) / 2 ^ 32 = siv_q v / 2 ^ 32.
Proof. exact c26_counters. Qed.
Print Assumptions C26_counters.

Example C26_counters_example : siv_q (repeat 255 16) + 1 = 2 ^ 128 - 1 - 2 ^ 63 - 2 ^ 31 + 1 /\
  octets (repeat 255 16).
Proof. split; [reflexivity|]. repeat constructor; unfold is_octet; lia. Qed.
