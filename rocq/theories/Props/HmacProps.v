(** HMAC, PBKDF2 and the 802.11 PRF (C27-C30), over an arbitrary hash class [C]
    whose digests depend only on the data absorbed since the last reset. *)
From Coq Require Import ZArith List Bool Lia.
From Verif Require Import Model.Py Model.Encoding Model.Hmac Spec.HmacSpec Proofs.HmacProofs Proofs.HmacFacts.
Import ListNotations.
Local Open Scope Z_scope.

(** C27 *)
Theorem C27_histories : forall T (C : hash T) Hf key ops,
  chunk_independent C Hf -> 0 <= raw_block_size C ->
  (forall k, key = Some k -> len k <= raw_block_size C) ->
  Forall (fun op => match op with OSetKey k => len k <= raw_block_size C | _ => True end) ops ->
  map shown (hmac_run C (hmac_new C key) ops)
  = mac_run (rfc_hmac Hf (Z.to_nat (raw_block_size C))) (key, []) (map to_mac ops).
Proof. exact c27_histories. Qed.
Print Assumptions C27_histories.

Theorem C27_digest_pure : forall T (C : hash T) Hf key ops1 ops2, chunk_independent C Hf ->
  exists r, hmac_run C (hmac_new C key) (ops1 ++ ODigest :: ops2) =
    firstn (length ops1) (hmac_run C (hmac_new C key) (ops1 ++ ops2))
    ++ r :: skipn (length ops1) (hmac_run C (hmac_new C key) (ops1 ++ ops2)).
Proof. exact c27_digest_pure. Qed.
Print Assumptions C27_digest_pure.

Theorem C27_rekey_refuted : exists (C : hash str) Hf key0 key m, chunk_independent C Hf /\
  nth 1 (hmac_run C (hmac_new C (Some key0)) [OSetKey key; OCall m false]) (Raise OutOfFuel) <>
  nth 1 (hmac_run C (hmac_new C None) [OSetKey key; OCall m false]) (Raise OutOfFuel).
Proof. exact c27_rekey_refuted. Qed.
Print Assumptions C27_rekey_refuted.


Example C27_example : chunk_independent SHA1 sha1 /\
  nth 3 (hmac_run SHA1 (hmac_new SHA1 None)
     [OSetKey [0x4a;0x65;0x66;0x65]; OUpdate [0x77;0x68]; ODigest; OCall [0x61;0x74] true]) (Raise OutOfFuel)
  = Ok (rfc_hmac sha1 64 [0x4a;0x65;0x66;0x65] [0x77;0x68;0x61;0x74]).
Proof. split; [exact SHA1_chunks|]. vm_compute. reflexivity. Qed.

(** C28 *)
Theorem C28_rfc2104 : forall T (C : hash T) Hf key m,
  chunk_independent C Hf -> 0 <= raw_block_size C -> len key <= raw_block_size C ->
  snd (hmac_call C (hmac_new C (Some key)) m false) = Ok (rfc_hmac Hf (Z.to_nat (raw_block_size C)) key m).
Proof. exact c28_rfc2104. Qed.
Print Assumptions C28_rfc2104.

(** RFC 2202 test case 2 *)
Example C28_example : snd (hmac_call SHA1 (hmac_new SHA1 (Some [0x4a;0x65;0x66;0x65]))
  [0x77;0x68;0x61;0x74;0x20;0x64;0x6f;0x20;0x79;0x61;0x20;0x77;0x61;0x6e;0x74;0x20;0x66;0x6f;0x72;0x20;
   0x6e;0x6f;0x74;0x68;0x69;0x6e;0x67;0x3f] false) =
  Ok [0xef;0xfc;0xdf;0x6a;0xe5;0xeb;0x2f;0xa2;0xd2;0x74;0x16;0xd5;0xf1;0x84;0xdf;0x9c;0x25;0x9a;0x7c;0x79].
Proof. vm_compute. reflexivity. Qed.
Theorem C28_long_keys : forall T (C : hash T) Hf key m,
  chunk_independent C Hf -> 0 <= raw_block_size C < len key ->
  snd (hmac_call C (hmac_new C (Some key)) m false) =
  Ok (Hf (pad_with 0x5C (Hf key) ++ Hf (pad_with 0x36 (Hf key) ++ m))).
Proof. exact c28_long_keys. Qed.
Print Assumptions C28_long_keys.

Theorem C28_long_keys_refuted : exists key m,
  snd (hmac_call SHA1 (hmac_new SHA1 (Some key)) m false) <> Ok (rfc_hmac sha1 64 key m).
Proof. exact c28_long_keys_refuted. Qed.
Print Assumptions C28_long_keys_refuted.


(** C29 *)
Theorem C29_rfc2898 : forall T (C : hash T) Hf password salt c k,
  chunk_independent C Hf -> 1 <= digest_size C -> (forall m, len (Hf m) = digest_size C) ->
  63 <= raw_block_size C -> len password <= 63 -> 0 <= k <= 10000 -> 1 <= c ->
  pbkdf2 false C password salt c k =
  Ok (rfc_pbkdf2 (rfc_hmac Hf (Z.to_nat (raw_block_size C)) password)
        (Z.to_nat (digest_size C)) salt (Z.to_nat c) (Z.to_nat k)).
Proof. exact c29_rfc2898. Qed.
Print Assumptions C29_rfc2898.

(** "password", "salt", 2 iterations (RFC 6070), 25 octets *)
Example C29_example : pbkdf2 false SHA1 [112;97;115;115;119;111;114;100] [115;97;108;116] 2 25 =
  Ok [234;108;1;77;199;45;111;140;205;30;217;42;206;29;65;240;216;222;137;87;202;233;49;54;38].
Proof. vm_compute. reflexivity. Qed.
Theorem C29_limits : forall T (C : hash T) py27 password salt c k,
  63 < len password \/ 10000 < k -> pbkdf2 py27 C password salt c k = Raise TypeError.
Proof. exact c29_limits. Qed.
Print Assumptions C29_limits.

Theorem C29_python27_always_raises : forall T (C : hash T) password salt c k, digest_size C <> 0 ->
  pbkdf2 true C password salt c k = Raise TypeError.
Proof. exact c29_python27_always_raises. Qed.
Print Assumptions C29_python27_always_raises.

Theorem C29_python27_refuted : exists password salt c k,
  len password <= 63 /\ 1 <= c /\ 0 <= k <= 10000 /\
  pbkdf2 true SHA1 password salt c k <>
  Ok (rfc_pbkdf2 (rfc_hmac sha1 64 password) 20 salt (Z.to_nat c) (Z.to_nat k)).
Proof. exact c29_python27_refuted. Qed.
Print Assumptions C29_python27_refuted.

Theorem C29_wpa_psk : forall pass ssid,
  (8 <= len pass <= 63 ->
   dot11PassPhraseToPSK false SHA1 pass ssid = Ok (rfc_pbkdf2 (rfc_hmac sha1 64 pass) 20 ssid 4096 32)) /\
  (~ 8 <= len pass <= 63 -> dot11PassPhraseToPSK false SHA1 pass ssid = Raise AssertionError).
Proof. exact c29_wpa_psk. Qed.
Print Assumptions C29_wpa_psk.


(** C30 *)
Theorem C30_exact : forall hm key prefix data n, (forall k m, List.length (hm k m) = 20%nat) ->
  0 <= n <= 5119 ->
  PRF hm key prefix data (8 * n) = Ok (ieee_prf hm key prefix data 256 (Z.to_nat n)).
Proof. exact c30_exact. Qed.
Print Assumptions C30_exact.

Example C30_example : PRF (rfc_hmac sha1 64) [74;101;102;101] [112;114;101;102;105;120] [100;97;116;97] 128 =
  Ok [241;0;47;217;129;118;131;124;61;127;5;238;16;32;108;9].
Proof. vm_compute. reflexivity. Qed.
Theorem C30_length : forall hm key prefix data n R, (forall k m, List.length (hm k m) = 20%nat) ->
  0 <= n -> PRF hm key prefix data (8 * n) = Ok R -> len R = n.
Proof. exact c30_length. Qed.
Print Assumptions C30_length.

Theorem C30_prefix : forall hm key prefix data m n R S, (forall k m, List.length (hm k m) = 20%nat) ->
  0 <= m <= n -> PRF hm key prefix data (8 * m) = Ok R -> PRF hm key prefix data (8 * n) = Ok S ->
  R = firstn (Z.to_nat m) S.
Proof. exact c30_prefix. Qed.
Print Assumptions C30_prefix.

Theorem C30_ragged : forall hm key prefix data bits, bits mod 8 <> 0 ->
  PRF hm key prefix data bits = Raise ValueError.
Proof. exact c30_ragged. Qed.
Print Assumptions C30_ragged.

Theorem C30_long_raises : forall hm key prefix data n, (forall k m, List.length (hm k m) = 20%nat) ->
  5120 <= n -> PRF hm key prefix data (8 * n) = Raise ValueError.
Proof. exact c30_long_raises. Qed.
Print Assumptions C30_long_raises.

Theorem C30_defined_refuted : exists bits, bits mod 8 = 0 /\ 0 <= bits /\
  PRF (rfc_hmac sha1 64) [] [] [] bits = Raise ValueError.
Proof. exact c30_defined_refuted. Qed.
Print Assumptions C30_defined_refuted.

