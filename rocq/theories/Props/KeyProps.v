(** Equivalent keys (C94-C96) *)
From Coq Require Import ZArith List Lia.
From Verif Require Import Model.Py Model.ChaCha Model.Hmac Spec.EncodingSpec Spec.ChaChaSpec Proofs.KeyFacts.
From Verif Require Import Spec.HmacSpec.
Import ListNotations.
Local Open Scope Z_scope.

(** C94: two Poly1305 keys give the same tags exactly if their second halves and their clamped first halves are equal *)
Theorem C94_equivalent : forall k k', octets k -> octets k' -> len k = 32 -> len k' = 32 ->
  ((forall m, poly1305_mac m k = poly1305_mac m k') <-> rfc_clamp k = rfc_clamp k' /\ skipn 16 k = skipn 16 k').
Proof. exact c94_equivalent. Qed.
Print Assumptions C94_equivalent.

Example C94_equivalent_example : rfc_clamp (repeat 0 3 ++ [16] ++ repeat 0 28) = rfc_clamp (repeat 0 32) /\ rfc_clamp (repeat 0 3 ++ [15] ++ repeat 0 28) <> rfc_clamp (repeat 0 32).
Proof. split; [reflexivity|discriminate]. Qed.

(** the tags of three messages already decide it *)
Theorem C94_three : forall k k', octets k -> octets k' -> len k = 32 -> len k' = 32 ->
  (forall m, In m [[]; repeat 0 16; 1 :: repeat 0 15] -> poly1305_mac m k = poly1305_mac m k') ->
  rfc_clamp k = rfc_clamp k' /\ skipn 16 k = skipn 16 k'.
Proof. exact c94_three. Qed.
Print Assumptions C94_three.

(** the empty message does not: these keys differ in the clamped half and share its tag *)
Example C94_three_example : let k := 1 :: repeat 0 31 in let k' := repeat 0 32 in
  rfc_clamp k <> rfc_clamp k' /\ poly1305_mac [] k = poly1305_mac [] k' /\ poly1305_mac (repeat 0 16) k = poly1305_mac (repeat 0 16) k' /\ poly1305_mac (1 :: repeat 0 15) k <> poly1305_mac (1 :: repeat 0 15) k'.
Proof. vm_compute. repeat split; discriminate. Qed.

(** no key is the only one with its tags *)
Theorem C94_refuted : forall k, octets k -> len k = 32 -> exists k', octets k' /\ len k' = 32 /\ k' <> k /\ forall m, poly1305_mac m k' = poly1305_mac m k.
Proof. exact c94_refuted. Qed.
Print Assumptions C94_refuted.

Example C94_refuted_example : poly1305_mac [1; 2; 3] (repeat 7 32) = poly1305_mac [1; 2; 3] (repeat 7 3 ++ [135] ++ repeat 7 28) /\ poly1305_mac [1; 2; 3] (repeat 7 32) <> poly1305_mac [1; 2; 3] (repeat 7 31 ++ [8]).
Proof. split; [reflexivity|vm_compute; discriminate]. Qed.

(** C95: two keys no longer than a block make the same HMAC object exactly if they differ in trailing zero octets *)
Theorem C95_equivalent : forall T (C : hash T) k k', len k <= raw_block_size C -> len k' <= raw_block_size C ->
  (hmac_new C (Some k) = hmac_new C (Some k') <-> exists z z', k ++ repeat 0 z = k' ++ repeat 0 z').
Proof. exact c95_equivalent. Qed.
Print Assumptions C95_equivalent.

Definition plain_hash : hash str := Hash _ [] (fun _ => []) (fun s d => s ++ d) (fun s => firstn 4 s) 8 4.

Example C95_equivalent_example : hmac_new plain_hash (Some [1; 2; 0]) = hmac_new plain_hash (Some [1; 2]) /\ hmac_new plain_hash (Some [0; 1; 2]) <> hmac_new plain_hash (Some [1; 2]).
Proof. split; [reflexivity|discriminate]. Qed.

(** so a key and the key followed by zero octets give the same results in every history *)
Theorem C95_refuted : forall T (C : hash T) k z, len k + Z.of_nat z <= raw_block_size C ->
  forall ops, hmac_run C (hmac_new C (Some (k ++ repeat 0 z))) ops = hmac_run C (hmac_new C (Some k)) ops.
Proof. exact c95_refuted. Qed.
Print Assumptions C95_refuted.

Example C95_refuted_example : hmac_run plain_hash (hmac_new plain_hash (Some [1; 2; 0; 0])) [OCall [9] false; OUpdate [7]; ODigest] = [Ok [93; 94; 92; 92]; Ok []; Ok [93; 94; 92; 92]].
Proof. reflexivity. Qed.

(** and so do pass phrases *)
Theorem C95_passphrase : forall T py27 (C : hash T) pass ssid z, 8 <= len pass -> len pass + Z.of_nat z <= 63 -> 63 <= raw_block_size C ->
  dot11PassPhraseToPSK py27 C (pass ++ repeat 0 z) ssid = dot11PassPhraseToPSK py27 C pass ssid.
Proof. exact c95_passphrase. Qed.
Print Assumptions C95_passphrase.

Example C95_passphrase_example : 8 <= len (repeat 65 8) /\ len (repeat 65 8) + Z.of_nat 55 <= 63 /\ dot11PassPhraseToPSK false plain_hash (repeat 65 8 ++ repeat 0 56) [1] = Raise AssertionError.
Proof. repeat split; discriminate. Qed.

(** C96: the initial state determines key, counter and nonce *)
Theorem C96_injective : forall rnd rnd' key key' counter counter' nonce nonce' st, octets key -> octets key' -> octets nonce -> octets nonce' -> nonce <> [] -> nonce' <> [] ->
  chacha_init rnd key counter (Some nonce) = Ok st -> chacha_init rnd' key' counter' (Some nonce') = Ok st ->
  key = key' /\ counter = counter' /\ nonce = nonce'.
Proof. exact c96_injective. Qed.
Print Assumptions C96_injective.

Example C96_injective_example : exists st st', chacha_init [] (repeat 1 32) 0 (Some (repeat 2 12)) = Ok st /\ chacha_init [] (repeat 1 32) 0 (Some (repeat 2 11 ++ [3])) = Ok st' /\ st <> st'.
Proof. do 2 eexists. split; [vm_compute; reflexivity|]. split; [vm_compute; reflexivity|]. discriminate. Qed.

(** two messages under one state: their sum shows in the cipher texts *)
Theorem C96_reuse : forall st m m' i, length st = 16%nat -> (i < length m)%nat -> (i < length m')%nat ->
  Z.lxor (nth i (snd (chacha_encrypt st m)) 0) (nth i (snd (chacha_encrypt st m')) 0) = Z.lxor (nth i m 0) (nth i m' 0).
Proof. exact c96_reuse. Qed.
Print Assumptions C96_reuse.

Example C96_reuse_example : Z.lxor (nth 1 (snd (chacha_encrypt (repeat 5 16) [1; 2])) 0) (nth 1 (snd (chacha_encrypt (repeat 5 16) [3; 8; 9])) 0) = 10.
Proof. vm_compute. reflexivity. Qed.

(** a changed cipher text decrypts to the plain text changed in the same places *)
Theorem C96_malleable : forall rnd1 rnd2 rnd3 rnd4 key constant aad iv pt delta ct tag,
  octets key -> octets constant -> octets iv -> len key = 32 -> len (constant ++ iv) = 12 -> 1 + nblocks pt <= 2 ^ 32 ->
  aead_encrypt rnd1 rnd2 key constant aad iv pt = Ok (ct, tag) -> length delta = length pt ->
  exists tag', aead_decrypt rnd3 rnd4 key constant aad iv (map (fun i => Z.lxor (nth i ct 0) (nth i delta 0)) (seq 0 (length ct)))
               = Ok (map (fun i => Z.lxor (nth i pt 0) (nth i delta 0)) (seq 0 (length pt)), tag').
Proof. exact c96_malleable. Qed.
Print Assumptions C96_malleable.

Example C96_malleable_example : exists ct tag tag', aead_encrypt [] [] (repeat 1 32) [7; 0; 0; 0] [80] (repeat 2 8) [49; 48; 48] = Ok (ct, tag) /\
  aead_decrypt [] [] (repeat 1 32) [7; 0; 0; 0] [80] (repeat 2 8) (Z.lxor (nth 0 ct 0) 8 :: tl ct) = Ok ([57; 48; 48], tag').
Proof. do 3 eexists. split; [vm_compute; reflexivity|]. vm_compute. reflexivity. Qed.
