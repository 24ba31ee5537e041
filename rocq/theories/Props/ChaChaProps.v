(** ChaCha20, Poly1305 and the AEAD (C06-C13, C15-C19). *)
From Coq Require Import String ZArith List Lia.
From Verif Require Import Model.Py Model.Encoding Model.ChaCha
  Spec.EncodingSpec Spec.ChaChaSpec Proofs.ChaChaProofs Proofs.ChaChaInv Proofs.PolyProofs
  Proofs.ChaChaHist Proofs.ChaChaFacts.
Import ListNotations.
Local Open Scope Z_scope.

(** C06 *)
Theorem C06_round_trip : forall rnd rnd' key nonce counter st st' m,
  chacha_init rnd key counter (Some nonce) = Ok st ->
  chacha_init rnd' key counter (Some nonce) = Ok st' -> nonce <> [] ->
  snd (chacha_decrypt st' (snd (chacha_encrypt st m))) = m /\
  len (snd (chacha_encrypt st m)) = len m.
Proof. exact c06_round_trip. Qed.
Print Assumptions C06_round_trip.

(** the object can be constructed for every key and nonce of the right sizes *)
Theorem C06_defined : forall rnd key nonce counter,
  len key = 32 -> len nonce = 12 ->
  exists st, chacha_init rnd key counter (Some nonce) = Ok st.
Proof. exact c06_defined. Qed.
Print Assumptions C06_defined.

Example C06_example : exists st, chacha_init [] (repeat 7 32) 1 (Some (repeat 9 12)) = Ok st /\
  snd (chacha_encrypt st [1; 2; 3]) <> [1; 2; 3].
Proof. eexists. split; [reflexivity|]. vm_compute. discriminate. Qed.

(** C07 *)
Theorem C07_quarter_round : forall a b c d, word a -> word b -> word c -> word d ->
  chacha_q_round a b c d = QR a b c d.
Proof. exact c07_quarter_round. Qed.
Print Assumptions C07_quarter_round.

Theorem C07_inner_block : forall st, List.length st = 16%nat -> Forall word st ->
  inner_block st = double_round st.
Proof. exact c07_inner_block. Qed.
Print Assumptions C07_inner_block.

Theorem C07_block : forall rnd key nonce counter,
  octets key -> octets nonce -> len key = 32 -> len nonce = 12 -> word counter ->
  exists st, chacha_init rnd key counter (Some nonce) = Ok st /\
  chacha20_block st = rfc_block key counter nonce.
Proof. exact c07_block. Qed.
Print Assumptions C07_block.

Theorem C07_encrypt : forall rnd key nonce counter m,
  octets key -> octets nonce -> len key = 32 -> len nonce = 12 ->
  0 <= counter -> counter + nblocks m <= 2 ^ 32 ->
  exists st, chacha_init rnd key counter (Some nonce) = Ok st /\
  snd (chacha_encrypt st m) = rfc_encrypt key counter nonce m.
Proof. exact c07_encrypt. Qed.
Print Assumptions C07_encrypt.

(** RFC 7539 2.1.1 and 2.3.2 test vectors *)
Example C07_quarter_round_vector :
  chacha_q_round 0x11111111 0x01020304 0x9b8d6f43 0x01234567
  = (0xea2a92f4, 0xcb1cf8ce, 0x4581472e, 0x5881c4bb).
Proof. reflexivity. Qed.
Example C07_block_vector :
  firstn 8 (rfc_block (map Z.of_nat (seq 0 32)) 1 [0;0;0;9;0;0;0;0x4a;0;0;0;0])
  = [0x10;0xf1;0xe7;0xe4;0xd1;0x3b;0x59;0x15].
Proof. vm_compute. reflexivity. Qed.

(** C08: every history of calls *)
Theorem C08_history : forall rnd key nonce counter calls,
  octets key -> octets nonce -> len key = 32 -> len nonce = 12 ->
  0 <= counter -> counter + total_blocks calls <= 2 ^ 32 ->
  exists st, chacha_init rnd key counter (Some nonce) = Ok st /\
  snd (run_calls chacha_encrypt chacha_decrypt st calls) = rfc_history key counter nonce calls.
Proof. exact c08_history. Qed.
Print Assumptions C08_history.

(** call [k] uses the counters from [counter + blocks of the earlier calls] on *)
Theorem C08_call_position : forall rnd key nonce counter calls k x,
  octets key -> octets nonce -> len key = 32 -> len nonce = 12 ->
  0 <= counter -> counter + total_blocks calls <= 2 ^ 32 ->
  nth_error calls k = Some x ->
  exists st, chacha_init rnd key counter (Some nonce) = Ok st /\
  nth_error (snd (run_calls chacha_encrypt chacha_decrypt st calls)) k =
  Some (rfc_encrypt key (counter + total_blocks (firstn k calls)) nonce (payload x)).
Proof. exact c08_call_position. Qed.
Print Assumptions C08_call_position.

(** the runs of counters of two calls are disjoint, and consecutive *)
Theorem C08_runs_disjoint : forall calls j k x, (j < k)%nat -> nth_error calls j = Some x ->
  total_blocks (firstn j calls) + nblocks (payload x) <= total_blocks (firstn k calls).
Proof. exact total_blocks_mono. Qed.
Print Assumptions C08_runs_disjoint.

Theorem C08_counter_after : forall calls st, List.length st = 16%nat ->
  let st' := fst (run_calls chacha_encrypt chacha_decrypt st calls) in
  List.length st' = 16%nat /\ get st' 12 = get st 12 + total_blocks calls /\
  forall i, i <> 12%nat -> get st' i = get st i.
Proof. exact run_calls_counter. Qed.
Print Assumptions C08_counter_after.

Example C08_example :
  total_blocks [Encrypt (repeat 1 65); Decrypt [3]; Encrypt (repeat 0 64)] = 4.
Proof. reflexivity. Qed.

(** C09 *)
Theorem C09_split_at_block : forall st m1 m2, List.length st = 16%nat ->
  (64 | Z.of_nat (List.length m1)) \/ m2 = [] ->
  let '(st1, c1) := chacha_encrypt st m1 in
  let '(st2, c2) := chacha_encrypt st1 m2 in
  chacha_encrypt st (m1 ++ m2) = (st2, c1 ++ c2).
Proof. exact encrypt_split. Qed.
Print Assumptions C09_split_at_block.

Theorem C09_split_elsewhere_refuted : exists st m1 m2, List.length st = 16%nat /\
  chacha_init [] (repeat 0 32) 1 (Some (repeat 0 12)) = Ok st /\
  let '(st1, c1) := chacha_encrypt st m1 in
  let '(st2, c2) := chacha_encrypt st1 m2 in
  snd (chacha_encrypt st (m1 ++ m2)) <> c1 ++ c2.
Proof. exact c09_split_elsewhere_refuted. Qed.
Print Assumptions C09_split_elsewhere_refuted.

Example C09_example : (64 | Z.of_nat (List.length (repeat 5 128))).
Proof. exists 2. reflexivity. Qed.

(** C10: finding.  A 32-bit counter would wrap to 0. *)
Theorem C10_counter_wraps_refuted : exists key nonce counter m st st' c i,
  octets key /\ octets nonce /\ len key = 32 /\ len nonce = 12 /\ word counter /\
  chacha_init [] key counter (Some nonce) = Ok st /\
  chacha_encrypt st m = (st', c) /\
  (i < List.length m)%nat /\
  nth i c 0 <> Z.lxor (nth i m 0)
    (nth (i mod 64) (rfc_block key ((counter + Z.of_nat (i / 64)) mod 2 ^ 32) nonce) 0).
Proof. exact c10_counter_wraps_refuted. Qed.
Print Assumptions C10_counter_wraps_refuted.

(** any integer is accepted as the initial counter *)
Theorem C10_counter_unchecked : forall rnd key nonce counter,
  len key = 32 -> len nonce = 12 ->
  chacha_init rnd key counter (Some nonce) = Ok (rfc_state key counter nonce).
Proof. exact (fun rnd key nonce counter Hk Hn => chacha_init_spec rnd key counter nonce Hk Hn). Qed.
Print Assumptions C10_counter_unchecked.

(** C11: exactly which arguments are accepted *)
Theorem C11_accepted_iff : forall rnd key counter nonce, len rnd = 12 ->
  ((exists st, chacha_init rnd key counter (Some nonce) = Ok st) <->
   len key = 32 /\ (len nonce = 12 \/ nonce = [])) /\
  (forall e, chacha_init rnd key counter (Some nonce) = Raise e -> e = AssertionError).
Proof. exact c11_accepted_iff. Qed.
Print Assumptions C11_accepted_iff.

(** finding: the empty nonce is accepted and replaced by a random one, also by
    the AEAD, so that the same call gives different ciphertexts *)
Theorem C11_empty_nonce_refuted : exists rnd key st,
  chacha_init rnd key 1 (Some []) = Ok st.
Proof. exact c11_empty_nonce_refuted. Qed.
Print Assumptions C11_empty_nonce_refuted.

Theorem C11_aead_empty_nonce_refuted : exists r1 r2 r3 key c1 c2 t1 t2,
  aead_encrypt r1 r2 key [] [] [] [65; 66] = Ok (c1, t1) /\
  aead_encrypt r1 r3 key [] [] [] [65; 66] = Ok (c2, t2) /\ c1 <> c2.
Proof. exact c11_aead_empty_nonce_refuted. Qed.
Print Assumptions C11_aead_empty_nonce_refuted.

Theorem C11_aead_rejects : forall r1 r2 key constant aad iv pt,
  constant ++ iv <> [] -> len key <> 32 \/ len (constant ++ iv) <> 12 ->
  aead_encrypt r1 r2 key constant aad iv pt = Raise AssertionError.
Proof. exact c11_aead_rejects. Qed.
Print Assumptions C11_aead_rejects.

Example C11_example : chacha_init (repeat 0 12) (repeat 0 32) 1 (Some (repeat 0 8)) = Raise AssertionError.
Proof. reflexivity. Qed.

(** C12 *)
Theorem C12_quarter_round_injective : forall st st' x y z w,
  Forall word st -> Forall word st' -> List.length st = 16%nat -> List.length st' = 16%nat ->
  NoDup [x; y; z; w] -> (x < 16)%nat -> (y < 16)%nat -> (z < 16)%nat -> (w < 16)%nat ->
  quarter_round st x y z w = quarter_round st' x y z w -> st = st'.
Proof. exact quarter_round_inj. Qed.
Print Assumptions C12_quarter_round_injective.

Theorem C12_quarter_round_onto : forall st x y z w,
  Forall word st -> List.length st = 16%nat ->
  NoDup [x; y; z; w] -> (x < 16)%nat -> (y < 16)%nat -> (z < 16)%nat -> (w < 16)%nat ->
  exists st', Forall word st' /\ List.length st' = 16%nat /\ quarter_round st' x y z w = st.
Proof. exact quarter_round_surj. Qed.
Print Assumptions C12_quarter_round_onto.

Theorem C12_inner_block_injective : forall st st',
  Forall word st -> Forall word st' -> List.length st = 16%nat -> List.length st' = 16%nat ->
  inner_block st = inner_block st' -> st = st'.
Proof. exact inner_block_inj. Qed.
Print Assumptions C12_inner_block_injective.

Theorem C12_inner_block_onto : forall st, Forall word st -> List.length st = 16%nat ->
  exists st', Forall word st' /\ List.length st' = 16%nat /\ inner_block st' = st.
Proof. exact inner_block_surj. Qed.
Print Assumptions C12_inner_block_onto.

Theorem C12_word_function_bijective : forall a b c d,
  word a -> word b -> word c -> word d ->
  (exists a' b' c' d', word a' /\ word b' /\ word c' /\ word d' /\
     chacha_q_round a' b' c' d' = (a, b, c, d)) /\
  (forall a' b' c' d', word a' -> word b' -> word c' -> word d' ->
     chacha_q_round a b c d = chacha_q_round a' b' c' d' -> (a, b, c, d) = (a', b', c', d')).
Proof. exact c12_word_function_bijective. Qed.
Print Assumptions C12_word_function_bijective.

Example C12_example : quarter_round (map Z.of_nat (seq 0 16)) 0 4 8 12 <> map Z.of_nat (seq 0 16).
Proof. vm_compute. discriminate. Qed.

(** C13 *)
Theorem C13_poly1305 : forall msg key, octets key -> len key = 32 ->
  poly1305_mac msg key = Ok (rfc_poly1305 msg key).
Proof. exact c13_poly1305. Qed.
Print Assumptions C13_poly1305.

Theorem C13_tag_size : forall msg key tag, len key = 32 ->
  poly1305_mac msg key = Ok tag -> len tag = 16 /\ octets tag.
Proof. exact c13_tag_size. Qed.
Print Assumptions C13_tag_size.

(** RFC 7539 2.5.2 *)
Example C13_rfc_vector : poly1305_mac (of_ascii "Cryptographic Forum Research Group"%string)
  [0x85;0xd6;0xbe;0x78;0x57;0x55;0x6d;0x33;0x7f;0x44;0x52;0xfe;0x42;0xd5;0x06;0xa8;
   0x01;0x03;0x80;0x8a;0xfb;0x0d;0xb2;0xfd;0x4a;0xbf;0xf6;0xaf;0x41;0x49;0xf5;0x1b]
  = Ok [0xa8;0x06;0x1d;0xc1;0x30;0x51;0x36;0xc6;0xc2;0x2b;0x8b;0xaf;0x0c;0x01;0x27;0xa9].
Proof. vm_compute. reflexivity. Qed.

(** C15: finding, with the exact set of accepted lengths *)
Theorem C15_key_lengths : forall msg key,
  (len key <= 16 -> poly1305_mac msg key = Raise ValueError) /\
  (16 < len key -> exists tag, poly1305_mac msg key = Ok tag /\ len tag = 16 /\ octets tag).
Proof. exact poly_mac_key. Qed.
Print Assumptions C15_key_lengths.

Theorem C15_wrong_size_refuted : exists msg key tag, octets key /\ len key <> 32 /\
  poly1305_mac msg key = Ok tag.
Proof. exact c15_wrong_size_refuted. Qed.
Print Assumptions C15_wrong_size_refuted.

(** octets after the 32nd are ignored, so different keys are equivalent *)
Theorem C15_extra_octets_ignored : forall msg key extra, octets key -> octets extra -> len key = 32 ->
  poly1305_mac msg (key ++ extra) = poly1305_mac msg key.
Proof. exact c15_extra_octets_ignored. Qed.
Print Assumptions C15_extra_octets_ignored.

(** C16 *)
Theorem C16_encrypt : forall rnd1 rnd2 key constant aad iv pt,
  octets key -> octets constant -> octets iv -> len key = 32 -> len (constant ++ iv) = 12 ->
  1 + nblocks pt <= 2 ^ 32 ->
  aead_encrypt rnd1 rnd2 key constant aad iv pt = Ok (rfc_aead key (constant ++ iv) aad pt).
Proof. exact aead_spec. Qed.
Print Assumptions C16_encrypt.

Theorem C16_decrypt_recovers : forall rnd1 rnd2 rnd3 rnd4 key constant aad iv pt ct tag,
  octets key -> octets constant -> octets iv -> len key = 32 -> len (constant ++ iv) = 12 ->
  1 + nblocks pt <= 2 ^ 32 ->
  aead_encrypt rnd1 rnd2 key constant aad iv pt = Ok (ct, tag) ->
  exists tag', aead_decrypt rnd3 rnd4 key constant aad iv ct = Ok (pt, tag').
Proof. exact c16_decrypt_recovers. Qed.
Print Assumptions C16_decrypt_recovers.

Example C16_example : exists ct tag,
  aead_encrypt [] [] (repeat 1 32) [7;0;0;0] [80;81] (repeat 2 8) [76;97] = Ok (ct, tag) /\
  List.length ct = 2%nat /\ List.length tag = 16%nat.
Proof. do 2 eexists. split; [vm_compute; reflexivity|]. split; reflexivity. Qed.

(** C17: findings.  Every ciphertext is accepted. *)
Theorem C17_never_rejects : forall rnd1 rnd2 key constant aad iv ct,
  octets key -> octets constant -> octets iv -> len key = 32 -> len (constant ++ iv) = 12 ->
  exists pt tag, aead_decrypt rnd1 rnd2 key constant aad iv ct = Ok (pt, tag).
Proof. exact c17_never_rejects. Qed.
Print Assumptions C17_never_rejects.

(** The tag returned by decrypt is computed over the plaintext and differs. *)
Theorem C17_tag_recomputed_refuted : exists key constant aad iv pt ct tag tag',
  aead_encrypt [] [] key constant aad iv pt = Ok (ct, tag) /\
  aead_decrypt [] [] key constant aad iv ct = Ok (pt, tag') /\ tag <> tag'.
Proof. exact c17_tag_recomputed_refuted. Qed.
Print Assumptions C17_tag_recomputed_refuted.

(** decrypt's second component is the RFC tag of its own output *)
Theorem C17_decrypt_tag : forall rnd1 rnd2 key constant aad iv ct,
  octets key -> octets constant -> octets iv -> len key = 32 -> len (constant ++ iv) = 12 ->
  1 + nblocks ct <= 2 ^ 32 ->
  aead_decrypt rnd1 rnd2 key constant aad iv ct =
  Ok (rfc_encrypt key 1 (constant ++ iv) ct,
      rfc_poly1305 (rfc_mac_data aad (rfc_encrypt key 1 (constant ++ iv) ct))
        (firstn 32 (rfc_block key 0 (constant ++ iv)))).
Proof. exact aead_spec. Qed.
Print Assumptions C17_decrypt_tag.

(** C18 *)
Theorem C18_mac_input_injective : forall aad ct aad' ct',
  len aad < 2 ^ 64 -> len ct < 2 ^ 64 -> len aad' < 2 ^ 64 -> len ct' < 2 ^ 64 ->
  mac_data aad ct = mac_data aad' ct' -> aad = aad' /\ ct = ct'.
Proof. exact mac_data_inj. Qed.
Print Assumptions C18_mac_input_injective.

Theorem C18_mac_input : forall aad ct, mac_data aad ct = rfc_mac_data aad ct.
Proof. exact mac_data_spec. Qed.
Print Assumptions C18_mac_input.

Example C18_example : mac_data [1] [2; 3] <> mac_data [1; 2] [3].
Proof. vm_compute. discriminate. Qed.

(** C19: finding *)
Theorem C19_unusable_refuted : forall key constant aad iv pt,
  (exists e, chacha_poly_aead_encrypt key constant aad iv pt = Raise e) /\
  (exists e, chacha_poly_aead_decrypt key constant aad iv = Raise e).
Proof. exact c19_unusable_refuted. Qed.
Print Assumptions C19_unusable_refuted.
