From Verif Require Import Proofs.Tac Proofs.Bits Model.Encoding Model.Hmac
  Spec.EncodingSpec Spec.HmacSpec Proofs.EncodingProofs Proofs.HmacProofs.
Local Open Scope Z_scope.

(** the SHA1 class of the external library: the state is the data absorbed *)
Definition SHA1 : hash (list Z) := {|
  h_new := []; h_reset := fun _ => []; h_update := fun s x => s ++ x; h_digest := sha1;
  raw_block_size := 64; digest_size := 20 |}.
Lemma sha1_length m : length (sha1 m) = 20%nat.
Proof. unfold sha1. destruct (sha_blocks _ _ _) as [[[[a b] c] d] e]. reflexivity. Qed.
Lemma SHA1_chunks : chunk_independent SHA1 sha1.
Proof.
  intros s d R. cbn [h_digest SHA1]. f_equal. induction R; cbn [h_new h_reset h_update SHA1]; auto. now rewrite IHR.
Qed.

(** ** C27 *)
Lemma c27_histories : forall T (C : hash T) Hf key ops,
  chunk_independent C Hf -> 0 <= raw_block_size C ->
  (forall k, key = Some k -> len k <= raw_block_size C) ->
  Forall (fun op => match op with OSetKey k => len k <= raw_block_size C | _ => True end) ops ->
  map shown (hmac_run C (hmac_new C key) ops)
  = mac_run (rfc_hmac Hf (Z.to_nat (raw_block_size C))) (key, []) (map to_mac ops).
Proof.
  intros T C Hf key ops HC HB HK HO.
  rewrite (run_exact C Hf HC ops _ _ (new_inv C Hf HC key)).
  rewrite <- (x_run_ideal Hf (raw_block_size C) ops HB HO key [] HK). do 3 f_equal.
  unfold start. f_equal. destruct key as [k|]; [|reflexivity].
  f_equal. apply code_key_short; auto.
Qed.

Lemma x_run_digest Hf B ops1 : forall st ops2,
  exists r, x_run Hf B st (ops1 ++ ODigest :: ops2) =
    firstn (length ops1) (x_run Hf B st (ops1 ++ ops2)) ++ r :: skipn (length ops1) (x_run Hf B st (ops1 ++ ops2)).
Proof.
  induction ops1 as [|op ops1 IH]; intros st ops2.
  - cbn [app length firstn skipn]. exists (snd (x_step Hf B st ODigest)). cbn [x_run].
    destruct st as [[e|] w]; reflexivity.
  - cbn [app x_run length]. destruct (x_step Hf B st op) as [st' r']. destruct (IH st' ops2) as [r E].
    exists r. cbn [firstn skipn app]. now rewrite E.
Qed.

(** a digest in the middle of a history changes none of the other results *)
Lemma c27_digest_pure : forall T (C : hash T) Hf key ops1 ops2, chunk_independent C Hf ->
  exists r, hmac_run C (hmac_new C key) (ops1 ++ ODigest :: ops2) =
    firstn (length ops1) (hmac_run C (hmac_new C key) (ops1 ++ ops2))
    ++ r :: skipn (length ops1) (hmac_run C (hmac_new C key) (ops1 ++ ops2)).
Proof.
  intros T C Hf key ops1 ops2 HC. rewrite !(run_exact C Hf HC _ _ _ (new_inv C Hf HC key)). apply x_run_digest.
Qed.

(** setKey with a key longer than the block hashes whatever the object had absorbed *)
Lemma c27_rekey_refuted : exists (C : hash str) Hf key0 key m, chunk_independent C Hf /\
  nth 1 (hmac_run C (hmac_new C (Some key0)) [OSetKey key; OCall m false]) (Raise OutOfFuel) <>
  nth 1 (hmac_run C (hmac_new C None) [OSetKey key; OCall m false]) (Raise OutOfFuel).
Proof.
  exists SHA1, sha1, [1], (repeat 2 65), [3]. split; [exact SHA1_chunks|].
  vm_compute. discriminate.
Qed.

(** ** C28 *)
Lemma c28_rfc2104 : forall T (C : hash T) Hf key m,
  chunk_independent C Hf -> 0 <= raw_block_size C -> len key <= raw_block_size C ->
  snd (hmac_call C (hmac_new C (Some key)) m false) = Ok (rfc_hmac Hf (Z.to_nat (raw_block_size C)) key m).
Proof.
  intros T C Hf key m HC HB HK. rewrite (call_mac C Hf) by auto. rewrite code_key_short by auto. reflexivity.
Qed.
Lemma c28_long_keys : forall T (C : hash T) Hf key m,
  chunk_independent C Hf -> 0 <= raw_block_size C < len key ->
  snd (hmac_call C (hmac_new C (Some key)) m false) =
  Ok (Hf (pad_with 0x5C (Hf key) ++ Hf (pad_with 0x36 (Hf key) ++ m))).
Proof.
  intros T C Hf key m HC HB. rewrite (call_mac C Hf) by (auto; lia). unfold code_key.
  replace (raw_block_size C <? len key) with true by lia. reflexivity.
Qed.
Lemma c28_long_keys_refuted : exists key m,
  snd (hmac_call SHA1 (hmac_new SHA1 (Some key)) m false) <> Ok (rfc_hmac sha1 64 key m).
Proof. exists (repeat 0xaa 80), [84; 101; 115; 116]. vm_compute. discriminate. Qed.

(** ** C29 *)
Lemma c29_rfc2898 : forall T (C : hash T) Hf password salt c k,
  chunk_independent C Hf -> 1 <= digest_size C -> (forall m, len (Hf m) = digest_size C) ->
  63 <= raw_block_size C -> len password <= 63 -> 0 <= k <= 10000 -> 1 <= c ->
  pbkdf2 false C password salt c k =
  Ok (rfc_pbkdf2 (rfc_hmac Hf (Z.to_nat (raw_block_size C)) password)
        (Z.to_nat (digest_size C)) salt (Z.to_nat c) (Z.to_nat k)).
Proof. intros. now apply pbkdf2_spec. Qed.

Lemma c29_limits : forall T (C : hash T) py27 password salt c k,
  63 < len password \/ 10000 < k -> pbkdf2 py27 C password salt c k = Raise TypeError.
Proof.
  intros T C py27 password salt c k H. unfold pbkdf2. destruct (63 <? len password) eqn:E; [reflexivity|].
  replace (10000 <? k) with true by lia. reflexivity.
Qed.

Lemma c29_python27_always_raises : forall T (C : hash T) password salt c k, digest_size C <> 0 ->
  pbkdf2 true C password salt c k = Raise TypeError.
Proof.
  intros. unfold pbkdf2. destruct (_ <? _); [reflexivity|]. destruct (_ <? _); [reflexivity|].
  replace (digest_size C =? 0) with false by lia. reflexivity.
Qed.
Lemma c29_python27_refuted : exists password salt c k,
  len password <= 63 /\ 1 <= c /\ 0 <= k <= 10000 /\
  pbkdf2 true SHA1 password salt c k <>
  Ok (rfc_pbkdf2 (rfc_hmac sha1 64 password) 20 salt (Z.to_nat c) (Z.to_nat k)).
Proof.
  exists [1], [2], 1, 20. split; [discriminate|]. split; [lia|]. split; [lia|].
  rewrite c29_python27_always_raises by discriminate. discriminate.
Qed.

(** hash/pbkdf2.py:37 *)
Lemma c29_wpa_psk : forall pass ssid,
  (8 <= len pass <= 63 ->
   dot11PassPhraseToPSK false SHA1 pass ssid = Ok (rfc_pbkdf2 (rfc_hmac sha1 64 pass) 20 ssid 4096 32)) /\
  (~ 8 <= len pass <= 63 -> dot11PassPhraseToPSK false SHA1 pass ssid = Raise AssertionError).
Proof.
  intros pass ssid. unfold dot11PassPhraseToPSK. split; intros Hl.
  - replace (_ && _) with true by lia. unfold py_assert, bind.
    rewrite (c29_rfc2898 _ SHA1 sha1 pass ssid 4096 32); try (cbn [digest_size raw_block_size SHA1]; lia).
    + reflexivity.
    + exact SHA1_chunks.
    + intros m. unfold len. rewrite sha1_length. reflexivity.
  - replace (_ && _) with false by lia. reflexivity.
Qed.

(** ** C30 *)
Lemma c30_exact : forall hm key prefix data n, (forall k m, List.length (hm k m) = 20%nat) ->
  0 <= n <= 5119 ->
  PRF hm key prefix data (8 * n) = Ok (ieee_prf hm key prefix data 256 (Z.to_nat n)).
Proof.
  intros hm key prefix data n Hm Hn. rewrite prf_small by auto. f_equal. apply ieee_prf_more; auto.
  - assert (n < 20 * (n / 20 + 1)) by lia. lia.
  - assert (n / 20 + 1 <= 256) by lia. lia.
Qed.
Lemma c30_length : forall hm key prefix data n R, (forall k m, List.length (hm k m) = 20%nat) ->
  0 <= n -> PRF hm key prefix data (8 * n) = Ok R -> len R = n.
Proof.
  intros hm key prefix data n R Hm Hn H. destruct (Z.le_gt_cases n 5119) as [L|L].
  - rewrite c30_exact in H by (auto; lia). injection H as <-. unfold ieee_prf. rewrite len_firstn.
    unfold len. change (fun i : nat => hm key (prefix ++ [0] ++ data ++ [Z.of_nat i])) with (prf_block hm key prefix data).
    rewrite prf_blocks_length by auto. lia.
  - rewrite prf_large in H by (auto; lia). discriminate.
Qed.
Lemma c30_prefix : forall hm key prefix data m n R S, (forall k m, List.length (hm k m) = 20%nat) ->
  0 <= m <= n -> PRF hm key prefix data (8 * m) = Ok R -> PRF hm key prefix data (8 * n) = Ok S ->
  R = firstn (Z.to_nat m) S.
Proof.
  intros hm key prefix data m n R S Hm Hmn HR HS. destruct (Z.le_gt_cases n 5119) as [L|L].
  - rewrite c30_exact in HR, HS by (auto; lia). injection HR as <-. injection HS as <-.
    unfold ieee_prf. rewrite firstn_firstn. f_equal. lia.
  - rewrite (prf_large hm Hm key prefix data n) in HS by lia. discriminate.
Qed.
Lemma c30_ragged : forall hm key prefix data bits, bits mod 8 <> 0 ->
  PRF hm key prefix data bits = Raise ValueError.
Proof. intros. apply prf_ragged; assumption. Qed.
Lemma c30_long_raises : forall hm key prefix data n, (forall k m, List.length (hm k m) = 20%nat) ->
  5120 <= n -> PRF hm key prefix data (8 * n) = Raise ValueError.
Proof. intros. now apply prf_large. Qed.
Lemma c30_defined_refuted : exists bits, bits mod 8 = 0 /\ 0 <= bits /\
  PRF (rfc_hmac sha1 64) [] [] [] bits = Raise ValueError.
Proof.
  exists (8 * 5120). split; [reflexivity|]. split; [lia|]. apply prf_large; [|lia].
  intros. unfold rfc_hmac. apply sha1_length.
Qed.
