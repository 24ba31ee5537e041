From Coq Require Import String.
From Verif Require Import Proofs.Tac Proofs.Bits Model.Encoding Model.ChaCha
  Spec.EncodingSpec Spec.ChaChaSpec Proofs.EncodingProofs Proofs.ChaChaProofs Proofs.ChaChaInv
  Proofs.PolyProofs Proofs.ChaChaHist.
Local Open Scope Z_scope.

Lemma initialize_ok key c nonce st : initialize key c nonce = Ok st ->
  len key = 32 /\ len nonce = 12 /\ st = rfc_state key c nonce.
Proof.
  intros H. pose proof H as H0. unfold initialize, py_assert in H.
  destruct (len key =? 32) eqn:E1; cbn [bind] in H; [|discriminate].
  destruct (len nonce =? 12) eqn:E2; cbn [bind] in H; [|discriminate].
  assert (K : len key = 32) by lia. assert (N : len nonce = 12) by lia.
  rewrite (initialize_spec key c nonce K N) in H0. split; auto. split; auto. congruence.
Qed.

Local Opaque rfc_block rfc_encrypt chacha20_block inner_block quarter_round rfc_state.


(** ** Property proofs *)
Lemma c06_round_trip : forall rnd rnd' key nonce counter st st' m,
  chacha_init rnd key counter (Some nonce) = Ok st ->
  chacha_init rnd' key counter (Some nonce) = Ok st' -> nonce <> [] ->
  snd (chacha_decrypt st' (snd (chacha_encrypt st m))) = m /\
  len (snd (chacha_encrypt st m)) = len m.
Proof.
  intros rnd rnd' key nonce counter st st' m H H' HN.
  assert (E : st = st').
  { unfold chacha_init in *. destruct nonce; [congruence|]. congruence. }
  subst st'.
  assert (L : length st = 16%nat).
  { unfold chacha_init in H. destruct nonce as [|b t]; [congruence|].
    apply initialize_ok in H as (Hk & Hn & ->). reflexivity. }
  unfold chacha_decrypt. rewrite (chacha_encrypt_spec st m L). cbn [snd].
  rewrite chacha_encrypt_spec by exact L. cbn [snd].
  split; [apply stream_xor_invol|]. unfold len. now rewrite stream_xor_length.
Qed.

Lemma c06_defined : forall rnd key nonce counter,
  len key = 32 -> len nonce = 12 ->
  exists st, chacha_init rnd key counter (Some nonce) = Ok st.
Proof. intros. eexists. apply chacha_init_spec; auto. Qed.

Lemma c07_quarter_round : forall a b c d, word a -> word b -> word c -> word d ->
  chacha_q_round a b c d = QR a b c d.
Proof. intros. apply q_round_spec; auto. Qed.

Lemma c07_inner_block : forall st, length st = 16%nat -> Forall word st ->
  inner_block st = double_round st.
Proof. intros st L W. exact (proj1 (inner_block_spec st L W)). Qed.

Lemma c07_block : forall rnd key nonce counter,
  octets key -> octets nonce -> len key = 32 -> len nonce = 12 -> word counter ->
  exists st, chacha_init rnd key counter (Some nonce) = Ok st /\
  chacha20_block st = rfc_block key counter nonce.
Proof.
  intros rnd key nonce counter Hk Hn Lk Ln Hc. exists (rfc_state key counter nonce).
  split; [apply chacha_init_spec; auto|apply block_rfc; auto].
Qed.

Lemma c07_encrypt : forall rnd key nonce counter m,
  octets key -> octets nonce -> len key = 32 -> len nonce = 12 ->
  0 <= counter -> counter + nblocks m <= 2 ^ 32 ->
  exists st, chacha_init rnd key counter (Some nonce) = Ok st /\
  snd (chacha_encrypt st m) = rfc_encrypt key counter nonce m.
Proof.
  intros rnd key nonce counter m Hk Hn Lk Ln Hc Hb. exists (rfc_state key counter nonce).
  split; [apply chacha_init_spec; auto|]. rewrite encrypt_rfc_gen by auto. reflexivity.
Qed.

Lemma c08_history : forall rnd key nonce counter calls,
  octets key -> octets nonce -> len key = 32 -> len nonce = 12 ->
  0 <= counter -> counter + total_blocks calls <= 2 ^ 32 ->
  exists st, chacha_init rnd key counter (Some nonce) = Ok st /\
  snd (run_calls chacha_encrypt chacha_decrypt st calls) = rfc_history key counter nonce calls.
Proof.
  intros rnd key nonce counter calls Hk Hn Lk Ln Hc Hb. exists (rfc_state key counter nonce).
  split; [apply chacha_init_spec; auto|]. rewrite run_calls_spec by auto. reflexivity.
Qed.

Lemma c08_call_position : forall rnd key nonce counter calls k x,
  octets key -> octets nonce -> len key = 32 -> len nonce = 12 ->
  0 <= counter -> counter + total_blocks calls <= 2 ^ 32 ->
  nth_error calls k = Some x ->
  exists st, chacha_init rnd key counter (Some nonce) = Ok st /\
  nth_error (snd (run_calls chacha_encrypt chacha_decrypt st calls)) k =
  Some (rfc_encrypt key (counter + total_blocks (firstn k calls)) nonce (payload x)).
Proof.
  intros rnd key nonce counter calls k x Hk Hn Lk Ln Hc Hb Hx. exists (rfc_state key counter nonce).
  split; [apply chacha_init_spec; auto|]. rewrite run_calls_spec by auto.
  exact (rfc_history_nth key nonce calls counter k x Hx).
Qed.

Lemma c09_split_elsewhere_refuted : exists st m1 m2, length st = 16%nat /\
  chacha_init [] (repeat 0 32) 1 (Some (repeat 0 12)) = Ok st /\
  let '(st1, c1) := chacha_encrypt st m1 in
  let '(st2, c2) := chacha_encrypt st1 m2 in
  snd (chacha_encrypt st (m1 ++ m2)) <> c1 ++ c2.
Proof.
  destruct (chacha_init [] (repeat 0 32) 1 (Some (repeat 0 12))) as [st|e] eqn:E; [|vm_compute in E; discriminate].
  exists st, [1], [2]. vm_compute in E. injection E as <-. split; [reflexivity|]. split; [reflexivity|].
  vm_compute. discriminate.
Qed.

Lemma c10_counter_wraps_refuted : exists key nonce counter m st st' c i,
  octets key /\ octets nonce /\ len key = 32 /\ len nonce = 12 /\ word counter /\
  chacha_init [] key counter (Some nonce) = Ok st /\
  chacha_encrypt st m = (st', c) /\
  (i < length m)%nat /\
  nth i c 0 <> Z.lxor (nth i m 0)
    (nth (i mod 64) (rfc_block key ((counter + Z.of_nat (i / 64)) mod 2 ^ 32) nonce) 0).
Proof.
  exists (1 :: repeat 0 31), (repeat 0 12), (2 ^ 32 - 1), (repeat 0 65).
  eexists. eexists. eexists. exists 64%nat.
  split; [unfold octets; try apply Forall_cons; [unfold is_octet; lia|]; apply Forall_forall; intros x Hx; apply repeat_spec in Hx; subst; unfold is_octet; lia|].
  split; [unfold octets; apply Forall_forall; intros x Hx; apply repeat_spec in Hx; subst; unfold is_octet; lia|].
  split; [reflexivity|]. split; [reflexivity|]. split; [unfold word; lia|].
  split; [reflexivity|]. split; [vm_compute; reflexivity|]. split; [apply Nat.ltb_lt; reflexivity|]. vm_compute. discriminate.
Qed.

Lemma c11_accepted_iff : forall rnd key counter nonce, len rnd = 12 ->
  ((exists st, chacha_init rnd key counter (Some nonce) = Ok st) <->
   len key = 32 /\ (len nonce = 12 \/ nonce = [])) /\
  (forall e, chacha_init rnd key counter (Some nonce) = Raise e -> e = AssertionError).
Proof.
  intros rnd key counter nonce Hr. unfold chacha_init.
  assert (G : forall n e, initialize key counter n = Raise e -> e = AssertionError).
  { intros n e. unfold initialize, py_assert. destruct (len key =? 32); cbn [bind]; [|congruence].
    destruct (len n =? 12); cbn [bind]; congruence. }
  split; [|destruct nonce; apply G]. split.
  - intros [st H]. destruct nonce as [|b t].
    + apply initialize_ok in H as (Hk & _ & _). auto.
    + apply initialize_ok in H as (Hk & Hn & _). auto.
  - intros [Hk Hn]. destruct nonce as [|b t]; eexists; apply initialize_spec; auto.
    destruct Hn; [auto|discriminate].
Qed.

Lemma c11_empty_nonce_refuted : exists rnd key st,
  chacha_init rnd key 1 (Some []) = Ok st.
Proof. exists (repeat 0 12), (repeat 0 32). eexists. reflexivity. Qed.

Lemma c11_aead_empty_nonce_refuted : exists r1 r2 r3 key c1 c2 t1 t2,
  aead_encrypt r1 r2 key [] [] [] [65; 66] = Ok (c1, t1) /\
  aead_encrypt r1 r3 key [] [] [] [65; 66] = Ok (c2, t2) /\ c1 <> c2.
Proof.
  exists (repeat 0 12), (repeat 0 12), (repeat 1 12), (repeat 0 32). do 4 eexists.
  split; [vm_compute; reflexivity|]. split; [vm_compute; reflexivity|]. discriminate.
Qed.

Lemma c11_aead_rejects : forall r1 r2 key constant aad iv pt,
  constant ++ iv <> [] -> len key <> 32 \/ len (constant ++ iv) <> 12 ->
  aead_encrypt r1 r2 key constant aad iv pt = Raise AssertionError.
Proof.
  intros r1 r2 key constant aad iv pt HN H. unfold aead_encrypt, poly1305_key_gen. cbv zeta.
  assert (E : chacha_init r1 key 0 (Some (constant ++ iv)) = Raise AssertionError).
  { unfold chacha_init. destruct (constant ++ iv) as [|b t]; [congruence|].
    unfold initialize, py_assert. destruct (len key =? 32) eqn:E1; cbn [bind]; [|reflexivity].
    destruct (len (b :: t) =? 12) eqn:E2; cbn [bind]; [|reflexivity]. lia. }
  rewrite E. reflexivity.
Qed.

Lemma c12_word_function_bijective : forall a b c d,
  word a -> word b -> word c -> word d ->
  (exists a' b' c' d', word a' /\ word b' /\ word c' /\ word d' /\
     chacha_q_round a' b' c' d' = (a, b, c, d)) /\
  (forall a' b' c' d', word a' -> word b' -> word c' -> word d' ->
     chacha_q_round a b c d = chacha_q_round a' b' c' d' -> (a, b, c, d) = (a', b', c', d')).
Proof.
  intros. split; [apply q_round_surj; auto|]. intros. apply q_round_inj; auto.
Qed.

Lemma c13_poly1305 : forall msg key, octets key -> len key = 32 ->
  poly1305_mac msg key = Ok (rfc_poly1305 msg key).
Proof. intros. apply poly_mac_spec; auto. lia. Qed.

Lemma c13_tag_size : forall msg key tag, len key = 32 ->
  poly1305_mac msg key = Ok tag -> len tag = 16 /\ octets tag.
Proof.
  intros msg key tag HL H. destruct (proj2 (poly_mac_key msg key) ltac:(lia)) as (t & E & R).
  rewrite E in H. injection H as <-. exact R.
Qed.

Lemma c15_wrong_size_refuted : exists msg key tag, octets key /\ len key <> 32 /\
  poly1305_mac msg key = Ok tag.
Proof.
  exists [1; 2; 3], (repeat 5 17). eexists.
  split; [unfold octets; apply Forall_forall; intros x Hx; apply repeat_spec in Hx; subst; unfold is_octet; lia|].
  split; [discriminate|]. vm_compute. reflexivity.
Qed.

Lemma c15_extra_octets_ignored : forall msg key extra, octets key -> octets extra -> len key = 32 ->
  poly1305_mac msg (key ++ extra) = poly1305_mac msg key.
Proof.
  intros msg key extra Hk He HL.
  do 32 (destruct key as [|? key]; [discriminate HL|]).
  destruct key; [|unfold len in HL; cbn [length] in HL; lia]. reflexivity.
Qed.

Lemma c16_decrypt_recovers : forall rnd1 rnd2 rnd3 rnd4 key constant aad iv pt ct tag,
  octets key -> octets constant -> octets iv -> len key = 32 -> len (constant ++ iv) = 12 ->
  1 + nblocks pt <= 2 ^ 32 ->
  aead_encrypt rnd1 rnd2 key constant aad iv pt = Ok (ct, tag) ->
  exists tag', aead_decrypt rnd3 rnd4 key constant aad iv ct = Ok (pt, tag').
Proof.
  intros rnd1 rnd2 rnd3 rnd4 key constant aad iv pt ct tag Hk Hc Hi HL HN HB H.
  rewrite aead_spec in H by auto. unfold rfc_aead in H. injection H as E _.
  assert (Lc : length ct = length pt) by (rewrite <- E; apply rfc_encrypt_length).
  unfold aead_decrypt. rewrite aead_spec by (auto; rewrite (nblocks_length ct pt Lc); auto).
  unfold rfc_aead. eexists. f_equal. f_equal. rewrite <- E. apply rfc_encrypt_invol.
Qed.

Lemma c17_never_rejects : forall rnd1 rnd2 key constant aad iv ct,
  octets key -> octets constant -> octets iv -> len key = 32 -> len (constant ++ iv) = 12 ->
  exists pt tag, aead_decrypt rnd1 rnd2 key constant aad iv ct = Ok (pt, tag).
Proof.
  intros rnd1 rnd2 key constant aad iv ct Hk Hc Hi HL HN.
  assert (On : octets (constant ++ iv)) by (apply octets_app; auto).
  unfold aead_decrypt, aead_encrypt.
  pose proof (key_gen_spec rnd1 key _ Hk On HL HN) as E1.
  pose proof (chacha_init_spec rnd2 key 1 _ HL HN) as E2.
  pose proof (proj2 (otk_ok key _ Hk On)) as O2.
  revert E1 E2 O2.
  generalize (poly1305_key_gen rnd1 key (constant ++ iv)).
  generalize (chacha_init rnd2 key 1 (Some (constant ++ iv))).
  generalize (rfc_state key 1 (constant ++ iv)).
  generalize (firstn 32 (rfc_block key 0 (constant ++ iv))).
  intros otk st r1 r2 -> -> O2. cbv zeta. cbn [bind].
  generalize (snd (chacha_encrypt st ct)). intros pt.
  destruct (proj2 (poly_mac_key (mac_data aad pt) otk) ltac:(lia)) as (t & E & _).
  rewrite E. cbn [bind]. exists pt, t. reflexivity.
Qed.

Lemma c17_tag_recomputed_refuted : exists key constant aad iv pt ct tag tag',
  aead_encrypt [] [] key constant aad iv pt = Ok (ct, tag) /\
  aead_decrypt [] [] key constant aad iv ct = Ok (pt, tag') /\ tag <> tag'.
Proof.
  exists (repeat 1 32), [7;0;0;0], [80;81], (repeat 2 8), [76;97]. do 3 eexists.
  split; [vm_compute; reflexivity|]. split; [vm_compute; reflexivity|]. discriminate.
Qed.

Lemma c19_unusable_refuted : forall key constant aad iv pt,
  (exists e, chacha_poly_aead_encrypt key constant aad iv pt = Raise e) /\
  (exists e, chacha_poly_aead_decrypt key constant aad iv = Raise e).
Proof. intros. split; eexists; reflexivity. Qed.
