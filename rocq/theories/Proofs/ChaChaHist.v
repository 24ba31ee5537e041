From Verif Require Import Proofs.Tac Proofs.Bits Model.Encoding Model.ChaCha
  Spec.EncodingSpec Spec.ChaChaSpec Proofs.EncodingProofs Proofs.ChaChaProofs Proofs.ChaChaInv Proofs.PolyProofs.
Local Open Scope Z_scope.
Local Opaque rfc_block rfc_encrypt chacha20_block inner_block quarter_round rfc_state.

(** ** histories of calls on one object *)
Definition call_one (st : list Z) (c : call) : list Z * str :=
  match c with Encrypt m => chacha_encrypt st m | Decrypt m => chacha_decrypt st m end.

Lemma run_calls_spec key nonce : octets key -> octets nonce -> forall calls c,
  0 <= c -> c + total_blocks calls <= 2 ^ 32 ->
  run_calls chacha_encrypt chacha_decrypt (rfc_state key c nonce) calls =
  (rfc_state key (c + total_blocks calls) nonce, rfc_history key c nonce calls).
Proof.
  intros Hk Hn. unfold total_blocks. induction calls as [|x calls IH]; intros c Hc Hb.
  - cbn [run_calls rfc_history map zsum]. rewrite Z.add_0_r. reflexivity.
  - cbn [run_calls rfc_history map zsum] in *.
    assert (Hnn : forall l : list call, 0 <= zsum (map (fun x => nblocks (payload x)) l)).
    { induction l; cbn [map zsum]; [lia|]. unfold nblocks in *. lia. }
    specialize (Hnn calls).
    assert (E : (match x with Encrypt m => chacha_encrypt (rfc_state key c nonce) m
                | Decrypt m => chacha_decrypt (rfc_state key c nonce) m end)
               = (rfc_state key (c + nblocks (payload x)) nonce, rfc_encrypt key c nonce (payload x))).
    { destruct x; unfold chacha_decrypt; apply encrypt_rfc_gen; auto; cbn [payload] in *; lia. }
    rewrite E. rewrite IH by (unfold nblocks in *; lia). f_equal. f_equal. lia.
Qed.

Lemma rfc_history_nth key nonce : forall calls c k x,
  nth_error calls k = Some x ->
  nth_error (rfc_history key c nonce calls) k =
  Some (rfc_encrypt key (c + total_blocks (firstn k calls)) nonce (payload x)).
Proof.
  unfold total_blocks. induction calls as [|y calls IH]; intros c [|k] x H; try discriminate.
  - injection H as ->. cbn [nth_error rfc_history firstn map zsum]. rewrite Z.add_0_r. reflexivity.
  - cbn [nth_error rfc_history firstn map zsum] in *. rewrite (IH _ _ _ H). rewrite Z.add_assoc. reflexivity.
Qed.

Lemma total_blocks_app a b : total_blocks (a ++ b) = total_blocks a + total_blocks b.
Proof. unfold total_blocks. rewrite map_app, zsum_app. reflexivity. Qed.

Lemma total_blocks_nonneg l : 0 <= total_blocks l.
Proof. unfold total_blocks. induction l; cbn [map zsum]; [lia|]. unfold nblocks in *. lia. Qed.

Lemma total_blocks_mono calls j k x : (j < k)%nat -> nth_error calls j = Some x ->
  total_blocks (firstn j calls) + nblocks (payload x) <= total_blocks (firstn k calls).
Proof.
  revert j k; induction calls as [|y calls IH]; intros [|j] [|k] Hjk H; try discriminate; try lia.
  - injection H as ->. unfold total_blocks. cbn [firstn map zsum].
    pose proof (total_blocks_nonneg (firstn k calls)). unfold total_blocks in *. lia.
  - cbn [nth_error] in H. cbn [firstn]. unfold total_blocks in *. cbn [map zsum].
    specialize (IH j k ltac:(lia) H). lia.
Qed.

(** counters advance by the number of blocks whatever the counter is *)
Lemma run_calls_counter : forall calls st, length st = 16%nat ->
  let st' := fst (run_calls chacha_encrypt chacha_decrypt st calls) in
  length st' = 16%nat /\ get st' 12 = get st 12 + total_blocks calls /\
  forall i, i <> 12%nat -> get st' i = get st i.
Proof.
  unfold total_blocks. induction calls as [|x calls IH]; intros st HL.
  - cbn [run_calls fst map zsum]. rewrite Z.add_0_r. auto.
  - cbn [run_calls map zsum].
    assert (E : (match x with Encrypt m => chacha_encrypt st m
                | Decrypt m => chacha_decrypt st m end)
               = (set st 12 (get st 12 + nblocks (payload x)),
                  stream_xor (fun k => chacha20_block (set st 12 (get st 12 + Z.of_nat k))) (payload x))).
    { destruct x; unfold chacha_decrypt; apply chacha_encrypt_spec; auto. }
    rewrite E. specialize (IH (set st 12 (get st 12 + nblocks (payload x))) ltac:(rewrite set_length; auto)).
    destruct (run_calls _ _ (set st 12 _) calls) as [st' out]. cbn [fst] in *.
    destruct IH as (L & G & O). split; [exact L|]. split.
    + rewrite G, get_set by lia. lia.
    + intros i Hi. rewrite O by auto. apply get_set_other. auto.
Qed.

(** ** splitting *)
Lemma stream_xor_app ks m1 m2 : (64 | Z.of_nat (length m1)) ->
  stream_xor ks (m1 ++ m2) =
  stream_xor ks m1 ++ stream_xor (fun k => ks (length m1 / 64 + k)%nat) m2.
Proof.
  intros [q Hq]. apply (nth_ext _ _ 0 0).
  - rewrite app_length, !stream_xor_length, app_length. reflexivity.
  - intros i Hi. rewrite stream_xor_length, app_length in Hi.
    rewrite stream_xor_nth by (rewrite app_length; lia).
    assert (E : length m1 = (Z.to_nat q * 64)%nat) by lia.
    destruct (lt_dec i (length m1)).
    + rewrite (app_nth1 (stream_xor ks m1)) by (rewrite stream_xor_length; auto).
      rewrite stream_xor_nth, app_nth1 by auto. reflexivity.
    + rewrite (app_nth2 (stream_xor ks m1)) by (rewrite stream_xor_length; lia).
      rewrite stream_xor_length, stream_xor_nth, app_nth2 by lia.
      f_equal. rewrite E. rewrite Nat.div_mul by lia.
      remember (i - Z.to_nat q * 64)%nat as j. replace i with (j + Z.to_nat q * 64)%nat by lia.
      rewrite Nat.mod_add, Nat.div_add by lia. f_equal. f_equal. lia.
Qed.

Lemma encrypt_split st m1 m2 : length st = 16%nat ->
  (64 | Z.of_nat (length m1)) \/ m2 = [] ->
  let '(st1, c1) := chacha_encrypt st m1 in
  let '(st2, c2) := chacha_encrypt st1 m2 in
  chacha_encrypt st (m1 ++ m2) = (st2, c1 ++ c2).
Proof.
  intros HL H. rewrite !chacha_encrypt_spec by (rewrite ?set_length; auto).
  destruct H as [H| ->].
  - rewrite set_set, get_set by lia. f_equal.
    + destruct H as [q Hq]. f_equal. unfold nblocks. rewrite app_length. lia.
    + rewrite stream_xor_app by auto. f_equal. apply stream_xor_ext. intros k Hk.
      rewrite set_set. destruct H as [q Hq]. f_equal. f_equal.
      unfold nblocks. lia.
  - assert (E : forall ks, stream_xor ks [] = []) by reflexivity.
    rewrite E, !app_nil_r, set_set, get_set by lia.
    change (nblocks []) with 0. rewrite Z.add_0_r. reflexivity.
Qed.
