From Verif Require Import Proofs.Tac Proofs.Bits Model.Encoding Model.CmacSiv
  Spec.EncodingSpec Spec.CmacSivSpec Proofs.EncodingProofs Proofs.CmacSivProofs.
Local Open Scope Z_scope.

(** an external cipher module with 16-octet blocks *)
Record block_cipher (A : cipher) : Prop := {
  bc_size : block_size A = 16;
  bc_good : forall key, valid_key A key = true -> good_cipher (encrypt_block A key) }.

Lemma block_cipher_like A key : block_cipher A -> valid_key A key = true -> aes_like A key.
Proof. intros [H1 H2] H. constructor; auto. Qed.

Lemma cmac_valid A key M t : aes_cmac A key M A = Ok t -> valid_key A key = true.
Proof. unfold aes_cmac, cipher_new. destruct (valid_key A key); [auto|discriminate]. Qed.

Definition strings (l : list str) : Prop := Forall octets l.

Lemma s2v_loop_ok A key : aes_like A key -> forall ads d r, strings ads -> octets d -> len d = 16 ->
  s2v_loop A key d ads = Ok r ->
  octets r /\ len r = 16 /\
  forall sn, s2v_chain (encrypt_block A key) d ads sn = s2v_chain (encrypt_block A key) r [] sn.
Proof.
  intros HA. induction ads as [|a ads IH]; intros d r Hs Hd Ld H.
  - injection H as <-. auto.
  - cbn [s2v_loop] in H. rewrite dbl_spec in H by auto. cbn [bind] in H.
    inversion Hs as [|? ? Ha Hads]; subst.
    destruct (aes_cmac A key a A) as [c|e] eqn:Ec; cbn [bind] in H; [|discriminate].
    apply cmac_ok in Ec as (-> & Oc & Lc); auto.
    destruct (gf_double_ok d) as [L2 O2]. rewrite xor_ok in H by lia. cbn [bind] in H.
    destruct (octets16_xor (gf_double d) (rfc_cmac (encrypt_block A key) a)) as [X1 X2]; auto.
    apply IH in H as (R1 & R2 & R3); auto.
Qed.

Lemma s2v_ok A key ads sn v : aes_like A key -> strings ads -> octets sn ->
  s2v A key (ads ++ [sn]) = Ok v ->
  v = rfc_s2v (encrypt_block A key) ads sn /\ octets v /\ len v = 16.
Proof.
  intros HA Hads Hsn H. unfold s2v in H.
  destruct (ads ++ [sn]) as [|y l] eqn:E; [destruct ads; discriminate|]. rewrite <- E in H. clear E y l.
  rewrite removelast_last, last_last in H.
  change (str_repeat 0 16) with zero16 in H.
  destruct (aes_cmac A key zero16 A) as [d|e] eqn:Ed; cbn [bind] in H; [|discriminate].
  apply cmac_ok in Ed as (-> & Od & Ld); auto; [|apply zeros16_ok].
  destruct (s2v_loop A key _ ads) as [r|e] eqn:Er; cbn [bind] in H; [|discriminate].
  apply s2v_loop_ok in Er as (Or & Lr & Cr); auto.
  unfold rfc_s2v. rewrite Cr. cbn [s2v_chain].
  destruct (16 <=? len sn) eqn:B.
  - replace (16 <=? length sn)%nat with true by (unfold len in B; symmetry; apply Nat.leb_le; lia).
    assert (LS : len (slice_from sn (len sn - 16)) = 16) by (unfold slice_from; rewrite len_skipn; lia).
    assert (OS : octets (slice_from sn (len sn - 16))) by (apply octets_skipn; auto).
    rewrite xor_ok in H by lia. cbn [bind] in H.
    assert (EX : slice sn 0 (len sn - 16) ++ xor_zip (slice_from sn (len sn - 16)) r = xorend sn r).
    { unfold xorend. rewrite slice_0_firstn. change xor_octets with xor_zip. unfold slice_from.
      replace (Z.to_nat (len sn - 16)) with (length sn - 16)%nat by (unfold len; lia). reflexivity. }
    rewrite EX in H. apply cmac_ok in H; auto.
    rewrite <- EX. apply octets_app. split; [rewrite slice_0_firstn; apply octets_firstn; auto|].
    apply xor_zip_octets; auto.
  - replace (16 <=? length sn)%nat with false by (unfold len in B; symmetry; apply Nat.leb_gt; lia).
    rewrite dbl_spec in H by auto. cbn [bind] in H.
    rewrite pad_pad10 in H by (unfold len in B; lia).
    destruct (pad10_ok sn Hsn ltac:(unfold len in B; lia)) as [P1 P2].
    destruct (gf_double_ok r) as [G1 G2].
    rewrite xor_ok in H by lia. cbn [bind] in H. apply cmac_ok in H; auto.
    apply xor_zip_octets; auto.
Qed.

Lemma s2v_empty A key v : aes_like A key -> s2v A key [] = Ok v ->
  v = rfc_cmac (encrypt_block A key) (repeat 0 15 ++ [1]).
Proof.
  intros HA H. unfold s2v in H. change (str_repeat 0 15) with (repeat 0 15) in H.
  apply cmac_ok in H; [tauto|auto|]. apply octets_app. split.
  - apply (octets_repeat 0 15). unfold is_octet; lia.
  - constructor; [unfold is_octet; lia|constructor].
Qed.

(** ** counter mode *)
Lemma int_to_string_16 x : 0 <= x < 2 ^ 128 -> int_to_string x (Some 16) = Ok (be_octets 16 x).
Proof.
  intros Hx. destruct (int_to_string_pad x 16 ltac:(lia) ltac:(lia) ltac:(rewrite pow256_16; lia))
    as (t & -> & Ht & Lt & Vt).
  f_equal. rewrite <- Vt. symmetry. apply be_octets_unique; auto. unfold len in Lt; lia.
Qed.

Lemma ctr_loop_ok n : forall i q E x, 0 <= q + i -> q + i + Z.of_nat n <= 2 ^ 128 ->
  ctr_loop n i q E x = Ok (x ++ concat (map (fun k => E (be_octets 16 (q + i + Z.of_nat k))) (seq 0 n))).
Proof.
  induction n as [|n IH]; intros i q E x H0 H.
  - cbn [ctr_loop seq map concat]. now rewrite app_nil_r.
  - cbn [ctr_loop]. rewrite int_to_string_16 by lia. cbn [bind].
    rewrite IH by lia. f_equal. cbn [seq map concat]. rewrite <- seq_shift, map_map, <- app_assoc.
    rewrite Z.add_0_r. f_equal. f_equal. f_equal. apply map_ext. intros k. f_equal. f_equal. lia.
Qed.

Lemma ctr_loop_octets n : forall i q E x r, good_cipher E -> octets x -> 0 <= q + i ->
  ctr_loop n i q E x = Ok r -> octets r /\ len r = len x + 16 * Z.of_nat n.
Proof.
  induction n as [|n IH]; intros i q E x r HE Hx H0 H.
  - injection H as <-. split; auto. lia.
  - cbn [ctr_loop] in H. destruct (int_to_string (q + i) (Some 16)) as [b|e] eqn:Eb; cbn [bind] in H; [|discriminate].
    assert (Hb : octets b /\ len b = 16).
    { destruct (Z.lt_ge_cases (q + i) (256 ^ 16)) as [L|L].
      - destruct (int_to_string_pad (q + i) 16) as (t & Et & O & Lt & _); try lia.
        rewrite Et in Eb. injection Eb as <-. auto.
      - rewrite int_to_string_too_long in Eb by lia. discriminate. }
    destruct (HE b (proj1 Hb) (proj2 Hb)) as [O1 O2].
    apply IH in H as [R1 R2]; auto; [|apply octets_app; auto|lia].
    split; auto. rewrite R2, len_app. lia.
Qed.

Lemma concat16_nth (f : nat -> str) n : (forall k, length (f k) = 16%nat) -> forall i, (i < 16 * n)%nat ->
  nth i (concat (map f (seq 0 n))) 0 = nth (i mod 16) (f (i / 16)%nat) 0.
Proof.
  revert f. induction n as [|n IH]; intros f Hf i Hi; [lia|].
  cbn [seq map concat]. destruct (lt_dec i 16).
  - rewrite app_nth1 by (rewrite Hf; lia). rewrite Nat.mod_small, Nat.div_small by lia. reflexivity.
  - rewrite app_nth2 by (rewrite Hf; lia). rewrite Hf, <- seq_shift, map_map.
    rewrite (IH (fun k => f (S k))) by (auto; lia).
    replace i with (i - 16 + 1 * 16)%nat at 3 4 by lia.
    rewrite Nat.mod_add, Nat.div_add by lia. rewrite Nat.add_1_r. reflexivity.
Qed.
Lemma concat16_length (f : nat -> str) n : (forall k, length (f k) = 16%nat) ->
  length (concat (map f (seq 0 n))) = (16 * n)%nat.
Proof.
  intros Hf. enough (G : forall a, length (concat (map f (seq a n))) = (16 * n)%nat) by apply G.
  induction n as [|n IH]; intros a; [reflexivity|].
  cbn [seq map concat]. rewrite app_length, Hf, IH. lia.
Qed.

Lemma xor_zip_nth_d a b i : (i < length a)%nat -> (i < length b)%nat ->
  nth i (xor_zip a b) 0 = Z.lxor (nth i a 0) (nth i b 0).
Proof.
  revert b i; induction a as [|x a IH]; intros [|y b] [|i]; cbn; intros; try lia; auto.
  apply IH; lia.
Qed.

Lemma nth_map_seq {A} (f : nat -> A) d n i : (i < n)%nat -> nth i (map f (seq 0 n)) d = f i.
Proof.
  intros H. rewrite (nth_indep _ d (f 0%nat)) by (rewrite map_length, seq_length; auto).
  rewrite map_nth, seq_nth by auto. reflexivity.
Qed.
Lemma nth_firstn_lt {A} (d : A) n i l : (i < n)%nat -> nth i (firstn n l) d = nth i l d.
Proof. revert i l; induction n; intros [|i] [|x l] H; cbn; auto; try lia. apply IHn. lia. Qed.

Lemma siv_ctr_spec E q m : good_cipher E ->
  xor_zip m (firstn (length m)
    (concat (map (fun k => E (be_octets 16 (q + 0 + Z.of_nat k))) (seq 0 (Z.to_nat ((len m + 16 - 1) / 16))))))
  = siv_ctr E q m.
Proof.
  intros HE.
  set (n := Z.to_nat ((len m + 16 - 1) / 16)).
  assert (Hn : (length m <= 16 * n)%nat) by (unfold n, len; lia).
  assert (Hf : forall k : nat, length (E (be_octets 16 (q + 0 + Z.of_nat k))) = 16%nat).
  { intros k. destruct (HE (be_octets 16 (q + 0 + Z.of_nat k)) (be_octets_octets _ _)) as [_ L].
    - unfold len. rewrite be_octets_length. reflexivity.
    - unfold len in L. lia. }
  pose proof (concat16_length (fun k => E (be_octets 16 (q + 0 + Z.of_nat k))) n Hf) as HLc.
  apply (nth_ext _ _ 0 0).
  - unfold siv_ctr. rewrite map_length, seq_length.
    assert (G : forall a b : str, length (xor_zip a b) = Nat.min (length a) (length b)).
    { induction a; intros [|y b]; cbn; auto. }
    rewrite G, firstn_length, HLc. lia.
  - intros i Hi.
    assert (Hi' : (i < length m)%nat).
    { assert (G : forall a b : str, (length (xor_zip a b) <= length a)%nat).
      { induction a as [|u a IHa]; intros [|y b]; cbn; try lia. specialize (IHa b). lia. }
      specialize (G m (firstn (length m) (concat (map (fun k => E (be_octets 16 (q + 0 + Z.of_nat k))) (seq 0 n))))).
      lia. }
    rewrite xor_zip_nth_d by (rewrite ?firstn_length, ?HLc; lia).
    unfold siv_ctr. rewrite nth_map_seq by auto. f_equal.
    rewrite nth_firstn_lt by auto.
    rewrite (concat16_nth (fun k => E (be_octets 16 (q + 0 + Z.of_nat k)))) by (auto; lia).
    unfold siv_key_octet. rewrite Z.add_0_r. reflexivity.
Qed.

(** ** the initial counter *)
Lemma clear_bit n k : 0 <= k -> n - (n / 2 ^ k mod 2) * 2 ^ k = Z.ldiff n (2 ^ k).
Proof.
  intros Hk. rewrite <- Z.testbit_spec' by lia. destruct (Z.testbit n k) eqn:T; cbn [Z.b2z].
  - rewrite Z.mul_1_l. apply Z.sub_nocarry_ldiff.
    apply Z.bits_inj'. intros i Hi. rewrite Z.ldiff_spec, Z.pow2_bits_eqb, Z.bits_0 by lia.
    destruct (k =? i) eqn:E; [|reflexivity]. apply Z.eqb_eq in E. subst. now rewrite T.
  - rewrite Z.mul_0_l, Z.sub_0_r. symmetry.
    apply Z.bits_inj'. intros i Hi. rewrite Z.ldiff_spec, Z.pow2_bits_eqb by lia.
    destruct (k =? i) eqn:E; [|now rewrite andb_true_r]. apply Z.eqb_eq in E. subst. now rewrite T.
Qed.

Lemma siv_q_code v : octets v -> len v = 16 -> Z.land (string_to_int v) siv_mask = siv_q v.
Proof.
  intros Hv Lv. rewrite string_to_int_value. pose proof (str16_range v Hv Lv) as R.
  unfold siv_q. set (n := be_value 256 v) in *.
  assert (E63 : n / 2 ^ 63 mod 2 = (n - n / 2 ^ 31 mod 2 * 2 ^ 31) / 2 ^ 63 mod 2).
  { rewrite clear_bit by lia. rewrite <- !Z.testbit_spec' by lia. rewrite Z.ldiff_spec, Z.pow2_bits_eqb by lia.
    cbn. now rewrite andb_true_r. }
  rewrite E63, (clear_bit (n - _)) by lia. rewrite clear_bit by lia.
  apply Z.bits_inj'. intros i Hi. rewrite Z.land_spec, !Z.ldiff_spec.
  replace siv_mask with (Z.ldiff (Z.ldiff (Z.ones 128) (2 ^ 31)) (2 ^ 63)) by reflexivity.
  rewrite !Z.ldiff_spec, Z.testbit_ones_nonneg by lia.
  destruct (i <? 128) eqn:E; cbn [andb]; [now rewrite andb_assoc|].
  rewrite (testbit_small n 128 i) by lia. reflexivity.
Qed.

Lemma siv_q_range v : octets v -> len v = 16 -> 0 <= siv_q v /\ siv_q v < 2 ^ 128 - 2 ^ 31 /\ siv_q v mod 2 ^ 32 < 2 ^ 31.
Proof.
  intros Hv Lv. pose proof (str16_range v Hv Lv) as R. unfold siv_q. set (n := be_value 256 v) in *.
  change (2 ^ 31) with 2147483648. change (2 ^ 32) with 4294967296.
  change (2 ^ 63) with 9223372036854775808. change (2 ^ 128) with 340282366920938463463374607431768211456 in *.
  assert (D : n = n mod 2147483648 + 2147483648 * (n / 2147483648 mod 2) + 4294967296 * (n / 4294967296)).
  { pose proof (Z.div_mod n 2147483648 ltac:(lia)). pose proof (Z.div_mod (n / 2147483648) 2 ltac:(lia)).
    rewrite Z.div_div in H0 by lia. change (2147483648 * 2) with 4294967296 in H0. lia. }
  assert (D2 : n / 4294967296 = (n / 4294967296) mod 2147483648 + 2147483648 * (n / 9223372036854775808)).
  { pose proof (Z.div_mod (n / 4294967296) 2147483648 ltac:(lia)).
    rewrite Z.div_div in H by lia. change (4294967296 * 2147483648) with 9223372036854775808 in H. lia. }
  assert (D3 : n / 9223372036854775808 = n / 9223372036854775808 mod 2 + 2 * (n / 18446744073709551616)).
  { pose proof (Z.div_mod (n / 9223372036854775808) 2 ltac:(lia)).
    rewrite Z.div_div in H by lia. change (9223372036854775808 * 2) with 18446744073709551616 in H. lia. }
  pose proof (Z.mod_pos_bound n 2147483648 ltac:(lia)).
  pose proof (Z.mod_pos_bound (n / 2147483648) 2 ltac:(lia)).
  pose proof (Z.mod_pos_bound (n / 9223372036854775808) 2 ltac:(lia)).
  pose proof (Z.mod_pos_bound (n / 4294967296) 2147483648 ltac:(lia)).
  assert (Q : n - n / 2147483648 mod 2 * 2147483648 - n / 9223372036854775808 mod 2 * 9223372036854775808
    = n mod 2147483648 + 4294967296 * (n / 4294967296 mod 2147483648 + 4294967296 * (n / 18446744073709551616))) by lia.
  rewrite Q.
  assert (0 <= n / 18446744073709551616 < 18446744073709551616).
  { split; [apply Z.div_pos; lia|apply Z.div_lt_upper_bound; lia]. }
  split; [lia|]. split; [lia|].
  rewrite Z.mul_comm, Z.mod_add by lia. rewrite Z.mod_small by lia. lia.
Qed.

(** ** SIV *)
Lemma len_le {A B} (a : list A) (b : list B) : len a <= len b -> (length a <= length b)%nat.
Proof. unfold len. lia. Qed.
Lemma slice_app_l {A} (a b : list A) n : len a = n -> slice (a ++ b) 0 n = a.
Proof.
  intros H. rewrite slice_0_firstn. subst n. unfold len. rewrite Nat2Z.id, firstn_app, Nat.sub_diag, firstn_O, app_nil_r.
  apply firstn_all.
Qed.
Lemma slice_from_app {A} (a b : list A) n : len a = n -> slice_from (a ++ b) n = b.
Proof.
  intros H. unfold slice_from. subst n. unfold len. rewrite Nat2Z.id, skipn_app, Nat.sub_diag, skipn_O.
  now rewrite skipn_all.
Qed.

Lemma s2v_valid A key ads v : s2v A key ads = Ok v -> valid_key A key = true.
Proof.
  unfold s2v. destruct ads as [|a ads]; [apply cmac_valid|].
  destruct (aes_cmac A key (str_repeat 0 16) A) eqn:E; [|discriminate]. intros _. apply cmac_valid in E. auto.
Qed.

Definition key1_of (key : str) := slice key 0 (len key / 2).
Definition key2_of (key : str) := slice_last key (len key / 2).

Lemma siv_roundtrip A key pt ads c : block_cipher A -> octets pt -> strings ads ->
  siv_encrypt A key pt ads = Ok c -> siv_decrypt A key c ads = Ok pt.
Proof.
  intros HA Hp Hads H. unfold siv_encrypt in H. cbv zeta in H.
  fold (key1_of key) in H. fold (key2_of key) in H.
  destruct (s2v A (key1_of key) (ads ++ [pt])) as [iv|e] eqn:Eiv; cbn [bind] in H; [|discriminate].
  pose proof (s2v_valid _ _ _ _ Eiv) as V1.
  destruct (s2v_ok A _ ads pt iv (block_cipher_like A _ HA V1) Hads Hp Eiv) as (_ & Oiv & Liv).
  destruct (cipher_new A (key2_of key)) as [aes|e] eqn:Ea; cbn [bind] in H; [|discriminate].
  destruct (ctr_loop _ 0 _ aes []) as [x|e] eqn:Ex; cbn [bind] in H; [|discriminate].
  destruct (xor pt (slice x 0 (len pt))) as [ct|e] eqn:Ec; cbn [bind] in H; [|discriminate].
  injection H as <-.
  unfold xor in Ec. destruct (len pt =? len (slice x 0 (len pt))) eqn:EL; [|discriminate].
  apply Z.eqb_eq in EL. injection Ec as <-.
  assert (Lct : len (xor_zip pt (slice x 0 (len pt))) = len pt) by (rewrite xor_zip_len; lia).
  unfold siv_decrypt. cbv zeta. fold (key1_of key). fold (key2_of key).
  rewrite (slice_app_l iv) by auto. rewrite (slice_from_app iv) by auto.
  rewrite Ea. cbn [bind]. rewrite Lct, Ex. cbn [bind].
  rewrite xor_ok by lia. cbn [bind].
  rewrite xor_zip_invol by (apply len_le; lia). rewrite Eiv. cbn [bind].
  replace (str_eqb iv iv) with true by (symmetry; apply str_eqb_eq; auto). reflexivity.
Qed.

Lemma siv_genuine A key c ads pt : block_cipher A -> octets c -> strings ads ->
  siv_decrypt A key c ads = Ok pt -> octets pt /\ siv_encrypt A key pt ads = Ok c.
Proof.
  intros HA Hc Hads H. unfold siv_decrypt in H. cbv zeta in H.
  fold (key1_of key) in H. fold (key2_of key) in H.
  set (iv := slice c 0 16) in *. set (ct := slice_from c 16) in *.
  destruct (cipher_new A (key2_of key)) as [aes|e] eqn:Ea; cbn [bind] in H; [|discriminate].
  assert (Gaes : good_cipher aes).
  { unfold cipher_new in Ea. destruct (valid_key A (key2_of key)) eqn:V; [|discriminate].
    injection Ea as <-. apply HA. auto. }
  destruct (ctr_loop _ 0 _ aes []) as [x|e] eqn:Ex; cbn [bind] in H; [|discriminate].
  destruct (xor ct (slice x 0 (len ct))) as [p|e] eqn:Ep; cbn [bind] in H; [|discriminate].
  destruct (s2v A (key1_of key) (ads ++ [p])) as [t|e] eqn:Et; cbn [bind] in H; [|discriminate].
  destruct (str_eqb t iv) eqn:B; [|discriminate]. injection H as ->.
  apply str_eqb_eq in B. subst t.
  assert (Hq : 0 <= Z.land (string_to_int iv) siv_mask + 0).
  { rewrite Z.add_0_r. apply Z.land_nonneg. right. unfold siv_mask. lia. }
  destruct (ctr_loop_octets _ _ _ _ _ _ Gaes octets_nil Hq Ex) as [Ox _].
  unfold xor in Ep. destruct (len ct =? len (slice x 0 (len ct))) eqn:EL; [|discriminate].
  apply Z.eqb_eq in EL. injection Ep as <-.
  assert (Oct : octets ct) by (apply octets_skipn; auto).
  assert (Op : octets (xor_zip ct (slice x 0 (len ct)))).
  { apply xor_zip_octets; auto. rewrite slice_0_firstn. apply octets_firstn; auto. }
  split; [exact Op|].
  pose proof (s2v_valid _ _ _ _ Et) as V1.
  destruct (s2v_ok A _ ads _ iv (block_cipher_like A _ HA V1) Hads Op Et) as (_ & Oiv & Liv).
  assert (Lpt : len (xor_zip ct (slice x 0 (len ct))) = len ct) by (rewrite xor_zip_len; lia).
  unfold siv_encrypt. cbv zeta. fold (key1_of key). fold (key2_of key).
  rewrite Et. cbn [bind]. rewrite Ea. cbn [bind]. rewrite Lpt, Ex. cbn [bind].
  rewrite xor_ok by lia. cbn [bind]. rewrite xor_zip_invol by (apply len_le; lia). f_equal.
  unfold iv, ct. rewrite slice_0_firstn. unfold slice_from. apply firstn_skipn.
Qed.

Lemma siv_spec A key pt ads c : block_cipher A -> octets pt -> strings ads ->
  len pt <= 16 * 2 ^ 31 -> siv_encrypt A key pt ads = Ok c ->
  c = rfc_siv (encrypt_block A (key1_of key)) (encrypt_block A (key2_of key)) pt ads.
Proof.
  intros HA Hp Hads HB H. unfold siv_encrypt in H. cbv zeta in H.
  fold (key1_of key) in H. fold (key2_of key) in H.
  destruct (s2v A (key1_of key) (ads ++ [pt])) as [iv|e] eqn:Eiv; cbn [bind] in H; [|discriminate].
  pose proof (s2v_valid _ _ _ _ Eiv) as V1.
  destruct (s2v_ok A _ ads pt iv (block_cipher_like A _ HA V1) Hads Hp Eiv) as (Viv & Oiv & Liv).
  unfold cipher_new in H. destruct (valid_key A (key2_of key)) eqn:V; cbn [bind] in H; [|discriminate].
  pose proof (bc_good A HA _ V) as G2.
  rewrite siv_q_code in H by auto.
  destruct (siv_q_range iv Oiv Liv) as (Q1 & Q2 & _).
  rewrite ctr_loop_ok in H by (change (2 ^ 31) with 2147483648 in *; lia).
  cbn [bind app] in H. rewrite slice_0_firstn in H.
  replace (Z.to_nat (len pt)) with (length pt) in H by (unfold len; lia).
  rewrite xor_ok in H.
  2:{ rewrite len_firstn. unfold len at 2. rewrite (concat16_length (fun k => encrypt_block A (key2_of key) (be_octets 16 (siv_q iv + 0 + Z.of_nat k)))).
      - unfold len. lia.
      - intros k. destruct (G2 (be_octets 16 (siv_q iv + 0 + Z.of_nat k)) (be_octets_octets _ _)) as [_ L].
        + unfold len. rewrite be_octets_length. reflexivity.
        + unfold len in L. lia. }
  cbn [bind] in H. rewrite siv_ctr_spec in H by auto. injection H as <-.
  unfold rfc_siv. rewrite <- Viv. reflexivity.
Qed.

(** definedness *)
Lemma cmac_defined A key M : aes_like A key -> octets M ->
  nth 0 (K1 (encrypt_block A key)) 0 <> 0 -> nth 0 (K2 (encrypt_block A key)) 0 <> 0 ->
  aes_cmac A key M A = Ok (rfc_cmac (encrypt_block A key) M).
Proof.
  intros HA HM H1 H2. rewrite cmac_spec by auto. unfold used_subkey.
  destruct (uses_k1 M); destruct (_ =? 0) eqn:E; try lia; reflexivity.
Qed.

Lemma s2v_loop_defined A key : aes_like A key ->
  nth 0 (K1 (encrypt_block A key)) 0 <> 0 -> nth 0 (K2 (encrypt_block A key)) 0 <> 0 ->
  forall ads d, strings ads -> octets d -> len d = 16 -> exists r, s2v_loop A key d ads = Ok r.
Proof.
  intros HA H1 H2. induction ads as [|a ads IH]; intros d Hs Hd Ld; [eexists; reflexivity|].
  cbn [s2v_loop]. inversion Hs as [|? ? Ha Hads]; subst. rewrite dbl_spec by auto. cbn [bind].
  rewrite cmac_defined by auto. cbn [bind]. destruct (gf_double_ok d) as [L2 O2].
  destruct (rfc_cmac_ok (encrypt_block A key) a (al_good _ _ HA) Ha) as [O3 L3].
  rewrite xor_ok by lia. cbn [bind].
  apply IH; auto; [apply xor_zip_octets; auto|rewrite xor_zip_len; lia].
Qed.

Lemma s2v_defined A key ads sn : aes_like A key -> strings ads -> octets sn ->
  nth 0 (K1 (encrypt_block A key)) 0 <> 0 -> nth 0 (K2 (encrypt_block A key)) 0 <> 0 ->
  exists v, s2v A key (ads ++ [sn]) = Ok v.
Proof.
  intros HA Hads Hsn H1 H2. unfold s2v.
  destruct (ads ++ [sn]) as [|y l] eqn:E; [destruct ads; discriminate|]. rewrite <- E. clear E y l.
  rewrite removelast_last, last_last. change (str_repeat 0 16) with zero16.
  rewrite cmac_defined by (auto; apply zeros16_ok). cbn [bind].
  destruct (rfc_cmac_ok (encrypt_block A key) zero16 (al_good _ _ HA) (proj1 zeros16_ok)) as [Oz Lz].
  destruct (s2v_loop_defined A key HA H1 H2 ads _ Hads Oz Lz) as [r Er]. rewrite Er. cbn [bind].
  apply s2v_loop_ok in Er as (Or & Lr & _); auto.
  destruct (16 <=? len sn) eqn:B.
  - assert (LS : len (slice_from sn (len sn - 16)) = 16) by (unfold slice_from; rewrite len_skipn; lia).
    rewrite xor_ok by lia. cbn [bind]. eexists. apply cmac_defined; auto.
    apply octets_app. split; [rewrite slice_0_firstn; apply octets_firstn; auto|].
    apply xor_zip_octets; auto. apply octets_skipn; auto.
  - rewrite dbl_spec by auto. cbn [bind]. rewrite pad_pad10 by (unfold len in B; lia).
    destruct (pad10_ok sn Hsn ltac:(unfold len in B; lia)) as [P1 P2].
    destruct (gf_double_ok r) as [G1 G2].
    rewrite xor_ok by lia. cbn [bind]. eexists. apply cmac_defined; auto. apply xor_zip_octets; auto.
Qed.

Lemma siv_defined A key pt ads : block_cipher A -> octets pt -> strings ads ->
  valid_key A (key1_of key) = true -> valid_key A (key2_of key) = true ->
  nth 0 (K1 (encrypt_block A (key1_of key))) 0 <> 0 -> nth 0 (K2 (encrypt_block A (key1_of key))) 0 <> 0 ->
  len pt <= 16 * 2 ^ 31 ->
  siv_encrypt A key pt ads = Ok (rfc_siv (encrypt_block A (key1_of key)) (encrypt_block A (key2_of key)) pt ads).
Proof.
  intros HA Hp Hads V1 V2 N1 N2 HB.
  destruct (siv_encrypt A key pt ads) as [c|e] eqn:H.
  { f_equal. apply siv_spec; auto. }
  exfalso. unfold siv_encrypt in H. cbv zeta in H. fold (key1_of key) in H. fold (key2_of key) in H.
  pose proof (block_cipher_like A _ HA V1) as A1.
  destruct (s2v_defined A _ ads pt A1 Hads Hp N1 N2) as [iv Eiv]. rewrite Eiv in H. cbn [bind] in H.
  destruct (s2v_ok A _ ads pt iv A1 Hads Hp Eiv) as (Viv & Oiv & Liv).
  unfold cipher_new in H. rewrite V2 in H. cbn [bind] in H.
  pose proof (bc_good A HA _ V2) as G2. rewrite siv_q_code in H by auto.
  destruct (siv_q_range iv Oiv Liv) as (Q1 & Q2 & _).
  rewrite ctr_loop_ok in H by (change (2 ^ 31) with 2147483648 in *; lia).
  cbn [bind app] in H. rewrite xor_ok in H; [discriminate|].
  rewrite slice_0_firstn, len_firstn. unfold len at 3.
  rewrite (concat16_length (fun k => encrypt_block A (key2_of key) (be_octets 16 (siv_q iv + 0 + Z.of_nat k)))).
  - unfold len. lia.
  - intros k. destruct (G2 (be_octets 16 (siv_q iv + 0 + Z.of_nat k)) (be_octets_octets _ _)) as [_ L].
    + unfold len. rewrite be_octets_length. reflexivity.
    + unfold len in L. lia.
Qed.
