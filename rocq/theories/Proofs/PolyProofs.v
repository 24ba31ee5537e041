From Verif Require Import Proofs.Tac Proofs.Bits Model.Encoding Model.ChaCha
  Spec.EncodingSpec Spec.ChaChaSpec Proofs.EncodingProofs Proofs.ChaChaProofs.
Local Open Scope Z_scope.

(** ** little-endian conversions *)
Lemma be_value_rev base l : be_value base (rev l) = le_value base l.
Proof.
  induction l as [|d l IH]; [reflexivity|]. cbn [rev le_value].
  rewrite be_value_app, IH. cbn [be_value length]. unfold len. cbn [length].
  change (Z.of_nat 1) with 1. rewrite Z.pow_1_r. change (Z.of_nat 0) with 0. rewrite Z.pow_0_r. ring.
Qed.

Lemma le_value_app base a b : le_value base (a ++ b) = le_value base a + base ^ len a * le_value base b.
Proof.
  induction a as [|d a IH].
  - cbn [app le_value]. change (len []) with 0. rewrite Z.pow_0_r. ring.
  - cbn [app le_value]. rewrite IH, len_cons, Z.pow_add_r, Z.pow_1_r; [ring|lia|apply len_nonneg].
Qed.

Lemma le_num_cons b t : le_bytes_to_num (b :: t) = Ok (le_value 256 (b :: t)).
Proof. unfold le_bytes_to_num. f_equal. rewrite string_to_int_value. apply be_value_rev. Qed.

Lemma le_num s : s <> [] -> le_bytes_to_num s = Ok (le_value 256 s).
Proof. destruct s; [congruence|]. intros _. apply le_num_cons. Qed.

Lemma le_num_one s : le_bytes_to_num (s ++ [1]) = Ok (le_value 256 s + 256 ^ len s).
Proof.
  rewrite le_num by (destruct s; discriminate). f_equal. rewrite le_value_app. cbn [le_value]. ring.
Qed.

Lemma land_255 x : Z.land 0xff x = x mod 256.
Proof. rewrite Z.land_comm. change 0xff with (2 ^ 8 - 1). rewrite land_ones_mod by lia. reflexivity. Qed.

Lemma num_to_le_spec n x : num_to_le_bytes n x = le_octets n x.
Proof.
  unfold num_to_le_bytes. revert x. induction n as [|n IH]; intros x; [reflexivity|].
  cbn [seq map le_octets]. f_equal.
  - change (8 * Z.of_nat 0) with 0. rewrite Z.shiftr_0_r. apply land_255.
  - rewrite <- IH, <- seq_shift, map_map. apply map_ext. intros i. f_equal.
    rewrite !Z.shiftr_div_pow2 by lia. change 256 with (2 ^ 8). rewrite Z.div_div by (try apply Z.pow_pos_nonneg; lia).
    rewrite <- Z.pow_add_r by lia. f_equal. f_equal. lia.
Qed.

Lemma le_octets_length n x : length (le_octets n x) = n.
Proof. revert x; induction n; intros; cbn; auto. Qed.
Lemma le_octets_octets n x : octets (le_octets n x).
Proof. revert x; induction n; intros; cbn [le_octets]; constructor; auto. unfold is_octet. lia. apply IHn. Qed.
Lemma le_octets_mod n x : le_octets n (x mod 256 ^ Z.of_nat n) = le_octets n x.
Proof.
  revert x; induction n as [|n IH]; intros x; [reflexivity|]. cbn [le_octets].
  assert (P : 0 < 256 ^ Z.of_nat n) by (apply Z.pow_pos_nonneg; lia).
  rewrite Nat2Z.inj_succ, Z.pow_succ_r by lia.
  rewrite Z.rem_mul_r by lia.
  f_equal.
  - rewrite Z.mul_comm, Z.mod_add by lia. apply Z.mod_mod. lia.
  - rewrite <- IH. rewrite <- (IH (x / 256)). rewrite IH. f_equal.
    rewrite Z.mul_comm, Z.div_add by lia. rewrite (Z.div_small (x mod 256)) by lia. apply Z.add_0_l.
Qed.
Lemma le_octets_value n x : le_value 256 (le_octets n x) = x mod 256 ^ Z.of_nat n.
Proof.
  revert x; induction n as [|n IH]; intros x; [cbn; now rewrite Z.mod_1_r|].
  cbn [le_octets le_value]. rewrite IH, Nat2Z.inj_succ, Z.pow_succ_r by lia.
  rewrite Z.rem_mul_r by (try apply Z.pow_nonzero; lia). reflexivity.
Qed.

(** ** clamping *)
Lemma land_split x X m M : 0 <= x < 256 -> 0 <= m < 256 ->
  Z.land (x + 256 * X) (m + 256 * M) = Z.land x m + 256 * Z.land X M.
Proof.
  intros Hx Hm.
  assert (D : forall u U, 0 <= u < 256 -> (u + 256 * U) / 2 ^ 8 = U)
    by (intros; change (2 ^ 8) with 256; lia).
  assert (R : forall u U, 0 <= u < 256 -> (u + 256 * U) mod 2 ^ 8 = u)
    by (intros; change (2 ^ 8) with 256; lia).
  rewrite (Z.div_mod (Z.land (x + 256 * X) (m + 256 * M)) (2 ^ 8)) by lia.
  rewrite <- Z.shiftr_div_pow2 by lia. rewrite Z.shiftr_land, !Z.shiftr_div_pow2 by lia.
  rewrite !D by auto.
  rewrite <- Z.land_ones by lia.
  replace (Z.land (Z.land (x + 256 * X) (m + 256 * M)) (Z.ones 8)) with
    (Z.land (Z.land (x + 256 * X) (Z.ones 8)) (Z.land (m + 256 * M) (Z.ones 8))).
  2:{ apply Z.bits_inj'. intros i Hi. rewrite !Z.land_spec.
      destruct (Z.testbit (x + 256 * X) i), (Z.testbit (m + 256 * M) i), (Z.testbit (Z.ones 8) i); reflexivity. }
  rewrite !Z.land_ones, !R by lia. change (2 ^ 8) with 256. ring.
Qed.

Fixpoint zip_land (a b : list Z) : list Z :=
  match a, b with x :: a', y :: b' => Z.land x y :: zip_land a' b' | _, _ => [] end.

Lemma land_le_value a m : length a = length m -> octets a -> octets m ->
  Z.land (le_value 256 a) (le_value 256 m) = le_value 256 (zip_land a m).
Proof.
  revert m; induction a as [|x a IH]; intros [|y m] HL Ha Hm; try discriminate; [reflexivity|].
  apply octets_cons in Ha as [Hx Ha]. apply octets_cons in Hm as [Hy Hm].
  cbn [le_value zip_land]. rewrite land_split by auto. rewrite IH; auto.
Qed.

Lemma clamp_spec key : octets key -> (16 <= length key)%nat ->
  clamp (le_value 256 (firstn 16 key)) = rfc_clamp key.
Proof.
  intros Hk HL.
  do 16 (destruct key as [|? key]; [cbn in HL; lia|]).
  cbn [firstn]. unfold clamp, rfc_clamp.
  change 0x0ffffffc0ffffffc0ffffffc0fffffff with
    (le_value 256 [255;255;255;15;252;255;255;15;252;255;255;15;252;255;255;15]).
  repeat (rewrite octets_cons in Hk). unfold is_octet in Hk.
  rewrite land_le_value.
  - f_equal. cbn [zip_land seq map nth existsb Nat.eqb orb].
    assert (B : forall b, 0 <= b < 256 -> Z.land b 255 = b).
    { intros b Hb. change 255 with (2 ^ 8 - 1). rewrite land_ones_mod by lia. apply Z.mod_small. auto. }
    assert (F : forall b, 0 <= b < 256 -> Z.land b 15 = b mod 16).
    { intros b Hb. change 15 with (2 ^ 4 - 1). rewrite land_ones_mod by lia. reflexivity. }
    assert (C : forall b, 0 <= b < 256 -> Z.land b 252 = b - b mod 4).
    { intros b Hb. transitivity (Z.ldiff b (Z.ones 2)).
      - apply Z.bits_inj'. intros i Hi. rewrite Z.land_spec, Z.ldiff_spec.
        destruct (Z_lt_dec i 8).
        + f_equal. assert (C : i = 0 \/ i = 1 \/ i = 2 \/ i = 3 \/ i = 4 \/ i = 5 \/ i = 6 \/ i = 7) by lia.
          destruct C as [->|[->|[->|[->|[->|[->|[->| ->]]]]]]]; reflexivity.
        + replace (Z.testbit b i) with false; [reflexivity|]. symmetry. apply testbit_small with (n := 8); lia.
      - rewrite Z.ldiff_ones_r by lia.
        rewrite Z.shiftl_mul_pow2, Z.shiftr_div_pow2 by lia. change (2 ^ 2) with 4. lia. }
    repeat match goal with |- _ :: _ = _ :: _ => f_equal end;
      first [apply B | apply F | apply C | reflexivity]; tauto.
  - reflexivity.
  - unfold octets. repeat (apply Forall_cons; [unfold is_octet; tauto|]). apply Forall_nil.
  - unfold octets. repeat (apply Forall_cons; [unfold is_octet; lia|]). apply Forall_nil.
Qed.

(** ** the polynomial *)
Definition psum (msg : str) (r : Z) (q : nat) : Z :=
  zsum (map (fun i => poly_coeff msg i * r ^ Z.of_nat (q - i)) (seq 0 q)).

Lemma zsum_app a b : zsum (a ++ b) = zsum a + zsum b.
Proof. induction a; cbn [app zsum]; lia. Qed.
Lemma zsum_mul r l : zsum (map (fun x => r * x) l) = r * zsum l.
Proof. induction l; cbn [map zsum]; lia. Qed.

Lemma psum_S msg r q : psum msg r (S q) = r * (psum msg r q + poly_coeff msg q).
Proof.
  unfold psum. rewrite seq_S, map_app, zsum_app. cbn [map zsum Nat.add].
  replace (S q - q)%nat with 1%nat by lia. change (Z.of_nat 1) with 1. rewrite Z.pow_1_r.
  rewrite (map_ext_in _ (fun i => r * (poly_coeff msg i * r ^ Z.of_nat (q - i)))).
  - rewrite <- (map_map (fun i => poly_coeff msg i * r ^ Z.of_nat (q - i)) (fun x => r * x)).
    rewrite zsum_mul. ring.
  - intros i Hi. apply in_seq in Hi. replace (S q - i)%nat with (S (q - i)) by lia.
    rewrite Nat2Z.inj_succ, Z.pow_succ_r by lia. ring.
Qed.

Lemma p1305_pos : 0 < p1305.
Proof. reflexivity. Qed.
Lemma p1305_eq : poly1305_p = p1305.
Proof. reflexivity. Qed.

Lemma loop_spec msg r n : forall k, (16 * (k + n) <= length msg)%nat ->
  poly1305_loop n (Z.of_nat k) r (psum msg r k mod p1305) msg = Ok (psum msg r (k + n) mod p1305).
Proof.
  induction n as [|n IH]; intros k H.
  - cbn [poly1305_loop]. now rewrite Nat.add_0_r.
  - cbn [poly1305_loop]. rewrite p1305_eq.
    assert (E : slice msg (Z.of_nat k * 16) ((Z.of_nat k + 1) * 16) = block16 msg k).
    { unfold slice, block16. f_equal; [lia|]. f_equal. lia. }
    rewrite E, le_num_one. cbn [bind].
    assert (L : len (block16 msg k) = Z.of_nat (length (block16 msg k))) by reflexivity.
    rewrite L. fold (poly_coeff msg k).
    rewrite <- Z.mul_mod_idemp_r by (unfold p1305; lia).
    rewrite Z.add_mod_idemp_l by (unfold p1305; lia).
    rewrite Z.mul_mod_idemp_r by (unfold p1305; lia).
    rewrite <- psum_S. replace (Z.of_nat k + 1) with (Z.of_nat (S k)) by lia.
    rewrite IH by lia. f_equal. f_equal. f_equal. lia.
Qed.

Lemma poly_mac_spec msg key : octets key -> 32 <= len key ->
  poly1305_mac msg key = Ok (rfc_poly1305 msg key).
Proof.
  intros Hk HL. unfold poly1305_mac.
  assert (S1 : slice key 0 16 = firstn 16 key) by reflexivity.
  assert (S2 : slice key 16 32 = firstn 16 (skipn 16 key)) by reflexivity.
  unfold len in HL.
  rewrite S1, S2, (le_num (firstn 16 key)), (le_num (firstn 16 (skipn 16 key))).
  2:{ intros E. apply (f_equal len) in E. rewrite ?len_firstn, ?len_skipn, ?len_nil in E. unfold len in E; cbn [length] in E; lia. }
  2:{ intros E. apply (f_equal len) in E. rewrite ?len_firstn, ?len_skipn, ?len_nil in E. unfold len in E; cbn [length] in E; lia. }
  cbn [bind]. rewrite clamp_spec by (auto; lia).
  set (r := rfc_clamp key). set (s := le_value 256 (firstn 16 (skipn 16 key))).
  pose proof (loop_spec msg r (Z.to_nat (len msg / 16)) 0 ltac:(unfold len; lia)) as HLp.
  change (psum msg r 0) with 0 in HLp. rewrite Z.mod_0_l in HLp by (unfold p1305; lia).
  change (Z.of_nat 0) with 0 in HLp. rewrite HLp. cbn [bind]. rewrite Nat.add_0_l.
  set (n := Z.to_nat (len msg / 16)).
  assert (F : (if negb (len msg mod 16 =? 0) then
        do n0 <- le_bytes_to_num (slice_from msg (len msg / 16 * 16) ++ [1]);
        Ok ((r * (psum msg r n mod p1305 + n0)) mod poly1305_p)
       else Ok (psum msg r n mod p1305)) = Ok (poly1305_eval msg r)).
  { destruct (len msg mod 16 =? 0) eqn:E; cbn [negb].
    - f_equal. unfold poly1305_eval. fold (psum msg r (nblocks16 msg)). f_equal. f_equal.
      unfold n, nblocks16, len in *. lia.
    - rewrite le_num_one. cbn [bind]. f_equal. rewrite p1305_eq.
      assert (B : slice_from msg (len msg / 16 * 16) = block16 msg n).
      { unfold slice_from, block16. rewrite firstn_all2.
        - f_equal. unfold n, len. lia.
        - rewrite skipn_length. unfold n, len in *. lia. }
      rewrite B. change (len (block16 msg n)) with (Z.of_nat (length (block16 msg n))).
      fold (poly_coeff msg n).
      rewrite <- Z.mul_mod_idemp_r by (unfold p1305; lia).
      rewrite Z.add_mod_idemp_l by (unfold p1305; lia).
      rewrite Z.mul_mod_idemp_r by (unfold p1305; lia).
      rewrite <- psum_S. unfold poly1305_eval. fold (psum msg r (nblocks16 msg)). f_equal. f_equal.
      unfold n, nblocks16, len in *. lia. }
  rewrite F. cbn [bind]. f_equal. unfold rfc_poly1305. cbv zeta. fold r. fold s.
  unfold num_to_16_le_bytes. rewrite num_to_le_spec.
  change (2 ^ 128) with (256 ^ Z.of_nat 16). rewrite le_octets_mod. reflexivity.
Qed.

(** every key longer than 16 octets is accepted, shorter ones are rejected *)
Lemma loop_total msg r n : forall i a, exists a', poly1305_loop n i r a msg = Ok a'.
Proof.
  induction n; intros; cbn [poly1305_loop]; [eauto|]. rewrite le_num_one. cbn [bind]. apply IHn.
Qed.

Lemma poly_mac_key msg key :
  (len key <= 16 -> poly1305_mac msg key = Raise ValueError) /\
  (16 < len key -> exists tag, poly1305_mac msg key = Ok tag /\ len tag = 16 /\ octets tag).
Proof.
  unfold len. split; intros H; unfold poly1305_mac.
  - destruct key as [|b t]; [reflexivity|].
    change (slice (b :: t) 0 16) with (firstn 16 (b :: t)). rewrite le_num by discriminate. cbn [bind].
    unfold slice. rewrite skipn_all2 by (change (Z.to_nat 16) with 16%nat; lia). reflexivity.
  - change (slice key 0 16) with (firstn 16 key).
    change (slice key 16 32) with (firstn 16 (skipn 16 key)).
    rewrite (le_num (firstn 16 key)), (le_num (firstn 16 (skipn 16 key))).
    2:{ intros E. apply (f_equal len) in E. rewrite ?len_firstn, ?len_skipn, ?len_nil in E. unfold len in E; cbn [length] in E; lia. }
    2:{ intros E. apply (f_equal len) in E. rewrite ?len_firstn, ?len_skipn, ?len_nil in E. unfold len in E; cbn [length] in E; lia. }
    cbn [bind].
    destruct (loop_total msg (clamp (le_value 256 (firstn 16 key))) (Z.to_nat (len msg / 16)) 0 0) as [a ->].
    cbn [bind]. 
    destruct (negb _); [rewrite le_num_one|]; cbn [bind]; eexists; (split; [reflexivity|]);
      unfold num_to_16_le_bytes; rewrite num_to_le_spec; unfold len; rewrite le_octets_length;
      (split; [reflexivity|apply le_octets_octets]).
Qed.

Lemma rfc_poly_length msg key : length (rfc_poly1305 msg key) = 16%nat /\ octets (rfc_poly1305 msg key).
Proof. split; [apply le_octets_length|apply le_octets_octets]. Qed.

(** ** AEAD *)
Lemma pad16_spec x : pad16 x = zeros_to_16 x.
Proof.
  unfold pad16, zeros_to_16, str_repeat, len. destruct (_ =? 0) eqn:E.
  - replace ((16 - length x mod 16) mod 16)%nat with 0%nat; [reflexivity|].
    assert (length x mod 16 = 0)%nat by lia. rewrite H. reflexivity.
  - f_equal. lia.
Qed.

Lemma mac_data_spec aad ct : mac_data aad ct = rfc_mac_data aad ct.
Proof.
  unfold mac_data, rfc_mac_data, num_to_8_le_bytes. rewrite !num_to_le_spec, !pad16_spec.
  rewrite <- !app_assoc. reflexivity.
Qed.

Lemma slice_0_32 (s : str) : slice s 0 32 = firstn 32 s.
Proof. reflexivity. Qed.

Lemma key_gen_spec rnd key nonce : octets key -> octets nonce -> len key = 32 -> len nonce = 12 ->
  poly1305_key_gen rnd key nonce = Ok (firstn 32 (rfc_block key 0 nonce)).
Proof.
  intros Hk Hn Lk Ln. unfold poly1305_key_gen.
  rewrite (chacha_init_spec rnd key 0 nonce Lk Ln). cbn [bind].
  rewrite (block_rfc key 0 nonce Hk Hn ltac:(unfold word; lia)).
  rewrite slice_0_32. reflexivity.
Qed.

Lemma otk_ok key nonce : octets key -> octets nonce ->
  octets (firstn 32 (rfc_block key 0 nonce)) /\ 32 <= len (firstn 32 (rfc_block key 0 nonce)).
Proof.
  intros Hk Hn. rewrite <- (block_rfc key 0 nonce Hk Hn ltac:(unfold word; lia)).
  generalize (block_octets (rfc_state key 0 nonce)).
  generalize (block_length (rfc_state key 0 nonce) (rfc_state_length key 0 nonce)).
  generalize (chacha20_block (rfc_state key 0 nonce)). intros b L O. split.
  - apply octets_firstn, O.
  - rewrite len_firstn. unfold len. lia.
Qed.

Lemma aead_spec rnd1 rnd2 key constant aad iv pt :
  octets key -> octets constant -> octets iv -> len key = 32 -> len (constant ++ iv) = 12 ->
  1 + nblocks pt <= 2 ^ 32 ->
  aead_encrypt rnd1 rnd2 key constant aad iv pt = Ok (rfc_aead key (constant ++ iv) aad pt).
Proof.
  intros Hk Hc Hi HL HN HB.
  assert (On : octets (constant ++ iv)) by (apply octets_app; auto).
  unfold aead_encrypt, rfc_aead.
  pose proof (key_gen_spec rnd1 key _ Hk On HL HN) as E1.
  pose proof (chacha_init_spec rnd2 key 1 _ HL HN) as E2.
  pose proof (encrypt_rfc_gen key 1 _ pt Hk On ltac:(lia) HB) as E3.
  pose proof (otk_ok key _ Hk On) as [O1 O2].
  revert E1 E2 E3 O1 O2. 
  generalize (poly1305_key_gen rnd1 key (constant ++ iv)).
  generalize (chacha_init rnd2 key 1 (Some (constant ++ iv))).
  generalize (rfc_state key 1 (constant ++ iv)).
  generalize (rfc_encrypt key 1 (constant ++ iv) pt).
  generalize (firstn 32 (rfc_block key 0 (constant ++ iv))).
  intros otk ct st r1 r2 -> -> E3 O1 O2.
  cbv zeta. cbn [bind]. rewrite E3. cbn [snd].
  rewrite mac_data_spec, (poly_mac_spec (rfc_mac_data aad ct) otk O1 O2). reflexivity.
Qed.

Lemma rfc_encrypt_invol key c nonce pt :
  rfc_encrypt key c nonce (rfc_encrypt key c nonce pt) = pt.
Proof. exact (stream_xor_invol (fun k => rfc_block key (c + Z.of_nat k) nonce) pt). Qed.
Lemma rfc_encrypt_length key c nonce pt : length (rfc_encrypt key c nonce pt) = length pt.
Proof. exact (stream_xor_length (fun k => rfc_block key (c + Z.of_nat k) nonce) pt). Qed.
Lemma nblocks_length a b : length a = length b -> nblocks a = nblocks b.
Proof. unfold nblocks. intros ->. reflexivity. Qed.

Lemma app_inv_len {A} (a b c d : list A) : length a = length c -> a ++ b = c ++ d -> a = c /\ b = d.
Proof.
  revert c; induction a as [|x a IH]; intros [|y c] HL H; try discriminate; auto.
  cbn in H. injection H as -> H. injection HL as HL. destruct (IH _ HL H). subst; auto.
Qed.

Lemma mac_data_inj aad ct aad' ct' :
  len aad < 2 ^ 64 -> len ct < 2 ^ 64 -> len aad' < 2 ^ 64 -> len ct' < 2 ^ 64 ->
  mac_data aad ct = mac_data aad' ct' -> aad = aad' /\ ct = ct'.
Proof.
  intros H1 H2 H3 H4 H. rewrite !mac_data_spec in H. unfold rfc_mac_data in H.
  assert (E : forall a b c d : list Z, a ++ b = c ++ d -> length b = length d -> a = c /\ b = d).
  { intros a b c d E L. apply app_inv_len; auto. apply (f_equal (@length Z)) in E.
    rewrite !app_length in E. lia. }
  assert (V : forall n m, 0 <= n < 2 ^ 64 -> 0 <= m < 2 ^ 64 -> le_octets 8 n = le_octets 8 m -> n = m).
  { intros n m Hn Hm Q. apply (f_equal (le_value 256)) in Q. rewrite !le_octets_value in Q.
    change (256 ^ Z.of_nat 8) with (2 ^ 64) in Q. rewrite !Z.mod_small in Q by auto. auto. }
  rewrite !app_assoc in H.
  apply E in H as [H Q2]; [|now rewrite !le_octets_length].
  apply E in H as [H Q1]; [|now rewrite !le_octets_length].
  apply V in Q1; [|unfold len in *; lia..]. apply V in Q2; [|unfold len in *; lia..].
  rewrite <- !app_assoc in H.
  apply app_inv_len in H as [A H]; [|lia]. subst aad'.
  apply app_inv_len in H as [_ H]; [|reflexivity].
  apply app_inv_len in H as [C _]; [|lia]. auto.
Qed.
