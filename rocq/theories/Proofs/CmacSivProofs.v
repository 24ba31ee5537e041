From Verif Require Import Proofs.Tac Proofs.Bits Model.Encoding Model.CmacSiv
  Spec.EncodingSpec Spec.CmacSivSpec Proofs.EncodingProofs.
Local Open Scope Z_scope.

Lemma xor_octets_zip a b : xor_octets a b = xor_zip a b.
Proof. revert b; induction a as [|x a IH]; intros [|y b]; cbn; auto; now rewrite IH. Qed.

Lemma be_octets_length n x : length (be_octets n x) = n.
Proof. revert x; induction n; intros; cbn [be_octets]; auto. rewrite app_length, IHn. cbn; lia. Qed.
Lemma be_octets_octets n x : octets (be_octets n x).
Proof.
  revert x; induction n; intros; cbn [be_octets]; [constructor|]. apply octets_app. split; [apply IHn|].
  constructor; [unfold is_octet; lia|constructor].
Qed.
Lemma be_octets_value n x : be_value 256 (be_octets n x) = x mod 256 ^ Z.of_nat n.
Proof.
  revert x; induction n as [|n IH]; intros x; [cbn; now rewrite Z.mod_1_r|].
  cbn [be_octets]. rewrite be_value_app, IH. cbn [be_value]. unfold len. cbn [length].
  change (Z.of_nat 1) with 1. change (Z.of_nat 0) with 0. rewrite Z.pow_1_r, Z.pow_0_r.
  rewrite Nat2Z.inj_succ, Z.pow_succ_r by lia.
  rewrite Z.rem_mul_r by (try apply Z.pow_nonzero; lia). lia.
Qed.

Lemma be_octets_unique s n : octets s -> length s = n -> be_octets n (be_value 256 s) = s.
Proof.
  intros Hs Hn. apply (be_value_inj 256); [lia| |apply be_octets_octets|apply Hs|].
  - now rewrite be_octets_length.
  - rewrite be_octets_value. apply Z.mod_small. pose proof (be_value_bound 256 s ltac:(lia) Hs).
    unfold len in *. now rewrite Hn in *.
Qed.

(** ** doubling *)
Lemma msb_test x : 0 <= x < 2 ^ 128 -> (Z.land x msb128 =? 0) = (x <? 2 ^ 127).
Proof.
  intros Hx. change msb128 with (2 ^ 127).
  assert (E : Z.land x (2 ^ 127) = if Z.testbit x 127 then 2 ^ 127 else 0).
  { apply Z.bits_inj'. intros i Hi. rewrite Z.land_spec, Z.pow2_bits_eqb by lia.
    destruct (127 =? i) eqn:E.
    - apply Z.eqb_eq in E. subst i. destruct (Z.testbit x 127); [now rewrite Z.pow2_bits_true by lia|now rewrite Z.bits_0].
    - rewrite andb_false_r. destruct (Z.testbit x 127); [|now rewrite Z.bits_0].
      rewrite Z.pow2_bits_eqb by lia. now rewrite E. }
  rewrite E. pose proof (Z.testbit_spec' x 127 ltac:(lia)) as T.
  change (2 ^ 127) with 170141183460469231731687303715884105728 in *.
  change (2 ^ 128) with 340282366920938463463374607431768211456 in *.
  destruct (Z.testbit x 127); cbn [Z.b2z] in T; [|]; lia.
Qed.

Definition dblv (v : Z) : Z := if v <? 2 ^ 127 then 2 * v else Z.lxor (2 * v - 2 ^ 128) 135.

Lemma dbl_code x : 0 <= x < 2 ^ 128 ->
  (if Z.land x msb128 =? 0 then Z.shiftl x 1 else Z.lxor (Z.land (Z.shiftl x 1) mask128) 0x87) = dblv x.
Proof.
  intros Hx. rewrite msb_test by auto. unfold dblv. rewrite Z.shiftl_mul_pow2 by lia.
  change (2 ^ 1) with 2. destruct (x <? 2 ^ 127) eqn:E; [lia|].
  change mask128 with (2 ^ 128 - 1). rewrite land_ones_mod by lia. f_equal.
  change (2 ^ 127) with 170141183460469231731687303715884105728 in *.
  change (2 ^ 128) with 340282366920938463463374607431768211456 in *. lia.
Qed.

Lemma dblv_range x : 0 <= x < 2 ^ 128 -> 0 <= dblv x < 2 ^ 128.
Proof.
  intros Hx. unfold dblv. destruct (x <? 2 ^ 127) eqn:E.
  - change (2 ^ 127) with 170141183460469231731687303715884105728 in *.
    change (2 ^ 128) with 340282366920938463463374607431768211456 in *. lia.
  - apply lxor_lt_pow2; [lia| |lia].
    change (2 ^ 127) with 170141183460469231731687303715884105728 in *.
    change (2 ^ 128) with 340282366920938463463374607431768211456 in *. lia.
Qed.

Lemma gf_double_eq s : gf_double s = be_octets 16 (dblv (be_value 256 s)).
Proof. reflexivity. Qed.

Lemma pow256_16 : 256 ^ 16 = 2 ^ 128.
Proof. reflexivity. Qed.

Lemma str16_range s : octets s -> len s = 16 -> 0 <= be_value 256 s < 2 ^ 128.
Proof. intros H L. pose proof (be_value_bound 256 s ltac:(lia) H) as B. rewrite L in B. exact B. Qed.

Lemma dbl_spec s : octets s -> len s = 16 -> dbl s = Ok (gf_double s).
Proof.
  intros Hs HL. unfold dbl. rewrite HL. cbn [Z.eqb Pos.eqb py_assert bind]. cbv zeta.
  rewrite string_to_int_value. pose proof (str16_range s Hs HL) as R.
  replace (if negb (Z.land (be_value 256 s) msb128 =? 0)
      then Z.lxor (Z.land (Z.shiftl (be_value 256 s) 1) mask128) 135
      else Z.shiftl (be_value 256 s) 1) with (dblv (be_value 256 s)).
  2:{ rewrite <- dbl_code by auto. destruct (Z.land _ _ =? 0); reflexivity. }
  pose proof (dblv_range _ R) as R2.
  destruct (int_to_string_pad (dblv (be_value 256 s)) 16 ltac:(lia) ltac:(lia)
    ltac:(rewrite pow256_16; lia)) as (t & -> & Ht & Lt & Vt).
  f_equal. rewrite gf_double_eq, <- Vt. symmetry. apply be_octets_unique; auto. unfold len in Lt; lia.
Qed.

Lemma dbl_wrong_length s : len s <> 16 -> dbl s = Raise AssertionError.
Proof. intros H. unfold dbl. destruct (len s =? 16) eqn:E; [lia|]. reflexivity. Qed.

Lemma gf_double_ok s : len (gf_double s) = 16 /\ octets (gf_double s).
Proof. rewrite gf_double_eq. unfold len. rewrite be_octets_length. split; [reflexivity|apply be_octets_octets]. Qed.

Lemma gf_double_value s : octets s -> len s = 16 -> be_value 256 (gf_double s) = dblv (be_value 256 s).
Proof.
  intros H L. rewrite gf_double_eq, be_octets_value. change (256 ^ Z.of_nat 16) with (2 ^ 128).
  apply Z.mod_small, dblv_range, str16_range; auto.
Qed.

(** ** subkeys *)
Definition good_cipher (E : str -> str) : Prop :=
  forall b, octets b -> len b = 16 -> octets (E b) /\ len (E b) = 16.

Lemma zeros16_ok : octets zero16 /\ len zero16 = 16.
Proof. split; [|reflexivity]. apply (octets_repeat 0 16). unfold is_octet; lia. Qed.

(** what int_to_string without padding makes of a 16-octet string *)
Definition unpadded (s : str) : str := match strip_zeros s with [] => [0] | t => t end.

Lemma int_to_string_unpadded s : octets s -> int_to_string (be_value 256 s) None = Ok (unpadded s).
Proof.
  intros Hs. rewrite <- string_to_int_value. apply (string_int_roundtrip s Hs).
Qed.

Lemma unpadded_head s : len s = 16 ->
  (nth 0 s 0 <> 0 -> unpadded s = s) /\ (nth 0 s 0 = 0 -> len (unpadded s) < 16).
Proof.
  intros HL. destruct s as [|x s]; [discriminate|]. cbn [nth]. unfold unpadded. cbn [strip_zeros]. split.
  - intros Hx. destruct x; [lia|reflexivity|reflexivity].
  - intros ->. rewrite len_cons in HL.
    assert (G : forall t, len (strip_zeros t) <= len t).
    { induction t as [|y t IH]; cbn [strip_zeros]; [lia|]. destruct y; [rewrite len_cons; lia|lia|lia]. }
    specialize (G s). destruct (strip_zeros s); [cbn; lia|]. lia.
Qed.

Lemma subkey_spec C key : valid_key C key = true -> block_size C = 16 ->
  good_cipher (encrypt_block C key) ->
  subkey key C = Ok (unpadded (K1 (encrypt_block C key)), unpadded (K2 (encrypt_block C key))).
Proof.
  intros Hv Hb Hg. unfold subkey, cipher_new. rewrite Hv, Hb. cbn [bind Z.eqb Pos.eqb py_assert]. cbv zeta.
  change (str_repeat 0 16) with zero16. set (E := encrypt_block C key) in *.
  destruct (Hg zero16 (proj1 zeros16_ok) (proj2 zeros16_ok)) as [Ho Hl].
  rewrite string_to_int_value. pose proof (str16_range _ Ho Hl) as R.
  rewrite !(dbl_code (be_value 256 (E zero16))) by auto.
  rewrite !(dbl_code (dblv _)) by (apply dblv_range; auto).
  rewrite <- (gf_double_value (E zero16)) by auto. fold (K1 E).
  rewrite <- (gf_double_value (K1 E)) by (apply gf_double_ok). fold (K2 E).
  rewrite !int_to_string_unpadded by (apply gf_double_ok). reflexivity.
Qed.

(** ** the chain *)
Lemma cmac_loop_shift n : forall i E x M, 0 <= i -> cmac_loop n (i + 1) E x M = cmac_loop n i E x (skipn 16 M).
Proof.
  induction n as [|n IH]; intros i E x M Hi; [reflexivity|]. cbn [cmac_loop].
  assert (S : slice_from M ((i + 1) * 16) = slice_from (skipn 16 M) (i * 16)).
  { unfold slice_from. assert (G : forall a b (l : str), skipn a (skipn b l) = skipn (b + a) l).
    { clear. intros a b; induction b; intros l; cbn; auto. destruct l; cbn; auto. now rewrite skipn_nil. }
    rewrite G. f_equal. lia. }
  rewrite S. destruct (xor x _); [|reflexivity]. cbn [bind]. apply IH. lia.
Qed.

Lemma xor_ok a b : len a = len b -> xor a b = Ok (xor_zip a b).
Proof. intros H. unfold xor. rewrite H, Z.eqb_refl. reflexivity. Qed.
Lemma xor_fail a b : len a <> len b -> xor a b = Raise AssertionError.
Proof. intros H. unfold xor. destruct (len a =? len b) eqn:E; [lia|]. reflexivity. Qed.

Lemma slice_0_firstn {A} (l : list A) n : slice l 0 n = firstn (Z.to_nat n) l.
Proof. unfold slice. rewrite Z.sub_0_r. reflexivity. Qed.

Lemma octets16_xor a b : octets a -> octets b -> len a = 16 -> len b = 16 ->
  octets (xor_zip a b) /\ len (xor_zip a b) = 16.
Proof. intros. split; [apply xor_zip_octets; auto|]. rewrite xor_zip_len. lia. Qed.

Lemma slice_from_0 (l : str) : slice_from l (0 * 16) = l.
Proof. reflexivity. Qed.

Lemma cmac_loop_S n i E x M : cmac_loop (S n) i E x M =
  (do y <- xor x (slice (slice_from M (i * 16)) 0 16); cmac_loop n (i + 1) E (E y) M).
Proof. reflexivity. Qed.

(** last block [L] of RFC 4493, replaced by [X] in the code *)
Lemma chain_spec E (Hg : good_cipher E) k : forall x P L X,
  octets x -> len x = 16 -> octets P -> octets X -> length P = (16 * k)%nat -> len X = 16 ->
  octets L -> (1 <= length L <= 16)%nat \/ (k = 0 /\ L = [])%nat ->
  X = (if (length L =? 16)%nat then xor_octets L (K1 E) else xor_octets (pad10 L) (K2 E)) ->
  forall fuel, (length P + length L < fuel)%nat ->
  cmac_loop (S k) 0 E x (P ++ X) = Ok (rfc_cmac_from fuel E x (P ++ L)).
Proof.
  induction k as [|k IH]; intros x P L X Hx Lx HP HX LP LX HL LL EX fuel Hf.
  - destruct P; [|discriminate]. cbn [app]. destruct fuel as [|fuel]; [lia|].
    cbn [cmac_loop rfc_cmac_from]. rewrite slice_from_0.
    rewrite slice_0_firstn, firstn_all2 by (unfold len in LX; lia).
    rewrite xor_ok by lia. cbn [bind]. f_equal. rewrite EX. change xor_octets with xor_zip.
    destruct (length L =? 16)%nat eqn:E1.
    + apply Nat.eqb_eq in E1. rewrite E1. reflexivity.
    + apply Nat.eqb_neq in E1. replace (length L <? 16)%nat with true
        by (symmetry; apply Nat.ltb_lt; destruct LL as [|[_ ->]]; cbn [length]; lia).
      reflexivity.
  - destruct LL as [LL|[? _]]; [|discriminate].
    destruct fuel as [|fuel]; [lia|]. rewrite (cmac_loop_S (S k)). cbn [rfc_cmac_from].
    rewrite slice_from_0.
    rewrite slice_0_firstn. change (Z.to_nat 16) with 16%nat.
    rewrite (firstn_app 16), (firstn_app 16).
    replace (16 - length P)%nat with 0%nat by lia. rewrite !firstn_O, !app_nil_r.
    replace (length (P ++ L) <? 16)%nat with false
      by (symmetry; apply Nat.ltb_ge; rewrite app_length; lia).
    replace (length (P ++ L) =? 16)%nat with false
      by (symmetry; apply Nat.eqb_neq; rewrite app_length; lia).
    assert (LF : len (firstn 16 P) = 16) by (rewrite len_firstn; unfold len; lia).
    rewrite xor_ok by lia. cbn [bind].
    destruct (octets16_xor x (firstn 16 P) Hx (octets_firstn _ _ HP) Lx LF) as [O1 O2].
    destruct (Hg _ O1 O2) as [O3 O4].
    rewrite (cmac_loop_shift (S k) 0) by lia. change xor_octets with xor_zip.
    rewrite (skipn_app 16), (skipn_app 16).
    replace (16 - length P)%nat with 0%nat by lia. rewrite !skipn_O.
    apply (IH _ (skipn 16 P) L X); auto.
    + apply octets_skipn; auto.
    + rewrite skipn_length. lia.
    + rewrite skipn_length. lia.
Qed.

Lemma pad_pad10 s : (length s <= 15)%nat -> pad s 16 = pad10 s.
Proof. intros H. unfold pad, pad10, str_repeat, len. f_equal. f_equal. f_equal. lia. Qed.
Lemma pad10_ok s : octets s -> (length s <= 15)%nat -> octets (pad10 s) /\ len (pad10 s) = 16.
Proof.
  intros Hs HL. unfold pad10. split.
  - apply octets_app. split; auto. apply octets_app. split.
    + constructor; [unfold is_octet; lia|constructor].
    + apply (octets_repeat 0 (Z.of_nat (15 - length s))) || idtac.
      unfold octets. apply Forall_forall. intros x Hx. apply repeat_spec in Hx. subst. unfold is_octet; lia.
  - rewrite !len_app. unfold len. rewrite repeat_length. cbn [length]. lia.
Qed.

(** which subkey a message uses *)
Definition uses_k1 (M : str) : bool := (0 <? len M) && (len M mod 16 =? 0).
Definition used_subkey (E : str -> str) (M : str) : str := if uses_k1 M then K1 E else K2 E.

Lemma cmac_any C AES key M :
  valid_key C key = true -> block_size C = 16 -> good_cipher (encrypt_block C key) ->
  valid_key AES key = true -> block_size AES = 16 -> good_cipher (encrypt_block AES key) ->
  octets M ->
  (nth 0 (used_subkey (encrypt_block AES key) M) 0 = 0 -> aes_cmac AES key M C = Raise AssertionError) /\
  (nth 0 (used_subkey (encrypt_block AES key) M) 0 <> 0 ->
     exists P L X, M = P ++ L /\ octets P /\ octets L /\ octets X /\ len X = 16 /\
     length P = (16 * Z.to_nat ((len M - 1) / 16))%nat /\
     ((1 <= length L <= 16)%nat \/ (M = [] /\ L = [])) /\
     X = (if (length L =? 16)%nat then xor_octets L (K1 (encrypt_block AES key))
          else xor_octets (pad10 L) (K2 (encrypt_block AES key))) /\
     aes_cmac AES key M C =
       cmac_loop (S (Z.to_nat ((len M - 1) / 16))) 0 (encrypt_block C key) zero16 (P ++ X)).
Proof.
  intros Hv Hb Hg Hva Hba Hga HM.
  assert (K1ok : len (K1 (encrypt_block AES key)) = 16 /\ octets (K1 (encrypt_block AES key))) by apply gf_double_ok.
  assert (K2ok : len (K2 (encrypt_block AES key)) = 16 /\ octets (K2 (encrypt_block AES key))) by apply gf_double_ok.
  unfold aes_cmac, cipher_new. rewrite Hv, Hb. cbn [bind Z.eqb Pos.eqb py_assert].
  rewrite (subkey_spec AES key) by auto. cbn [bind]. cbv zeta.
  set (EA := encrypt_block AES key) in *.
  unfold used_subkey, uses_k1.
  destruct ((len M mod 16 =? 0) && (0 <? len M / 16)) eqn:B.
  - assert (B' : (0 <? len M) && (len M mod 16 =? 0) = true) by lia. rewrite B'.
    set (c := (len M / 16 - 1) * 16).
    assert (LL : len (slice_from M c) = 16).
    { unfold slice_from. rewrite len_skipn. unfold c. lia. }
    destruct (unpadded_head (K1 EA) (proj1 K1ok)) as [U1 U2]. split; intros H.
    + rewrite xor_fail; [reflexivity|]. specialize (U2 H). lia.
    + rewrite (U1 H). rewrite xor_ok by lia. cbn [bind].
      exists (slice M 0 c), (slice_from M c), (xor_zip (slice_from M c) (K1 EA)).
      assert (EM : M = slice M 0 c ++ slice_from M c).
      { rewrite slice_0_firstn. unfold slice_from. now rewrite firstn_skipn. }
      assert (OO : octets (slice M 0 c) /\ octets (slice_from M c)) by (apply octets_app; rewrite <- EM; auto).
      split; [exact EM|]. split; [tauto|]. split; [tauto|].
      destruct (octets16_xor (slice_from M c) (K1 EA)) as [X1 X2]; try tauto.
      split; [exact X1|]. split; [exact X2|].
      assert (LP : length (slice M 0 c) = (16 * Z.to_nat ((len M - 1) / 16))%nat).
      { rewrite slice_0_firstn, firstn_length. unfold c, len in *. lia. }
      split; [exact LP|]. split; [left; unfold len in LL; lia|]. split.
      * replace (length (slice_from M c) =? 16)%nat with true
          by (symmetry; apply Nat.eqb_eq; unfold len in LL; lia). reflexivity.
      * f_equal. rewrite len_app, X2. unfold len at 1. rewrite LP. lia.
  - assert (B' : (0 <? len M) && (len M mod 16 =? 0) = false) by (pose proof (len_nonneg M); lia). rewrite B'.
    set (c := len M / 16 * 16). pose proof (len_nonneg M).
    assert (LL : len (slice_from M c) = len M mod 16).
    { unfold slice_from. rewrite len_skipn. unfold c. lia. }
    assert (EM : M = slice M 0 c ++ slice_from M c).
    { rewrite slice_0_firstn. unfold slice_from. now rewrite firstn_skipn. }
    assert (OO : octets (slice M 0 c) /\ octets (slice_from M c)) by (apply octets_app; rewrite <- EM; auto).
    assert (LL' : (length (slice_from M c) <= 15)%nat) by (unfold len in LL; lia).
    rewrite (pad_pad10 _ LL'). destruct (pad10_ok _ (proj2 OO) LL') as [P1 P2].
    destruct (unpadded_head (K2 EA) (proj1 K2ok)) as [U1 U2]. split; intros Hk.
    + rewrite xor_fail; [reflexivity|]. specialize (U2 Hk). lia.
    + rewrite (U1 Hk). rewrite xor_ok by lia. cbn [bind].
      exists (slice M 0 c), (slice_from M c), (xor_zip (pad10 (slice_from M c)) (K2 EA)).
      split; [exact EM|]. split; [tauto|]. split; [tauto|].
      destruct (octets16_xor (pad10 (slice_from M c)) (K2 EA)) as [X1 X2]; try tauto.
      split; [exact X1|]. split; [exact X2|].
      assert (LP : length (slice M 0 c) = (16 * Z.to_nat ((len M - 1) / 16))%nat).
      { rewrite slice_0_firstn, firstn_length. unfold c, len in *. lia. }
      split; [exact LP|]. split.
      { destruct (Z.eq_dec (len M) 0) as [E0|].
        - right. apply len_0_nil in E0. subst M. split; [reflexivity|]. apply len_0_nil. rewrite LL. reflexivity.
        - left. unfold len in *. lia. }
      split.
      * replace (length (slice_from M c) =? 16)%nat with false
          by (symmetry; apply Nat.eqb_neq; lia). reflexivity.
      * f_equal. rewrite len_app, X2. unfold len at 1. rewrite LP.
        replace (Z.of_nat (16 * Z.to_nat ((len M - 1) / 16)) + 16)
          with (16 * (Z.of_nat (Z.to_nat ((len M - 1) / 16)) + 1)) by lia. lia.
Qed.

Record aes_like (A : cipher) (key : str) : Prop := {
  al_valid : valid_key A key = true;
  al_size : block_size A = 16;
  al_good : good_cipher (encrypt_block A key) }.

Lemma cmac_spec A key M : aes_like A key -> octets M ->
  aes_cmac A key M A =
  if nth 0 (used_subkey (encrypt_block A key) M) 0 =? 0 then Raise AssertionError
  else Ok (rfc_cmac (encrypt_block A key) M).
Proof.
  intros [Hv Hb Hg] HM.
  destruct (cmac_any A A key M Hv Hb Hg Hv Hb Hg HM) as [H1 H2].
  destruct (nth 0 (used_subkey (encrypt_block A key) M) 0 =? 0) eqn:E.
  - apply H1. lia.
  - destruct (H2 ltac:(lia)) as (P & L & X & EM & OP & OL & OX & LX & LP & LL & EX & ->).
    unfold rfc_cmac. rewrite EM at 3. 
    apply (chain_spec _ Hg _ zero16 P L X); auto; try apply zeros16_ok.
    + destruct LL as [LL|[-> ->]]; [left; auto|right; split; auto].
    + rewrite EM, app_length. lia.
Qed.

Lemma rfc_cmac_from_ok E fuel : good_cipher E -> forall x m, octets x -> len x = 16 -> octets m ->
  (length m < fuel)%nat -> octets (rfc_cmac_from fuel E x m) /\ len (rfc_cmac_from fuel E x m) = 16.
Proof.
  intros Hg. induction fuel as [|fuel IH]; intros x m Hx Lx Hm Hf; [lia|]. cbn [rfc_cmac_from].
  destruct (gf_double_ok (E zero16)) as [L1 O1]. destruct (gf_double_ok (K1 E)) as [L2 O2].
  fold (K1 E) in *. fold (K2 E) in *.
  destruct (length m <? 16)%nat eqn:B1; [|destruct (length m =? 16)%nat eqn:B2].
  - apply Nat.ltb_lt in B1. change xor_octets with xor_zip. destruct (pad10_ok m Hm ltac:(lia)) as [P1 P2].
    destruct (octets16_xor (pad10 m) (K2 E)); auto. destruct (octets16_xor x (xor_zip (pad10 m) (K2 E))); auto.
  - apply Nat.eqb_eq in B2. assert (len m = 16) by (unfold len; lia). change xor_octets with xor_zip.
    destruct (octets16_xor m (K1 E)); auto. destruct (octets16_xor x (xor_zip m (K1 E))); auto.
  - apply Nat.ltb_ge in B1. change xor_octets with xor_zip.
    destruct (octets16_xor x (firstn 16 m)) as [A B]; auto.
    + apply octets_firstn; auto.
    + rewrite len_firstn. unfold len. lia.
    + destruct (Hg _ A B). apply IH; auto; [apply octets_skipn; auto|rewrite skipn_length; lia].
Qed.
Lemma rfc_cmac_ok E m : good_cipher E -> octets m -> octets (rfc_cmac E m) /\ len (rfc_cmac E m) = 16.
Proof. intros Hg Hm. apply rfc_cmac_from_ok; auto; apply zeros16_ok. Qed.

Lemma cmac_ok A key M t : aes_like A key -> octets M -> aes_cmac A key M A = Ok t ->
  t = rfc_cmac (encrypt_block A key) M /\ octets t /\ len t = 16.
Proof.
  intros HA HM H. rewrite cmac_spec in H by auto.
  destruct (nth 0 _ 0 =? 0); [discriminate|]. injection H as <-.
  split; auto. apply rfc_cmac_ok; auto. apply HA.
Qed.
