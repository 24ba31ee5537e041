From Verif Require Import Proofs.Tac Proofs.Bits Model.Encoding Model.CmacSiv
  Spec.EncodingSpec Spec.CmacSivSpec Spec.AesSpec Proofs.EncodingProofs Proofs.CmacSivProofs
  Proofs.SivProofs Proofs.GfProofs Proofs.AesProofs.
Local Open Scope Z_scope.

(** ** C20, C21 *)
Lemma c20_cmac : forall A key M t, block_cipher A -> octets M ->
  aes_cmac A key M A = Ok t -> t = rfc_cmac (encrypt_block A key) M.
Proof.
  intros A key M t HA HM H. pose proof (cmac_valid _ _ _ _ H) as V.
  apply cmac_ok in H; [tauto|now apply block_cipher_like|auto].
Qed.

Lemma c21_exact : forall A key M, block_cipher A -> valid_key A key = true -> octets M ->
  let E := encrypt_block A key in
  let k := if (0 <? len M) && (len M mod 16 =? 0) then K1 E else K2 E in
  aes_cmac A key M A = if nth 0 k 0 =? 0 then Raise AssertionError else Ok (rfc_cmac E M).
Proof. intros A key M HA V HM E k. rewrite cmac_spec by (auto; now apply block_cipher_like). reflexivity. Qed.

Definition weak_key : str := repeat 0 14 ++ [1; 76].
Lemma c21_refuted : exists key M, valid_key AES key = true /\ octets M /\
  aes_cmac AES key M AES = Raise AssertionError.
Proof. exists weak_key, []. split; [reflexivity|]. split; [constructor|]. vm_compute. reflexivity. Qed.

(** for that key every message fails *)
Lemma c21_weak_key : forall M, octets M -> aes_cmac AES weak_key M AES = Raise AssertionError.
Proof.
  intros M HM. rewrite c21_exact by (auto using aes_block_cipher).
  assert (H1 : nth 0 (K1 (encrypt_block AES weak_key)) 0 =? 0 = true) by (vm_compute; reflexivity).
  assert (H2 : nth 0 (K2 (encrypt_block AES weak_key)) 0 =? 0 = true) by (vm_compute; reflexivity).
  destruct (_ && _); [now rewrite H1|now rewrite H2].
Qed.

(** ** C22 *)
Definition xor_cipher : cipher := {|
  valid_key := fun key => (len key =? 16) && octets_b key;
  block_size := 16;
  encrypt_block := xor_octets |}.

Lemma xor_block_cipher : block_cipher xor_cipher.
Proof.
  constructor; [reflexivity|]. intros key H b Hb Lb. cbn [encrypt_block xor_cipher valid_key] in *.
  apply andb_true_iff in H as [H1 H2]. apply octets_b_ok in H2. apply Z.eqb_eq in H1.
  change xor_octets with xor_zip. now apply octets16_xor.
Qed.

Lemma c22_refuted : exists C key M t, block_cipher C /\ valid_key C key = true /\ octets M /\
  aes_cmac AES key M C = Ok t /\ t <> rfc_cmac (encrypt_block C key) M.
Proof.
  exists xor_cipher, (repeat 1 16), [5], (xor_octets (repeat 1 16) (xor_octets (pad10 [5]) (K2 (aes_block (repeat 1 16))))).
  split; [apply xor_block_cipher|]. split; [reflexivity|]. split; [repeat constructor; unfold is_octet; lia|].
  split; vm_compute; [reflexivity|discriminate].
Qed.

(** ** C23 *)
Lemma c23_mult : forall s, octets s -> len s = 16 ->
  exists r, dbl s = Ok r /\ octets r /\ len r = 16 /\ pmod128 (pmul 2 (be_value 256 s)) (be_value 256 r).
Proof.
  intros s Hs Ls. exists (gf_double s). destruct (gf_double_ok s) as [L O].
  split; [now apply dbl_spec|]. split; [auto|]. split; [auto|]. apply gf_double_char; auto.
Qed.
Lemma c23_linear : forall a b ra rb, octets a -> len a = 16 -> octets b -> len b = 16 ->
  dbl a = Ok ra -> dbl b = Ok rb -> dbl (xor_octets a b) = Ok (xor_octets ra rb).
Proof.
  intros a b ra rb Ha La Hb Lb E1 E2. rewrite dbl_spec in E1, E2 by auto.
  injection E1 as <-. injection E2 as <-. change xor_octets with xor_zip.
  destruct (octets16_xor a b) as [O L]; auto.
  rewrite dbl_spec by auto. f_equal. now apply gf_double_xor.
Qed.
Lemma c23_injective : forall a b, octets a -> len a = 16 -> octets b -> len b = 16 ->
  dbl a = dbl b -> a = b.
Proof.
  intros a b Ha La Hb Lb E. rewrite !dbl_spec in E by auto. assert (E' : gf_double a = gf_double b) by congruence. now apply gf_double_inj.
Qed.
Lemma c23_subkeys : forall C key, block_cipher C -> valid_key C key = true ->
  exists k1 k2, subkey key C = Ok (k1, k2) /\
  pmod128 (pmul 2 (be_value 256 (encrypt_block C key zero16))) (be_value 256 k1) /\
  pmod128 (pmul 2 (be_value 256 k1)) (be_value 256 k2).
Proof.
  intros C key HC V. exists (unpadded (K1 (encrypt_block C key))), (unpadded (K2 (encrypt_block C key))).
  pose proof (bc_good C HC key V zero16 (proj1 zeros16_ok) (proj2 zeros16_ok)) as [O L].
  destruct (gf_double_ok (encrypt_block C key zero16)) as [L1 O1].
  split; [apply subkey_spec; auto; apply HC; auto|].
  assert (U : forall s, octets s -> be_value 256 (unpadded s) = be_value 256 s).
  { intros s Hs. unfold unpadded. rewrite <- (be_value_strip 256 s).
    destruct (strip_zeros s); reflexivity. }
  rewrite !U by (try apply gf_double_ok; auto).
  unfold K2, K1. rewrite (gf_double_value (gf_double _)) by auto. rewrite gf_double_value by auto.
  pose proof (str16_range _ O L) as R. split; apply dblv_mod; auto. now apply dblv_range.
Qed.

(** ** C24-C26 *)
Lemma halves ka kb : len ka = len kb -> 1 <= len ka -> key1_of (ka ++ kb) = ka /\ key2_of (ka ++ kb) = kb.
Proof.
  intros H H1. unfold key1_of, key2_of, slice_last. rewrite len_app.
  replace ((len ka + len kb) / 2) with (len ka) by lia.
  split; [now apply slice_app_l|]. replace (len ka =? 0) with false by lia.
  apply slice_from_app. lia.
Qed.

Lemma c24_round_trip : forall A key pt ads c, block_cipher A -> octets pt -> Forall octets ads ->
  siv_encrypt A key pt ads = Ok c -> siv_decrypt A key c ads = Ok pt.
Proof. exact siv_roundtrip. Qed.

Lemma c25_genuine : forall A key c ads pt, block_cipher A -> octets c -> Forall octets ads ->
  siv_decrypt A key c ads = Ok pt -> siv_encrypt A key pt ads = Ok c.
Proof. intros. eapply siv_genuine; eauto. Qed.

Lemma siv_encrypt_len A key pt ads c : block_cipher A -> octets pt -> strings ads ->
  siv_encrypt A key pt ads = Ok c -> len c = 16 + len pt.
Proof.
  intros HA Hp Hads H. unfold siv_encrypt in H. cbv zeta in H.
  destruct (s2v A _ (ads ++ [pt])) as [iv|e] eqn:Eiv; cbn [bind] in H; [|discriminate].
  pose proof (s2v_valid _ _ _ _ Eiv) as V1.
  destruct (s2v_ok A _ ads pt iv (block_cipher_like A _ HA V1) Hads Hp Eiv) as (_ & Oiv & Liv).
  destruct (cipher_new A _) as [aes|e] eqn:Ea; cbn [bind] in H; [|discriminate].
  destruct (ctr_loop _ 0 _ aes []) as [x|e] eqn:Ex; cbn [bind] in H; [|discriminate].
  destruct (xor pt (slice x 0 (len pt))) as [ct|e] eqn:Ec; cbn [bind] in H; [|discriminate].
  injection H as <-. unfold xor in Ec. destruct (len pt =? len (slice x 0 (len pt))) eqn:EL; [|discriminate].
  injection Ec as <-. rewrite len_app, xor_zip_len. lia.
Qed.

Lemma c25_short : forall A key c ads, block_cipher A -> octets c -> Forall octets ads ->
  len c < 16 -> exists e, siv_decrypt A key c ads = Raise e.
Proof.
  intros A key c ads HA Hc Hads L. destruct (siv_decrypt A key c ads) as [pt|e] eqn:E; [|eauto].
  destruct (siv_genuine A key c ads pt HA Hc Hads E) as [Op H].
  apply siv_encrypt_len in H; auto. unfold len in *. lia.
Qed.

(** two accepted strings carrying the same message are equal; so changing the IV is noticed *)
Lemma c25_change : forall A key c c' ads pt, block_cipher A -> octets c -> octets c' -> Forall octets ads ->
  siv_decrypt A key c ads = Ok pt -> c' <> c -> siv_decrypt A key c' ads <> Ok pt.
Proof.
  intros A key c c' ads pt HA Hc Hc' Hads H N H'.
  apply siv_genuine in H as [_ H]; auto. apply siv_genuine in H' as [_ H']; auto. congruence.
Qed.

Lemma c26_rfc5297 : forall A ka kb pt ads c, block_cipher A -> octets pt -> Forall octets ads ->
  len ka = len kb -> 1 <= len ka -> len pt <= 16 * 2 ^ 31 ->
  siv_encrypt A (ka ++ kb) pt ads = Ok c ->
  c = rfc_siv (encrypt_block A ka) (encrypt_block A kb) pt ads.
Proof.
  intros A ka kb pt ads c HA Hp Hads HL H1 HB H.
  apply siv_spec in H; auto. destruct (halves ka kb HL H1) as [E1 E2]. now rewrite E1, E2 in H.
Qed.

Lemma c26_defined : forall A ka kb pt ads, block_cipher A -> octets pt -> Forall octets ads ->
  len ka = len kb -> 1 <= len ka -> len pt <= 16 * 2 ^ 31 ->
  valid_key A ka = true -> valid_key A kb = true ->
  nth 0 (K1 (encrypt_block A ka)) 0 <> 0 -> nth 0 (K2 (encrypt_block A ka)) 0 <> 0 ->
  siv_encrypt A (ka ++ kb) pt ads = Ok (rfc_siv (encrypt_block A ka) (encrypt_block A kb) pt ads).
Proof.
  intros A ka kb pt ads HA Hp Hads HL H1 HB V1 V2 N1 N2. destruct (halves ka kb HL H1) as [E1 E2].
  rewrite siv_defined; rewrite ?E1, ?E2; auto.
Qed.

Lemma c26_refuted : exists ka kb pt ads, len ka = len kb /\ valid_key AES ka = true /\ valid_key AES kb = true /\
  octets pt /\ Forall octets ads /\ siv_encrypt AES (ka ++ kb) pt ads = Raise AssertionError.
Proof.
  exists weak_key, (repeat 7 16), [1; 2], []. split; [reflexivity|]. split; [reflexivity|]. split; [reflexivity|].
  split; [repeat constructor; unfold is_octet; lia|]. split; [constructor|]. vm_compute. reflexivity.
Qed.

Lemma be_octets_inj n x y : 0 <= x < 256 ^ Z.of_nat n -> 0 <= y < 256 ^ Z.of_nat n ->
  be_octets n x = be_octets n y -> x = y.
Proof.
  intros Hx Hy H. apply (f_equal (be_value 256)) in H. rewrite !be_octets_value in H.
  now rewrite !Z.mod_small in H by auto.
Qed.

Lemma c26_counters : forall v i j, octets v -> len v = 16 -> 0 <= i < 2 ^ 31 -> 0 <= j < 2 ^ 31 -> i <> j ->
  be_octets 16 (siv_q v + i) <> be_octets 16 (siv_q v + j) /\
  0 <= siv_q v + i < 2 ^ 128 /\
  (siv_q v + i) / 2 ^ 32 = siv_q v / 2 ^ 32.
Proof.
  intros v i j Hv Lv Hi Hj N. destruct (siv_q_range v Hv Lv) as (Q1 & Q2 & Q3).
  set (q := siv_q v) in *. clearbody q.
  change (2 ^ 31) with 2147483648 in *. change (2 ^ 32) with 4294967296 in *.
  change (2 ^ 128) with 340282366920938463463374607431768211456 in *.
  split; [|split; [lia|]].
  - intros H. apply be_octets_inj in H; [lia| |];
    change (256 ^ Z.of_nat 16) with 340282366920938463463374607431768211456; lia.
  - pose proof (Z.mod_pos_bound q 4294967296 ltac:(lia)).
    symmetry. apply Z.div_unique with (q mod 4294967296 + i); [lia|].
    pose proof (Z.div_mod q 4294967296 ltac:(lia)). lia.
Qed.
