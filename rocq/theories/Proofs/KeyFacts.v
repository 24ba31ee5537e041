(** Which keys are equivalent: Poly1305, HMAC (and PBKDF2), ChaCha20 (C94-C96) *)
From Verif Require Import Proofs.Tac Proofs.Bits Model.Encoding Model.ChaCha Model.Hmac
  Spec.EncodingSpec Spec.ChaChaSpec Proofs.EncodingProofs Proofs.ChaChaProofs Proofs.PolyProofs Proofs.ChaChaHist Proofs.ChaChaFacts.
From Verif Require Proofs.Universal.
Local Open Scope Z_scope.

(** ** Poly1305 *)
Lemma le_octets_inj n x y : le_octets n x = le_octets n y -> x mod 256 ^ Z.of_nat n = y mod 256 ^ Z.of_nat n.
Proof. intros E. rewrite <- !le_octets_value. now rewrite E. Qed.

Definition zero_block : str := repeat 0 16.
Definition one_block : str := 1 :: repeat 0 15.

Lemma eval_nil r : poly1305_eval [] r = 0.
Proof. reflexivity. Qed.
Lemma eval_zero r : poly1305_eval zero_block r = (2 ^ 128 * r) mod p1305.
Proof.
  unfold poly1305_eval. change (nblocks16 zero_block) with 1%nat. cbn [seq map zsum Nat.sub Z.of_nat].
  change (poly_coeff zero_block 0) with (2 ^ 128). change (Z.of_nat 1) with 1. rewrite Z.pow_1_r. f_equal. ring.
Qed.
Lemma eval_one r : poly1305_eval one_block r = ((2 ^ 128 + 1) * r) mod p1305.
Proof.
  unfold poly1305_eval. change (nblocks16 one_block) with 1%nat. cbn [seq map zsum Nat.sub Z.of_nat].
  change (poly_coeff one_block 0) with (2 ^ 128 + 1). change (Z.of_nat 1) with 1. rewrite Z.pow_1_r. f_equal. ring.
Qed.

(** two residues modulo p that agree in the low 128 bits *)
Lemma low_agree u v s : ((u mod p1305) + s) mod 2 ^ 128 = ((v mod p1305) + s) mod 2 ^ 128 -> exists j q, -3 <= j <= 3 /\ u - v = j * 2 ^ 128 + q * p1305.
Proof.
  intros E. assert (P : p1305 = 4 * 2 ^ 128 - 5) by reflexivity.
  set (B := 2 ^ 128) in *. assert (HB : 16 < B) by (unfold B; lia).
  pose proof (Z.mod_pos_bound u p1305 ltac:(lia)) as U. pose proof (Z.mod_pos_bound v p1305 ltac:(lia)) as V.
  pose proof (Z.div_mod u p1305 ltac:(lia)) as DU. pose proof (Z.div_mod v p1305 ltac:(lia)) as DV.
  pose proof (Z.div_mod (u mod p1305 + s) B ltac:(lia)) as D1. pose proof (Z.div_mod (v mod p1305 + s) B ltac:(lia)) as D2.
  rewrite E in D1.
  set (a := u mod p1305) in *. set (b := v mod p1305) in *. set (qa := (a + s) / B) in *. set (qb := (b + s) / B) in *.
  exists (qa - qb), (u / p1305 - v / p1305).
  assert (K : a - b = B * (qa - qb)) by lia.
  clearbody a b qa qb. clear E D1 D2.
  split; [|rewrite DU, DV at 1; replace ((qa - qb) * B) with (a - b) by lia; ring].
  clear DU DV. rewrite P in U, V. clear P. clearbody B. nia.
Qed.

Lemma two_residues r r' j0 q0 j1 q1 : 0 <= r < 2 ^ 128 -> 0 <= r' < 2 ^ 128 -> -3 <= j0 <= 3 -> -3 <= j1 <= 3 ->
  2 ^ 128 * r - 2 ^ 128 * r' = j0 * 2 ^ 128 + q0 * p1305 ->
  (2 ^ 128 + 1) * r - (2 ^ 128 + 1) * r' = j1 * 2 ^ 128 + q1 * p1305 -> r = r'.
Proof.
  intros R R' J0 J1 E0 E1.
  assert (P : p1305 = 4 * 2 ^ 128 - 5) by reflexivity. rewrite P in *. clear P.
  set (B := 2 ^ 128) in *. assert (HB : B = 340282366920938463463374607431768211456) by reflexivity. clearbody B. subst B.
  assert (X : r - r' = j0).
  { assert (Y : 5 * (r - r' - j0) = 1361129467683753853853498429727072845819 * (4 * q0 - (r - r' - j0))) by lia.
    clear E0 E1. set (x := r - r' - j0) in *. assert (-340282366920938463463374607431768211460 <= x <= 340282366920938463463374607431768211460) by lia.
    set (t := 4 * q0 - x) in *. assert (-1 <= t <= 1) by lia. assert (t = -1 \/ t = 0 \/ t = 1) as [T|[T|T]] by lia; lia. }
  assert (D1 : j0 = (j1 - j0) * 340282366920938463463374607431768211456 + (q1 - q0) * 1361129467683753853853498429727072845819) by lia.
  assert (Q : -2 <= q1 - q0 <= 2) by lia. clear E0 E1. set (t := q1 - q0) in *. set (k := j1 - j0) in *.
  assert (t = -2 \/ t = -1 \/ t = 0 \/ t = 1 \/ t = 2) as [T|[T|[T|[T|T]]]] by lia; lia.
Qed.

Lemma s_bound key : octets key -> 0 <= le_value 256 (firstn 16 (skipn 16 key)) < 2 ^ 128.
Proof.
  intros O. assert (O' : octets (firstn 16 (skipn 16 key))) by (apply Forall_forall; intros x Hx; apply (proj1 (Forall_forall _ _) O); rewrite <- (firstn_skipn 16 key), <- (firstn_skipn 16 (skipn 16 key)); apply in_or_app; right; apply in_or_app; now left).
  pose proof (Universal.le_value_bound _ O') as [L U]. split; [exact L|].
  eapply Z.lt_le_trans; [exact U|]. change (2 ^ 128) with (256 ^ 16). apply Z.pow_le_mono_r; [lia|].
  unfold len. rewrite firstn_length. lia.
Qed.

Lemma c94_three : forall k k', octets k -> octets k' -> len k = 32 -> len k' = 32 ->
  (forall m, In m [[]; repeat 0 16; 1 :: repeat 0 15] -> poly1305_mac m k = poly1305_mac m k') ->
  rfc_clamp k = rfc_clamp k' /\ skipn 16 k = skipn 16 k'.
Proof.
  intros k k' O O' L L' H.
  assert (H' : forall m, In m [[]; zero_block; one_block] ->
    (poly1305_eval m (rfc_clamp k) + le_value 256 (firstn 16 (skipn 16 k))) mod 2 ^ 128 = (poly1305_eval m (rfc_clamp k') + le_value 256 (firstn 16 (skipn 16 k'))) mod 2 ^ 128).
  { intros m Hm. specialize (H m Hm). rewrite !c13_poly1305 in H by assumption. apply (f_equal (fun r => match r with Ok a => a | Raise _ => [] end)) in H. cbv beta iota in H. unfold rfc_poly1305 in H. cbv zeta in H.
    apply le_octets_inj in H. change (256 ^ Z.of_nat 16) with (2 ^ 128) in H. now rewrite !Z.mod_mod in H by (apply Z.pow_nonzero; lia). }
  pose proof (s_bound k O) as S. pose proof (s_bound k' O') as S'.
  pose proof (Universal.clamp_range k O) as R. pose proof (Universal.clamp_range k' O') as R'.
  pose proof (H' [] ltac:(left; reflexivity)) as E. rewrite !eval_nil, !Z.add_0_l, !Z.mod_small in E by assumption.
  pose proof (H' zero_block ltac:(right; left; reflexivity)) as E0. pose proof (H' one_block ltac:(right; right; left; reflexivity)) as E1.
  rewrite !eval_zero, <- E in E0. rewrite !eval_one, <- E in E1.
  apply low_agree in E0 as (j0 & q0 & J0 & E0). apply low_agree in E1 as (j1 & q1 & J1 & E1).
  split; [exact (two_residues _ _ _ _ _ _ R R' J0 J1 E0 E1)|].
  assert (Ls : length (skipn 16 k) = 16%nat) by (rewrite skipn_length; unfold len in L; lia).
  assert (Ls' : length (skipn 16 k') = 16%nat) by (rewrite skipn_length; unfold len in L'; lia).
  rewrite !firstn_all2 in E by lia.
  apply Universal.le_value_inj; [congruence| | |exact E].
  - apply Forall_forall. intros x Hx. apply (proj1 (Forall_forall _ _) O). rewrite <- (firstn_skipn 16 k). apply in_or_app. now right.
  - apply Forall_forall. intros x Hx. apply (proj1 (Forall_forall _ _) O'). rewrite <- (firstn_skipn 16 k'). apply in_or_app. now right.
Qed.

Lemma c94_equivalent : forall k k', octets k -> octets k' -> len k = 32 -> len k' = 32 ->
  ((forall m, poly1305_mac m k = poly1305_mac m k') <-> rfc_clamp k = rfc_clamp k' /\ skipn 16 k = skipn 16 k').
Proof.
  intros k k' O O' L L'. split.
  - intros H. apply c94_three; auto.
  - intros [R S] m. rewrite !c13_poly1305 by assumption. unfold rfc_poly1305. now rewrite R, S.
Qed.

(** the 22 bits that the clamp clears do not matter: every key has another one that gives the same tags *)
Lemma c94_refuted : forall k, octets k -> len k = 32 -> exists k', octets k' /\ len k' = 32 /\ k' <> k /\ forall m, poly1305_mac m k' = poly1305_mac m k.
Proof.
  intros k O L. do 32 (destruct k as [|? k]; [discriminate L|]). destruct k; [|unfold len in L; cbn [length] in L; lia].
  exists [z; z0; z1; (z2 + 128) mod 256; z3; z4; z5; z6; z7; z8; z9; z10; z11; z12; z13; z14; z15; z16; z17; z18; z19; z20; z21; z22; z23; z24; z25; z26; z27; z28; z29; z30].
  assert (O2 : is_octet z2) by (apply (proj1 (Forall_forall _ _) O); right; right; right; left; reflexivity).
  match goal with |- octets ?a /\ _ => assert (O' : octets a) end.
  { unfold octets in *. repeat match goal with H : Forall _ (_ :: _) |- _ => inversion H; clear H; subst end.
    repeat (apply Forall_cons; [solve [assumption | unfold is_octet; apply Z.mod_pos_bound; lia]|]). apply Forall_nil. }
  split; [exact O'|]. split; [reflexivity|]. split.
  { intros E. injection E as E. unfold is_octet in O2. destruct (Z_lt_dec z2 128); [rewrite Z.mod_small in E by lia; lia|].
    replace (z2 + 128) with ((z2 - 128) + 1 * 256) in E by lia. rewrite Z.mod_add, Z.mod_small in E by lia. lia. }
  apply c94_equivalent; auto. split; [|reflexivity].
  unfold rfc_clamp. cbn [seq map nth existsb Nat.eqb orb].
  assert (M : ((z2 + 128) mod 256) mod 16 = z2 mod 16).
  { unfold is_octet in O2. Z.div_mod_to_equations. lia. }
  rewrite M. reflexivity.
Qed.

(** ** HMAC *)
Lemma lxor_inj c a b : Z.lxor a c = Z.lxor b c -> a = b.
Proof.
  intros E. rewrite <- (Z.lxor_0_r a), <- (Z.lxor_0_r b), <- (Z.lxor_nilpotent c), <- !Z.lxor_assoc. now rewrite E.
Qed.

Lemma map_lxor_inj c : forall a b, map (fun x => Z.lxor x c) a = map (fun x => Z.lxor x c) b -> a = b.
Proof.
  induction a as [|x a IH]; intros [|y b] E; cbn [map] in E; try discriminate; auto.
  injection E as E1 E2. f_equal; [now apply lxor_inj in E1|auto].
Qed.

Lemma hmac_new_short {T} (C : hash T) k : len k <= raw_block_size C ->
  hmac_new C (Some k) =
  let kp := k ++ str_repeat 0 (raw_block_size C - len k) in
  Hmac (h_update C (h_reset C (h_new C)) (map (fun b => Z.lxor b 0x36) kp)) (h_new C) (map (fun b => Z.lxor b 0x36) kp) (map (fun b => Z.lxor b 0x5C) kp) true.
Proof.
  intros L. unfold hmac_new, hmac_setKey. destruct (raw_block_size C <? len k) eqn:E; [lia|]. reflexivity.
Qed.

Lemma str_repeat_zero n : str_repeat 0 n = repeat 0 (Z.to_nat n).
Proof. reflexivity. Qed.

(** padded to any common length *)
Lemma pad_common k k' z z' n : k ++ repeat 0 z = k' ++ repeat 0 z' -> (length k <= n)%nat -> (length k' <= n)%nat ->
  k ++ repeat 0 (n - length k) = k' ++ repeat 0 (n - length k').
Proof.
  intros E L L'. apply (nth_ext _ _ 0 0).
  - rewrite !app_length, !repeat_length. lia.
  - intros i _. assert (N : forall (l : list Z) m, nth i (l ++ repeat 0 m) 0 = nth i l 0).
    { intros l m. destruct (lt_dec i (length l)) as [D|D]; [now rewrite app_nth1|].
      rewrite app_nth2, (nth_overflow l) by lia. apply nth_repeat. }
    rewrite !N. apply (f_equal (fun l => nth i l 0)) in E. now rewrite !N in E.
Qed.

Lemma c95_equivalent : forall T (C : hash T) k k', len k <= raw_block_size C -> len k' <= raw_block_size C ->
  (hmac_new C (Some k) = hmac_new C (Some k') <-> exists z z', k ++ repeat 0 z = k' ++ repeat 0 z').
Proof.
  intros T C k k' L L'. rewrite !hmac_new_short by assumption. cbv zeta. rewrite !str_repeat_zero. split.
  - intros E. injection E as _ E _. apply map_lxor_inj in E. eauto.
  - intros (z & z' & E).
    assert (P : k ++ repeat 0 (Z.to_nat (raw_block_size C - len k)) = k' ++ repeat 0 (Z.to_nat (raw_block_size C - len k'))).
    { unfold len in *.
      replace (Z.to_nat (raw_block_size C - Z.of_nat (length k))) with (Z.to_nat (raw_block_size C) - length k)%nat by lia.
      replace (Z.to_nat (raw_block_size C - Z.of_nat (length k'))) with (Z.to_nat (raw_block_size C) - length k')%nat by lia.
      eapply pad_common; [exact E|lia|lia]. }
    now rewrite P.
Qed.

Lemma c95_refuted : forall T (C : hash T) k z, len k + Z.of_nat z <= raw_block_size C ->
  forall ops, hmac_run C (hmac_new C (Some (k ++ repeat 0 z))) ops = hmac_run C (hmac_new C (Some k)) ops.
Proof.
  intros T C k z L ops. replace (hmac_new C (Some (k ++ repeat 0 z))) with (hmac_new C (Some k)); [reflexivity|].
  apply c95_equivalent; [unfold len in *; lia| |exists z, 0%nat; cbn [repeat]; now rewrite app_nil_r].
  unfold len in *. rewrite app_length, repeat_length. lia.
Qed.

Lemma c95_passphrase : forall T py27 (C : hash T) pass ssid z, 8 <= len pass -> len pass + Z.of_nat z <= 63 -> 63 <= raw_block_size C ->
  dot11PassPhraseToPSK py27 C (pass ++ repeat 0 z) ssid = dot11PassPhraseToPSK py27 C pass ssid.
Proof.
  intros T py27 C pass ssid z L U B.
  assert (Lz : len (pass ++ repeat 0 z) = len pass + Z.of_nat z) by (unfold len; rewrite app_length, repeat_length; lia).
  assert (E : hmac_new C (Some (pass ++ repeat 0 z)) = hmac_new C (Some pass)).
  { apply c95_equivalent; [lia|lia|exists 0%nat, z; cbn [repeat]; now rewrite app_nil_r]. }
  unfold dot11PassPhraseToPSK, pbkdf2. rewrite Lz, E.
  destruct ((7 <? len pass) && (len pass <? 64)) eqn:E1; [|lia].
  destruct ((7 <? len pass + Z.of_nat z) && (len pass + Z.of_nat z <? 64)) eqn:E2; [|lia]. cbn [py_assert bind].
  destruct (63 <? len pass) eqn:E3; [lia|]. destruct (63 <? len pass + Z.of_nat z) eqn:E4; [lia|]. reflexivity.
Qed.

(** ** ChaCha20 *)
Lemma nth_firstn_lt {A} (d : A) n i l : (i < n)%nat -> nth i (firstn n l) d = nth i l d.
Proof. revert i l; induction n; intros [|i] [|x l] H; cbn; auto; try lia. apply IHn. lia. Qed.

Lemma le_word_inj n a b : octets a -> octets b -> length a = (4 * n)%nat -> length b = (4 * n)%nat ->
  map (le_word a) (seq 0 n) = map (le_word b) (seq 0 n) -> a = b.
Proof.
  intros O O' L L' E. pose proof (ext_in_map E) as W.
  apply (nth_ext _ _ 0 0); [congruence|]. intros i Hi.
  assert (Hq : (i / 4 < n)%nat) by (apply Nat.div_lt_upper_bound; lia).
  specialize (W (i / 4)%nat ltac:(apply in_seq; lia)). unfold le_word in W.
  assert (Sub : forall (l : list Z) m, octets l -> octets (firstn 4 (skipn m l))).
  { intros l m Ol. apply Forall_forall. intros x Hx. apply (proj1 (Forall_forall _ _) Ol).
    rewrite <- (firstn_skipn m l), <- (firstn_skipn 4 (skipn m l)). apply in_or_app. right. apply in_or_app. now left. }
  apply Universal.le_value_inj in W; auto.
  - apply (f_equal (fun l => nth (i mod 4) l 0)) in W.
    assert (D : i = (4 * (i / 4) + i mod 4)%nat) by (apply Nat.div_mod; lia).
    assert (M : (i mod 4 < 4)%nat) by (apply Nat.mod_upper_bound; lia).
    assert (N : forall l : list Z, nth (i mod 4) (firstn 4 (skipn (4 * (i / 4)) l)) 0 = nth i l 0).
    { intros l. rewrite nth_firstn_lt by exact M. rewrite nth_skipn. now rewrite <- D. }
    now rewrite !N in W.
  - rewrite !firstn_length, !skipn_length, L, L'. reflexivity.
Qed.

Lemma c96_injective : forall rnd rnd' key key' counter counter' nonce nonce' st, octets key -> octets key' -> octets nonce -> octets nonce' -> nonce <> [] -> nonce' <> [] ->
  chacha_init rnd key counter (Some nonce) = Ok st -> chacha_init rnd' key' counter' (Some nonce') = Ok st ->
  key = key' /\ counter = counter' /\ nonce = nonce'.
Proof.
  intros rnd rnd' key key' counter counter' nonce nonce' st O O' N N' Z0 Z1 E E'.
  unfold chacha_init in *. destruct nonce as [|b t]; [congruence|]. destruct nonce' as [|b' t']; [congruence|].
  apply initialize_ok in E as (K & L & ->). apply initialize_ok in E' as (K' & L' & E).
  unfold rfc_state in E. apply app_inv_head in E. apply app_inv_len in E as [E1 E2]; [|now rewrite !map_length].
  apply app_inv_len in E2 as [E2 E3]; [|reflexivity].
  unfold len in *. split; [apply (le_word_inj 8); auto; lia|]. split; [congruence|]. apply (le_word_inj 3); auto; lia.
Qed.

(** messages under the same state: the sum of the cipher texts is the sum of the messages *)
Lemma c96_reuse : forall st m m' i, length st = 16%nat -> (i < length m)%nat -> (i < length m')%nat ->
  Z.lxor (nth i (snd (chacha_encrypt st m)) 0) (nth i (snd (chacha_encrypt st m')) 0) = Z.lxor (nth i m 0) (nth i m' 0).
Proof.
  intros st m m' i L H H'. rewrite !chacha_encrypt_spec by exact L. cbn [snd]. rewrite !stream_xor_nth by assumption.
  generalize (nth (i mod 64) (chacha20_block (set st 12 (get st 12 + Z.of_nat (i / 64)))) 0). intros x.
  apply Z.bits_inj'. intros j _. rewrite !Z.lxor_spec. now destruct (Z.testbit _ j), (Z.testbit _ j), (Z.testbit _ j).
Qed.

Lemma c96_malleable : forall rnd1 rnd2 rnd3 rnd4 key constant aad iv pt delta ct tag,
  octets key -> octets constant -> octets iv -> len key = 32 -> len (constant ++ iv) = 12 -> 1 + nblocks pt <= 2 ^ 32 ->
  aead_encrypt rnd1 rnd2 key constant aad iv pt = Ok (ct, tag) -> length delta = length pt ->
  exists tag', aead_decrypt rnd3 rnd4 key constant aad iv (map (fun i => Z.lxor (nth i ct 0) (nth i delta 0)) (seq 0 (length ct)))
               = Ok (map (fun i => Z.lxor (nth i pt 0) (nth i delta 0)) (seq 0 (length pt)), tag').
Proof.
  intros rnd1 rnd2 rnd3 rnd4 key constant aad iv pt delta ct tag O Oc Oi K N B E D.
  rewrite aead_spec in E by assumption. unfold rfc_aead in E. cbv zeta in E.
  apply (f_equal (fun r => match r with Ok a => fst a | Raise _ => [] end)) in E. cbv beta iota delta [fst] in E.
  assert (L : length ct = length pt) by (rewrite <- E; apply rfc_encrypt_length).
  unfold aead_decrypt. rewrite aead_spec; auto.
  2: { unfold nblocks in *. rewrite map_length, seq_length, L. exact B. }
  unfold rfc_aead. cbv zeta. eexists.
  match goal with |- Ok (?x, ?t) = Ok (?y, _) => cut (x = y); [intros ->; reflexivity|] end. unfold rfc_encrypt at 1. rewrite map_length, seq_length, L.
  apply map_ext_in. intros i Hi. apply in_seq in Hi.
  assert (NT : forall f (n : nat), (i < n)%nat -> nth i (map f (seq 0 n)) 0 = f i :> Z).
  { intros f n Hn. rewrite (nth_indep _ 0 (f 0%nat)) by (rewrite map_length, seq_length; lia). rewrite map_nth, seq_nth by lia. reflexivity. }
  rewrite NT by lia. rewrite <- E at 1. unfold rfc_encrypt. rewrite NT by lia.
  generalize (rfc_key_octet key 1 (constant ++ iv) i). intros x.
  apply Z.bits_inj'. intros j _. rewrite !Z.lxor_spec. now destruct (Z.testbit _ j), (Z.testbit _ j), (Z.testbit _ j).
Qed.
