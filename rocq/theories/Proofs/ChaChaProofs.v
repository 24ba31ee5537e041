From Verif Require Import Proofs.Tac Proofs.Bits Model.Encoding Model.ChaCha
  Spec.EncodingSpec Spec.ChaChaSpec Proofs.EncodingProofs.
Local Open Scope Z_scope.

(** ** words *)
Lemma mask_add a b : Z.land (a + b) mask32 = add32 a b.
Proof. unfold mask32, add32. change 0xFFFFFFFF with (2 ^ 32 - 1). apply land_ones_mod. lia. Qed.
Lemma add32_word a b : word (add32 a b).
Proof. unfold word, add32. apply Z.mod_pos_bound. lia. Qed.
Lemma lxor_word a b : word a -> word b -> word (Z.lxor a b).
Proof. unfold word. apply lxor_lt_pow2. lia. Qed.
Lemma rotl32_word x n : 0 < n < 32 -> word x -> word (rotl32 x n).
Proof.
  unfold word, rotl32. intros Hn Hx.
  assert (E : 2 ^ 32 = 2 ^ (32 - n) * 2 ^ n) by (rewrite <- Z.pow_add_r by lia; f_equal; lia).
  assert (P1 : 0 < 2 ^ (32 - n)) by (apply Z.pow_pos_nonneg; lia).
  assert (P2 : 0 < 2 ^ n) by (apply Z.pow_pos_nonneg; lia).
  rewrite E, Z.mul_mod_distr_r by lia. rewrite E in Hx.
  pose proof (Z.mod_pos_bound x (2 ^ (32 - n)) P1).
  assert (0 <= x / 2 ^ (32 - n)) by (apply Z.div_pos; lia).
  assert (x / 2 ^ (32 - n) < 2 ^ n) by (apply Z.div_lt_upper_bound; lia). nia.
Qed.
Lemma rot_spec x n m : 0 <= n <= 32 -> m = 32 - n -> word x ->
  Z.lor (Z.land (Z.shiftl x n) mask32) (Z.shiftr x m) = rotl32 x n.
Proof. intros Hn -> Hx. apply rot_or; auto. Qed.

Lemma q_round_spec a b c d : word a -> word b -> word c -> word d ->
  chacha_q_round a b c d = QR a b c d /\
  let '(a', b', c', d') := QR a b c d in word a' /\ word b' /\ word c' /\ word d'.
Proof.
  intros Ha Hb Hc Hd. unfold chacha_q_round, QR. cbv zeta.
  rewrite !mask_add.
  set (a1 := add32 a b). assert (Wa1 : word a1) by apply add32_word.
  assert (Wx1 : word (Z.lxor d a1)) by (apply lxor_word; auto).
  rewrite (rot_spec (Z.lxor d a1) 16 16) by (lia || auto).
  set (d1 := rotl32 (Z.lxor d a1) 16). assert (Wd1 : word d1) by (apply rotl32_word; auto; lia).
  rewrite ?mask_add. set (c1 := add32 c d1). assert (Wc1 : word c1) by apply add32_word.
  assert (Wx2 : word (Z.lxor b c1)) by (apply lxor_word; auto).
  rewrite (rot_spec (Z.lxor b c1) 12 20) by (lia || auto).
  set (b1 := rotl32 (Z.lxor b c1) 12). assert (Wb1 : word b1) by (apply rotl32_word; auto; lia).
  rewrite ?mask_add. set (a2 := add32 a1 b1). assert (Wa2 : word a2) by apply add32_word.
  assert (Wx3 : word (Z.lxor d1 a2)) by (apply lxor_word; auto).
  rewrite (rot_spec (Z.lxor d1 a2) 8 24) by (lia || auto).
  set (d2 := rotl32 (Z.lxor d1 a2) 8). assert (Wd2 : word d2) by (apply rotl32_word; auto; lia).
  rewrite ?mask_add. set (c2 := add32 c1 d2). assert (Wc2 : word c2) by apply add32_word.
  assert (Wx4 : word (Z.lxor b1 c2)) by (apply lxor_word; auto).
  rewrite (rot_spec (Z.lxor b1 c2) 7 25) by (lia || auto).
  set (b2 := rotl32 (Z.lxor b1 c2) 7). assert (Wb2 : word b2) by (apply rotl32_word; auto; lia).
  split; auto.
Qed.

Definition words (st : list Z) : Prop := Forall word st.

Lemma list16 (st : list Z) : length st = 16%nat ->
  exists x0 x1 x2 x3 x4 x5 x6 x7 x8 x9 x10 x11 x12 x13 x14 x15,
  st = [x0; x1; x2; x3; x4; x5; x6; x7; x8; x9; x10; x11; x12; x13; x14; x15].
Proof.
  intros H. do 16 (destruct st as [|? st]; [discriminate|]). destruct st; [|discriminate].
  repeat eexists.
Qed.

(** one quarter round on an explicit state *)
Lemma qr_step0 x0 x1 x2 x3 x4 x5 x6 x7 x8 x9 x10 x11 x12 x13 x14 x15 : word x0 -> word x4 -> word x8 -> word x12 ->
  let '(a, b, c, d) := QR x0 x4 x8 x12 in
  quarter_round [x0; x1; x2; x3; x4; x5; x6; x7; x8; x9; x10; x11; x12; x13; x14; x15] 0 4 8 12 =
  [a; x1; x2; x3; b; x5; x6; x7; c; x9; x10; x11; d; x13; x14; x15] /\ word a /\ word b /\ word c /\ word d.
Proof.
  intros A B C D. destruct (q_round_spec x0 x4 x8 x12 A B C D) as [E H].
  unfold quarter_round. cbn [get nth]. rewrite E.
  destruct (QR x0 x4 x8 x12) as [[[a b] c] d]. split; [reflexivity|exact H].
Qed.
Lemma qr_step1 x0 x1 x2 x3 x4 x5 x6 x7 x8 x9 x10 x11 x12 x13 x14 x15 : word x1 -> word x5 -> word x9 -> word x13 ->
  let '(a, b, c, d) := QR x1 x5 x9 x13 in
  quarter_round [x0; x1; x2; x3; x4; x5; x6; x7; x8; x9; x10; x11; x12; x13; x14; x15] 1 5 9 13 =
  [x0; a; x2; x3; x4; b; x6; x7; x8; c; x10; x11; x12; d; x14; x15] /\ word a /\ word b /\ word c /\ word d.
Proof.
  intros A B C D. destruct (q_round_spec x1 x5 x9 x13 A B C D) as [E H].
  unfold quarter_round. cbn [get nth]. rewrite E.
  destruct (QR x1 x5 x9 x13) as [[[a b] c] d]. split; [reflexivity|exact H].
Qed.
Lemma qr_step2 x0 x1 x2 x3 x4 x5 x6 x7 x8 x9 x10 x11 x12 x13 x14 x15 : word x2 -> word x6 -> word x10 -> word x14 ->
  let '(a, b, c, d) := QR x2 x6 x10 x14 in
  quarter_round [x0; x1; x2; x3; x4; x5; x6; x7; x8; x9; x10; x11; x12; x13; x14; x15] 2 6 10 14 =
  [x0; x1; a; x3; x4; x5; b; x7; x8; x9; c; x11; x12; x13; d; x15] /\ word a /\ word b /\ word c /\ word d.
Proof.
  intros A B C D. destruct (q_round_spec x2 x6 x10 x14 A B C D) as [E H].
  unfold quarter_round. cbn [get nth]. rewrite E.
  destruct (QR x2 x6 x10 x14) as [[[a b] c] d]. split; [reflexivity|exact H].
Qed.
Lemma qr_step3 x0 x1 x2 x3 x4 x5 x6 x7 x8 x9 x10 x11 x12 x13 x14 x15 : word x3 -> word x7 -> word x11 -> word x15 ->
  let '(a, b, c, d) := QR x3 x7 x11 x15 in
  quarter_round [x0; x1; x2; x3; x4; x5; x6; x7; x8; x9; x10; x11; x12; x13; x14; x15] 3 7 11 15 =
  [x0; x1; x2; a; x4; x5; x6; b; x8; x9; x10; c; x12; x13; x14; d] /\ word a /\ word b /\ word c /\ word d.
Proof.
  intros A B C D. destruct (q_round_spec x3 x7 x11 x15 A B C D) as [E H].
  unfold quarter_round. cbn [get nth]. rewrite E.
  destruct (QR x3 x7 x11 x15) as [[[a b] c] d]. split; [reflexivity|exact H].
Qed.
Lemma qr_step4 x0 x1 x2 x3 x4 x5 x6 x7 x8 x9 x10 x11 x12 x13 x14 x15 : word x0 -> word x5 -> word x10 -> word x15 ->
  let '(a, b, c, d) := QR x0 x5 x10 x15 in
  quarter_round [x0; x1; x2; x3; x4; x5; x6; x7; x8; x9; x10; x11; x12; x13; x14; x15] 0 5 10 15 =
  [a; x1; x2; x3; x4; b; x6; x7; x8; x9; c; x11; x12; x13; x14; d] /\ word a /\ word b /\ word c /\ word d.
Proof.
  intros A B C D. destruct (q_round_spec x0 x5 x10 x15 A B C D) as [E H].
  unfold quarter_round. cbn [get nth]. rewrite E.
  destruct (QR x0 x5 x10 x15) as [[[a b] c] d]. split; [reflexivity|exact H].
Qed.
Lemma qr_step5 x0 x1 x2 x3 x4 x5 x6 x7 x8 x9 x10 x11 x12 x13 x14 x15 : word x1 -> word x6 -> word x11 -> word x12 ->
  let '(a, b, c, d) := QR x1 x6 x11 x12 in
  quarter_round [x0; x1; x2; x3; x4; x5; x6; x7; x8; x9; x10; x11; x12; x13; x14; x15] 1 6 11 12 =
  [x0; a; x2; x3; x4; x5; b; x7; x8; x9; x10; c; d; x13; x14; x15] /\ word a /\ word b /\ word c /\ word d.
Proof.
  intros A B C D. destruct (q_round_spec x1 x6 x11 x12 A B C D) as [E H].
  unfold quarter_round. cbn [get nth]. rewrite E.
  destruct (QR x1 x6 x11 x12) as [[[a b] c] d]. split; [reflexivity|exact H].
Qed.
Lemma qr_step6 x0 x1 x2 x3 x4 x5 x6 x7 x8 x9 x10 x11 x12 x13 x14 x15 : word x2 -> word x7 -> word x8 -> word x13 ->
  let '(a, b, c, d) := QR x2 x7 x8 x13 in
  quarter_round [x0; x1; x2; x3; x4; x5; x6; x7; x8; x9; x10; x11; x12; x13; x14; x15] 2 7 8 13 =
  [x0; x1; a; x3; x4; x5; x6; b; c; x9; x10; x11; x12; d; x14; x15] /\ word a /\ word b /\ word c /\ word d.
Proof.
  intros A B C D. destruct (q_round_spec x2 x7 x8 x13 A B C D) as [E H].
  unfold quarter_round. cbn [get nth]. rewrite E.
  destruct (QR x2 x7 x8 x13) as [[[a b] c] d]. split; [reflexivity|exact H].
Qed.
Lemma qr_step7 x0 x1 x2 x3 x4 x5 x6 x7 x8 x9 x10 x11 x12 x13 x14 x15 : word x3 -> word x4 -> word x9 -> word x14 ->
  let '(a, b, c, d) := QR x3 x4 x9 x14 in
  quarter_round [x0; x1; x2; x3; x4; x5; x6; x7; x8; x9; x10; x11; x12; x13; x14; x15] 3 4 9 14 =
  [x0; x1; x2; a; b; x5; x6; x7; x8; c; x10; x11; x12; x13; d; x15] /\ word a /\ word b /\ word c /\ word d.
Proof.
  intros A B C D. destruct (q_round_spec x3 x4 x9 x14 A B C D) as [E H].
  unfold quarter_round. cbn [get nth]. rewrite E.
  destruct (QR x3 x4 x9 x14) as [[[a b] c] d]. split; [reflexivity|exact H].
Qed.

Lemma inner_block_spec st : length st = 16%nat -> words st ->
  inner_block st = double_round st /\ length (double_round st) = 16%nat /\ words (double_round st).
Proof.
  intros HL HW. destruct (list16 st HL) as (x0&x1&x2&x3&x4&x5&x6&x7&x8&x9&x10&x11&x12&x13&x14&x15&->).
  unfold words in HW. repeat rewrite Forall_cons_iff in HW.
  destruct HW as (W0&W1&W2&W3&W4&W5&W6&W7&W8&W9&W10&W11&W12&W13&W14&W15&_).
  unfold inner_block, double_round. cbv zeta.
  pose proof (qr_step0 x0 x1 x2 x3 x4 x5 x6 x7 x8 x9 x10 x11 x12 x13 x14 x15) as HQ.
  specialize (HQ ltac:(assumption) ltac:(assumption) ltac:(assumption) ltac:(assumption)).
  destruct (QR x0 x4 x8 x12) as [[[y0 y4] y8] y12].
  destruct HQ as (E & ? & ? & ? & ?). rewrite E; clear E.
  pose proof (qr_step1 y0 x1 x2 x3 y4 x5 x6 x7 y8 x9 x10 x11 y12 x13 x14 x15) as HQ.
  specialize (HQ ltac:(assumption) ltac:(assumption) ltac:(assumption) ltac:(assumption)).
  destruct (QR x1 x5 x9 x13) as [[[y1 y5] y9] y13].
  destruct HQ as (E & ? & ? & ? & ?). rewrite E; clear E.
  pose proof (qr_step2 y0 y1 x2 x3 y4 y5 x6 x7 y8 y9 x10 x11 y12 y13 x14 x15) as HQ.
  specialize (HQ ltac:(assumption) ltac:(assumption) ltac:(assumption) ltac:(assumption)).
  destruct (QR x2 x6 x10 x14) as [[[y2 y6] y10] y14].
  destruct HQ as (E & ? & ? & ? & ?). rewrite E; clear E.
  pose proof (qr_step3 y0 y1 y2 x3 y4 y5 y6 x7 y8 y9 y10 x11 y12 y13 y14 x15) as HQ.
  specialize (HQ ltac:(assumption) ltac:(assumption) ltac:(assumption) ltac:(assumption)).
  destruct (QR x3 x7 x11 x15) as [[[y3 y7] y11] y15].
  destruct HQ as (E & ? & ? & ? & ?). rewrite E; clear E.
  pose proof (qr_step4 y0 y1 y2 y3 y4 y5 y6 y7 y8 y9 y10 y11 y12 y13 y14 y15) as HQ.
  specialize (HQ ltac:(assumption) ltac:(assumption) ltac:(assumption) ltac:(assumption)).
  destruct (QR y0 y5 y10 y15) as [[[z0 z5] z10] z15].
  destruct HQ as (E & ? & ? & ? & ?). rewrite E; clear E.
  pose proof (qr_step5 z0 y1 y2 y3 y4 z5 y6 y7 y8 y9 z10 y11 y12 y13 y14 z15) as HQ.
  specialize (HQ ltac:(assumption) ltac:(assumption) ltac:(assumption) ltac:(assumption)).
  destruct (QR y1 y6 y11 y12) as [[[z1 z6] z11] z12].
  destruct HQ as (E & ? & ? & ? & ?). rewrite E; clear E.
  pose proof (qr_step6 z0 z1 y2 y3 y4 z5 z6 y7 y8 y9 z10 z11 z12 y13 y14 z15) as HQ.
  specialize (HQ ltac:(assumption) ltac:(assumption) ltac:(assumption) ltac:(assumption)).
  destruct (QR y2 y7 y8 y13) as [[[z2 z7] z8] z13].
  destruct HQ as (E & ? & ? & ? & ?). rewrite E; clear E.
  pose proof (qr_step7 z0 z1 z2 y3 y4 z5 z6 z7 z8 y9 z10 z11 z12 z13 y14 z15) as HQ.
  specialize (HQ ltac:(assumption) ltac:(assumption) ltac:(assumption) ltac:(assumption)).
  destruct (QR y3 y4 y9 y14) as [[[z3 z4] z9] z14].
  destruct HQ as (E & ? & ? & ? & ?). rewrite E; clear E.
  split; [reflexivity|]. split; [reflexivity|]. unfold words.
  repeat (apply Forall_cons; [assumption|]). apply Forall_nil.
Qed.

Lemma iter_shift {A} (f : A -> A) n x : Nat.iter (S n) f x = Nat.iter n f (f x).
Proof. induction n as [|n IH]; [reflexivity|]. cbn [Nat.iter nat_rect] in *. now rewrite IH. Qed.

Lemma iterate_iter {A} (P : A -> Prop) (f g : A -> A) :
  (forall x, P x -> f x = g x /\ P (g x)) ->
  forall n x, P x -> iterate n f x = Nat.iter n g x /\ P (Nat.iter n g x).
Proof.
  intros H n. induction n as [|n IH]; intros x Px; [split; [reflexivity|exact Px]|].
  destruct (H x Px) as [E Pg]. cbn [iterate]. rewrite E, iter_shift. apply IH, Pg.
Qed.

Lemma iterate_inner n st : length st = 16%nat -> words st ->
  iterate n inner_block st = Nat.iter n double_round st /\
  length (Nat.iter n double_round st) = 16%nat /\ words (Nat.iter n double_round st).
Proof.
  intros HL HW.
  apply (iterate_iter (fun st => length st = 16%nat /\ words st) inner_block double_round).
  - intros x [L W]. apply inner_block_spec; assumption.
  - split; assumption.
Qed.

(** ** lists *)
Lemma set_length l i v : length (set l i v) = length l.
Proof. revert i; induction l; intros [|i]; cbn; auto. Qed.
Lemma set_set l i v w : set (set l i v) i w = set l i w.
Proof. revert i; induction l; intros [|i]; cbn; auto. f_equal. apply IHl. Qed.
Lemma get_set l i v : (i < length l)%nat -> get (set l i v) i = v.
Proof. revert i; induction l; intros [|i]; cbn; intros; try lia; auto. apply IHl. lia. Qed.
Lemma set_get l i : set l i (get l i) = l.
Proof. revert i; induction l; intros [|i]; cbn; auto. f_equal. apply IHl. Qed.

Lemma zip_with_length {A B C} (f : A -> B -> C) a b :
  length (zip_with f a b) = Nat.min (length a) (length b).
Proof. revert b; induction a; intros [|y b]; cbn; auto. Qed.
Lemma zip_with_combine {A B C} (f : A -> B -> C) a b :
  zip_with f a b = map (fun p => f (fst p) (snd p)) (combine a b).
Proof. revert b; induction a; intros [|y b]; cbn; auto. f_equal; auto. Qed.

Lemma quarter_round_length st x y z w : length (quarter_round st x y z w) = length st.
Proof.
  unfold quarter_round. destruct (chacha_q_round _ _ _ _) as [[[a b] c] d].
  now rewrite !set_length.
Qed.
Lemma inner_block_length st : length (inner_block st) = length st.
Proof. unfold inner_block. now rewrite !quarter_round_length. Qed.
Lemma iterate_length_gen {A} (f : list A -> list A) n :
  (forall st, length (f st) = length st) -> forall st, length (iterate n f st) = length st.
Proof. intros H. induction n as [|n IH]; intros st; [reflexivity|]. cbn [iterate]. rewrite IH. apply H. Qed.
Lemma iterate_length n st : length (iterate n inner_block st) = length st.
Proof. apply iterate_length_gen. apply inner_block_length. Qed.

Lemma flat_map_pack_length l : length (flat_map pack_le32 l) = (4 * length l)%nat.
Proof. induction l; cbn [flat_map length]; auto. rewrite app_length, IHl. cbn [length pack_le32]. lia. Qed.

Lemma block_length st : length st = 16%nat -> length (chacha20_block st) = 64%nat.
Proof.
  intros H. unfold chacha20_block. cbv zeta.
  rewrite flat_map_pack_length, zip_with_length, iterate_length, H. reflexivity.
Qed.

Lemma pack_octets w : octets (pack_le32 w).
Proof.
  unfold octets, pack_le32. repeat (apply Forall_cons; [unfold is_octet; apply Z.mod_pos_bound; lia|]).
  apply Forall_nil.
Qed.
Lemma block_octets st : octets (chacha20_block st).
Proof.
  unfold chacha20_block. cbv zeta. induction (zip_with _ _ _); cbn [flat_map]; [constructor|].
  apply octets_app. split; auto. apply pack_octets.
Qed.

Lemma pack_le_octets w : pack_le32 w = le_octets 4 w.
Proof.
  unfold pack_le32. cbn [le_octets]. rewrite !Z.div_div by lia. reflexivity.
Qed.

Lemma block_spec st : length st = 16%nat -> words st ->
  chacha20_block st =
  concat (map (fun p => le_octets 4 (add32 (fst p) (snd p)))
    (combine st (Nat.iter 10 double_round st))).
Proof.
  intros HL HW. unfold chacha20_block. cbv zeta.
  destruct (iterate_inner 10 st HL HW) as (-> & _ & _).
  rewrite zip_with_combine, flat_map_concat_map, map_map. f_equal.
  apply map_ext. intros [a b]. cbn [fst snd]. now rewrite mask_add, pack_le_octets.
Qed.

(** ** initial state *)
Lemma unpack_spec n s : length s = (4 * n)%nat -> unpack_le32 s = map (le_word s) (seq 0 n).
Proof.
  revert s; induction n as [|n IH]; intros s H.
  - destruct s; [reflexivity|discriminate].
  - do 4 (destruct s as [|? s]; [cbn in H; lia|]). cbn [unpack_le32 seq map].
    f_equal.
    + unfold le_word. change (4 * 0)%nat with 0%nat. cbn [skipn firstn le_value]. ring.
    + rewrite IH by (cbn in H; lia). rewrite <- seq_shift, map_map.
      apply map_ext. intros k. unfold le_word. do 2 f_equal.
      replace (4 * S k)%nat with (S (S (S (S (4 * k))))) by lia. reflexivity.
Qed.

Lemma le_value_bound base ds : 1 <= base -> Forall (fun d => 0 <= d < base) ds ->
  0 <= le_value base ds < base ^ len ds.
Proof.
  intros Hb. induction 1 as [|d ds Hd Hds IH]; [cbn; lia|].
  cbn [le_value]. rewrite len_cons. unfold len in *.
  rewrite Z.pow_add_r by lia. rewrite Z.pow_1_r. nia.
Qed.

Lemma le_word_word s n : octets s -> word (le_word s n).
Proof.
  intros H. unfold le_word, word.
  assert (O : octets (firstn 4 (skipn (4 * n) s))) by (apply octets_firstn, octets_skipn, H).
  pose proof (le_value_bound 256 _ ltac:(lia) O) as HB. rewrite len_firstn in HB.
  assert (256 ^ Z.min (Z.of_nat 4) (len (skipn (4 * n) s)) <= 256 ^ 4) by (apply Z.pow_le_mono_r; lia).
  lia.
Qed.

Lemma rfc_state_length key c nonce : length (rfc_state key c nonce) = 16%nat.
Proof. reflexivity. Qed.
Lemma rfc_state_words key c nonce : octets key -> octets nonce -> word c -> words (rfc_state key c nonce).
Proof.
  intros Hk Hn Hc. unfold words, rfc_state. cbn [map seq app].
  repeat (apply Forall_cons; [first [apply le_word_word; assumption | assumption | unfold word; lia]|]).
  apply Forall_nil.
Qed.

Lemma initialize_spec key c nonce : len key = 32 -> len nonce = 12 ->
  initialize key c nonce = Ok (rfc_state key c nonce).
Proof.
  intros Hk Hn. unfold initialize. rewrite Hk, Hn. cbn [Z.eqb Pos.eqb py_assert bind].
  unfold rfc_state. rewrite (unpack_spec 8 key), (unpack_spec 3 nonce) by (unfold len in *; lia).
  reflexivity.
Qed.

Lemma chacha_init_spec rnd key c nonce : len key = 32 -> len nonce = 12 ->
  chacha_init rnd key c (Some nonce) = Ok (rfc_state key c nonce).
Proof.
  intros Hk Hn. unfold chacha_init. destruct nonce as [|b t]; [discriminate|].
  apply initialize_spec; auto.
Qed.

Lemma rfc_state_set key c nonce c' : set (rfc_state key c nonce) 12 c' = rfc_state key c' nonce.
Proof. reflexivity. Qed.
Lemma rfc_state_get key c nonce : get (rfc_state key c nonce) 12 = c.
Proof. reflexivity. Qed.

Lemma block_rfc key c nonce : octets key -> octets nonce -> word c ->
  chacha20_block (rfc_state key c nonce) = rfc_block key c nonce.
Proof. intros. apply block_spec; [reflexivity|]. apply rfc_state_words; auto. Qed.

(** ** encryption *)
Definition stream_xor (ks : nat -> list Z) (pt : list Z) : list Z :=
  map (fun i => Z.lxor (nth i pt 0) (nth (i mod 64) (ks (i / 64)%nat) 0)) (seq 0 (length pt)).

Lemma xor_zip_nth_default a b i : (i < length a)%nat -> (i < length b)%nat ->
  nth i (xor_zip a b) 0 = Z.lxor (nth i a 0) (nth i b 0).
Proof.
  revert b i; induction a as [|x a IH]; intros [|y b] [|i]; cbn; intros; try lia; auto.
  apply IH; lia.
Qed.
Lemma xor_zip_length a b : length (xor_zip a b) = Nat.min (length a) (length b).
Proof. revert b; induction a; intros [|y b]; cbn; auto. Qed.

Lemma skipn_skipn' {A} n m (l : list A) : skipn n (skipn m l) = skipn (m + n) l.
Proof. revert l; induction m; intros l; cbn; auto. destruct l; cbn; auto. now rewrite skipn_nil. Qed.
Lemma nth_skipn {A} (d : A) n i l : nth i (skipn n l) d = nth (n + i) l d.
Proof. revert l; induction n; intros l; cbn; auto. destruct l; cbn; auto. now destruct i. Qed.

Lemma stream_xor_length ks pt : length (stream_xor ks pt) = length pt.
Proof. unfold stream_xor. now rewrite map_length, seq_length. Qed.

Lemma stream_xor_nth ks pt i : (i < length pt)%nat ->
  nth i (stream_xor ks pt) 0 = Z.lxor (nth i pt 0) (nth (i mod 64) (ks (i / 64)%nat) 0).
Proof.
  intros H. unfold stream_xor.
  rewrite (nth_indep _ 0 (Z.lxor (nth 0 pt 0) (nth (0 mod 64) (ks (0 / 64)%nat) 0)))
    by (rewrite map_length, seq_length; lia).
  rewrite (map_nth (fun i => Z.lxor (nth i pt 0) (nth (i mod 64) (ks (i / 64)%nat) 0))).
  rewrite seq_nth by lia. reflexivity.
Qed.

Lemma stream_xor_split ks pt : (forall k, length (ks k) = 64%nat) ->
  stream_xor ks pt = xor_zip pt (ks 0%nat) ++ stream_xor (fun k => ks (S k)) (skipn 64 pt).
Proof.
  intros Hks. apply (nth_ext _ _ 0 0).
  - rewrite app_length, xor_zip_length, !stream_xor_length, skipn_length, Hks. lia.
  - intros i Hi. rewrite stream_xor_length in Hi. rewrite stream_xor_nth by auto.
    assert (HX : length (xor_zip pt (ks 0%nat)) = Nat.min (length pt) 64) by (rewrite xor_zip_length, Hks; auto).
    destruct (lt_dec i 64) as [L|L].
    + rewrite app_nth1 by lia. rewrite xor_zip_nth_default by (rewrite ?Hks; lia).
      rewrite Nat.mod_small, Nat.div_small by lia. reflexivity.
    + rewrite app_nth2, HX by lia. rewrite stream_xor_nth by (rewrite skipn_length; lia).
      replace (Nat.min (length pt) 64) with 64%nat by lia.
      rewrite nth_skipn. replace (64 + (i - 64))%nat with i by lia.
      f_equal. replace i with ((i - 64) + 1 * 64)%nat at 1 2 by lia.
      rewrite Nat.mod_add, Nat.div_add by lia. now rewrite Nat.add_1_r.
Qed.

Lemma stream_concat n : forall ks pt,
  (forall k, length (ks k) = 64%nat) ->
  (length pt <= 64 * n)%nat ->
  concat (map (fun k => xor_zip (skipn (64 * k) pt) (ks k)) (seq 0 n)) = stream_xor ks pt.
Proof.
  induction n as [|n IH]; intros ks pt Hks H1.
  - destruct pt; [reflexivity|cbn in H1; lia].
  - cbn [seq map concat]. rewrite <- seq_shift, map_map.
    rewrite stream_xor_split by auto.
    rewrite <- (IH (fun k => ks (S k)) (skipn 64 pt)); auto; [|rewrite skipn_length; lia].
    f_equal. f_equal. apply map_ext. intros k. f_equal.
    rewrite skipn_skipn'. f_equal. lia.
Qed.

Lemma encrypt_loop_spec n : forall j st pt, (12 < length st)%nat -> 0 <= j ->
  encrypt_loop n j st pt =
  (set st 12 (get st 12 + Z.of_nat n),
   concat (map (fun k => xor_zip (skipn (64 * (Z.to_nat j + k)) pt)
                 (chacha20_block (set st 12 (get st 12 + Z.of_nat k)))) (seq 0 n))).
Proof.
  induction n as [|n IH]; intros j st pt HL Hj.
  - cbn [encrypt_loop seq map concat]. rewrite Z.add_0_r, set_get. reflexivity.
  - cbn [encrypt_loop]. rewrite IH by (rewrite ?set_length; lia).
    rewrite set_set, get_set by lia. cbn [seq map concat]. f_equal.
    + f_equal. lia.
    + rewrite Z.add_0_r, set_get. f_equal.
      * f_equal. unfold slice_from. f_equal. lia.
      * f_equal. rewrite <- seq_shift, map_map. apply map_ext. intros k.
        rewrite set_set. replace (get st 12 + 1 + Z.of_nat k) with (get st 12 + Z.of_nat (S k)) by lia. replace (Z.to_nat (j + 1) + k)%nat with (Z.to_nat j + S k)%nat by lia. reflexivity.
Qed.

Lemma nblocks_code (m : list Z) :
  (if 0 <? len m mod 64 then len m / 64 + 1 else len m / 64) = nblocks m.
Proof. unfold nblocks, len. destruct (_ <? _) eqn:E; lia. Qed.

Lemma chacha_encrypt_spec st pt : length st = 16%nat ->
  chacha_encrypt st pt =
  (set st 12 (get st 12 + nblocks pt),
   stream_xor (fun k => chacha20_block (set st 12 (get st 12 + Z.of_nat k))) pt).
Proof.
  intros HL. unfold chacha_encrypt. cbv zeta. rewrite nblocks_code.
  assert (0 <= nblocks pt) by (unfold nblocks; lia).
  rewrite encrypt_loop_spec by lia. rewrite Z2Nat.id by lia. f_equal.
  rewrite <- (stream_concat (Z.to_nat (nblocks pt))).
  - f_equal.
  - intros k. apply block_length. rewrite set_length. auto.
  - unfold nblocks. lia.
Qed.

Lemma stream_xor_invol ks pt : stream_xor ks (stream_xor ks pt) = pt.
Proof.
  apply (nth_ext _ _ 0 0); [now rewrite !stream_xor_length|].
  intros i Hi. rewrite !stream_xor_length in Hi.
  rewrite !stream_xor_nth by (rewrite ?stream_xor_length; lia). apply lxor_lxor_r.
Qed.

Lemma stream_xor_ext ks ks' pt :
  (forall k, Z.of_nat k < nblocks pt -> ks k = ks' k) -> stream_xor ks pt = stream_xor ks' pt.
Proof.
  intros H. unfold stream_xor. apply map_ext_in. intros i Hi. apply in_seq in Hi.
  rewrite H; auto. unfold nblocks. lia.
Qed.

Lemma rfc_encrypt_stream key c nonce pt :
  rfc_encrypt key c nonce pt = stream_xor (fun k => rfc_block key (c + Z.of_nat k) nonce) pt.
Proof. reflexivity. Qed.

Lemma encrypt_rfc_gen key c nonce pt : octets key -> octets nonce ->
  0 <= c -> c + nblocks pt <= 2 ^ 32 ->
  chacha_encrypt (rfc_state key c nonce) pt =
  (rfc_state key (c + nblocks pt) nonce, rfc_encrypt key c nonce pt).
Proof.
  intros Hk Hn Hc Hb. rewrite chacha_encrypt_spec by reflexivity.
  rewrite rfc_state_get, rfc_state_set. f_equal. rewrite rfc_encrypt_stream.
  apply stream_xor_ext. intros k Hk'. rewrite rfc_state_set. apply block_rfc; auto. unfold word; lia.
Qed.
