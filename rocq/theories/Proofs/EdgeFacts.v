(** Boundary cases: errors and values at the edges of the argument ranges. *)
From Coq Require Import ZArith List Bool Lia.
From Verif Require Import Model.Py Model.Encoding Model.ChaCha Model.CmacSiv Model.Hmac Model.Michael Model.Ecc Model.NumberTheory
  Spec.EncodingSpec Spec.CmacSivSpec Proofs.CmacSivProofs Proofs.SivProofs.
Import ListNotations.
Local Open Scope Z_scope.

Lemma c01_ecc_edges padto : ecc_int_to_string 0 padto = Ok [0] /\ forall n, n < 0 -> ecc_int_to_string n padto = Raise AssertionError.
Proof.
  split; [reflexivity|]. intros n H. unfold ecc_int_to_string. replace (0 <=? n) with false by (symmetry; apply Z.leb_gt; exact H). reflexivity.
Qed.
Lemma c05_printable c : In c ascii_printable <-> 33 <= c <= 126.
Proof.
  unfold ascii_printable. rewrite in_map_iff. split.
  - intros (i & <- & I). apply in_seq in I. lia.
  - intros H. exists (Z.to_nat c). split; [lia|]. apply in_seq. lia.
Qed.
Lemma c19_errors key constant aad iv pt : chacha_poly_aead_encrypt key constant aad iv pt = Raise TypeError /\ chacha_poly_aead_decrypt key constant aad iv = Raise NameError.
Proof. split; reflexivity. Qed.
Lemma c20_bad_key A C key M : valid_key C key = false -> subkey key C = Raise ValueError /\ aes_cmac A key M C = Raise ValueError.
Proof. intros H. unfold subkey, aes_cmac, cipher_new. rewrite H. split; reflexivity. Qed.
Lemma app_last (ads : list str) pt : exists x l, ads ++ [pt] = x :: l.
Proof. destruct ads as [|x l]; [exists pt, []|exists x, (l ++ [pt])]; reflexivity. Qed.
Lemma halves ka kb : len ka = len kb -> 1 <= len ka -> slice (ka ++ kb) 0 (len (ka ++ kb) / 2) = ka /\ slice_last (ka ++ kb) (len (ka ++ kb) / 2) = kb.
Proof.
  intros E P. assert (L : len (ka ++ kb) = 2 * len ka) by (unfold len in *; rewrite app_length; lia).
  rewrite L, Z.mul_comm, Z.div_mul by lia. unfold slice_last. replace (len ka =? 0) with false by (symmetry; apply Z.eqb_neq; lia).
  unfold slice, slice_from. rewrite L. unfold len in *.
  rewrite ?Z.sub_0_r, ?Nat2Z.id. split.
  - change (Z.to_nat 0) with O. cbn [skipn]. rewrite firstn_app, Nat.sub_diag, firstn_all. cbn [firstn]. apply app_nil_r.
  - replace (Z.to_nat (2 * Z.of_nat (length ka) - Z.of_nat (length ka))) with (length ka) by lia. rewrite skipn_app, Nat.sub_diag, skipn_all. reflexivity.
Qed.
Lemma c26_bad_key A ka kb pt ads : len ka = len kb -> 1 <= len ka -> 
  (valid_key A ka = false -> siv_encrypt A (ka ++ kb) pt ads = Raise ValueError) /\ (valid_key A kb = false -> siv_decrypt A (ka ++ kb) pt ads = Raise ValueError).
Proof.
  intros E P. destruct (halves ka kb E P) as (H1 & H2). split; intros V.
  - unfold siv_encrypt. rewrite H1. destruct (app_last ads pt) as (x & l & ->). unfold s2v.
    destruct (c20_bad_key A A ka (str_repeat 0 16) V) as (_ & ->). reflexivity.
  - unfold siv_decrypt. rewrite H2. unfold cipher_new. rewrite V. reflexivity.
Qed.
Lemma c26_empty A key : block_cipher A -> valid_key A key = true -> forall v, s2v A key [] = Ok v -> v = rfc_cmac (encrypt_block A key) (repeat 0 15 ++ [1]).
Proof. intros HA HK v. apply s2v_empty. now apply block_cipher_like. Qed.
Lemma c29_zero_digest T (C : hash T) py27 password salt c k : digest_size C = 0 -> len password <= 63 -> k <= 10000 -> pbkdf2 py27 C password salt c k = Raise ZeroDivisionError.
Proof.
  intros H L K. unfold pbkdf2. replace (63 <? len password) with false by (symmetry; apply Z.ltb_ge; exact L). replace (10000 <? k) with false by (symmetry; apply Z.ltb_ge; exact K). rewrite H. reflexivity.
Qed.
Lemma c29_index n : (- 2 ^ 31 <= n < 2 ^ 31 -> exists s, pack_be_i n = Ok s /\ octets s /\ length s = 4%nat /\ be_value 256 s = n mod 2 ^ 32) /\ (~ - 2 ^ 31 <= n < 2 ^ 31 -> pack_be_i n = Raise ValueError).
Proof.
  unfold pack_be_i. split; intros H.
  - replace ((- 2 ^ 31 <=? n) && (n <? 2 ^ 31)) with true by (symmetry; apply andb_true_iff; split; [apply Z.leb_le|apply Z.ltb_lt]; lia).
    eexists. split; [reflexivity|]. split; [|split; [reflexivity|]].
    + repeat constructor; unfold is_octet; try apply Z.mod_pos_bound; lia.
    + cbn [be_value length]. change (256 ^ Z.of_nat 3) with 16777216. change (256 ^ Z.of_nat 2) with 65536. change (256 ^ Z.of_nat 1) with 256. change (256 ^ Z.of_nat 0) with 1. change (2 ^ 32) with 4294967296. clear H. Z.div_mod_to_equations. lia.
  - replace ((- 2 ^ 31 <=? n) && (n <? 2 ^ 31)) with false; [reflexivity|]. symmetry. apply andb_false_iff. rewrite Z.leb_gt, Z.ltb_ge. lia.
Qed.
Lemma c64_equality P Q : point_eqb P Q = true <-> P = Q.
Proof.
  destruct P as [|x y], Q as [|x' y']; cbn; try (split; [discriminate|discriminate]); [tauto|]. rewrite andb_true_iff, !Z.eqb_eq. split; [intros (-> & ->); reflexivity|]. intros E. injection E as -> ->. split; reflexivity.
Qed.
Lemma c31_no_key data : michael_hash None data = Raise AttributeError.
Proof. reflexivity. Qed.
Lemma c87_zero fuel p a depth identity P : mg_scalar_multiple fuel p a depth identity P 0 = Ok identity.
Proof. destruct depth; reflexivity. Qed.
Lemma c88_negate p a d x y : 0 < p ->
  (te_point p a d x y = Ok (x, y) -> te_negate p a d (x, y) = Ok (- x, y)) /\ (te_point p a d x y = Raise AssertionError -> te_negate p a d (x, y) = Raise AssertionError) /\
  (te_point p a d x y = Ok (x, y) \/ te_point p a d x y = Raise AssertionError).
Proof.
  intros H. unfold te_negate, te_point, te_on_curve. cbn [fst snd]. replace (- x * - x) with (x * x) by ring.
  destruct (_ =? 0); cbn [py_assert bind]; repeat split; auto; discriminate.
Qed.
Lemma c88_zero identity P : te_scalar_multiple identity P 0 = Ok identity.
Proof. reflexivity. Qed.
Lemma c34_setters Sbox m s :
  (len s = 16 -> snd (mixer_setKey Sbox m s) = Ok [] /\ m_tk (fst (mixer_setKey Sbox m s)) = Some s) /\
  (len s <> 16 -> mixer_setKey Sbox m s = (m, Raise TypeError)) /\
  (len s = 6 -> snd (mixer_setTA Sbox m s) = Ok [] /\ m_ta (fst (mixer_setTA Sbox m s)) = Some s /\ snd (mixer_setPnBytes m s) = Ok [] /\ m_pn (fst (mixer_setPnBytes m s)) = s) /\
  (len s <> 6 -> mixer_setTA Sbox m s = (m, Raise TypeError) /\ mixer_setPnBytes m s = (m, Raise AssertionError)).
Proof.
  unfold mixer_setKey, mixer_setTA, mixer_setPnBytes. split; [|split; [|split]]; intros H.
  1, 3: rewrite H; cbn [Z.eqb negb Pos.eqb fst snd m_tk m_ta m_pn]; repeat split.
  - apply Z.eqb_neq in H. rewrite H. reflexivity.
  - apply Z.eqb_neq in H. rewrite H. split; reflexivity.
Qed.
Definition mixed (m : mixer) : Prop := m_tk m <> None -> m_ta m <> None -> m_phase1 m <> None.
Lemma mixed_setKey Sbox m s : mixed m -> mixed (fst (mixer_setKey Sbox m s)).
Proof. unfold mixer_setKey, mixed. destruct (negb _); [auto|]. cbn [fst m_tk m_ta m_phase1]. intros H _ T. destruct (m_ta m); [discriminate|contradiction]. Qed.
Lemma mixed_setTA Sbox m s : mixed m -> mixed (fst (mixer_setTA Sbox m s)).
Proof. unfold mixer_setTA, mixed. destruct (negb _); [auto|]. cbn [fst m_tk m_ta m_phase1]. intros H T _. destruct (m_tk m); [discriminate|contradiction]. Qed.
Lemma mixed_setPn m s : mixed m -> mixed (fst (mixer_setPnBytes m s)).
Proof. unfold mixer_setPnBytes, mixed. destruct (len s =? 6); auto. Qed.
Lemma newKey_spec Sbox m s : mixed m -> mixed (fst (mixer_newKey Sbox m s)) /\
  (m_tk m <> None /\ m_ta m <> None /\ len s = 6 -> exists k, snd (mixer_newKey Sbox m s) = Ok k) /\
  (~ (m_tk m <> None /\ m_ta m <> None /\ len s = 6) -> snd (mixer_newKey Sbox m s) = Raise AssertionError).
Proof.
  intros H. unfold mixer_newKey. destruct (m_ta m) as [ta|] eqn:TA; [|cbn [fst snd]; split; [exact H|]; split; [intros (_ & B & _); contradiction|reflexivity]].
  destruct (m_tk m) as [tk|] eqn:TK; [|cbn [fst snd]; split; [exact H|]; split; [intros (B & _); contradiction|reflexivity]].
  unfold mixer_setPnBytes. destruct (len s =? 6) eqn:L.
  - apply Z.eqb_eq in L. cbn [m_pn m_upper m_tk m_ta]. destruct (negb _).
    + cbn [fst snd m_phase1]. split; [unfold mixed; cbn [m_tk m_ta m_phase1]; discriminate|]. split; [eauto|]. intros B. exfalso. apply B. repeat split; [discriminate|discriminate|exact L].
    + cbn [m_phase1]. destruct (m_phase1 m) as [p1|] eqn:P1; [|exfalso; apply H; [rewrite TK; discriminate|rewrite TA; discriminate|exact P1]].
      cbn [fst snd m_pn]. split; [unfold mixed; cbn [m_tk m_ta m_phase1]; intros _ _; try rewrite P1; discriminate|]. split; [eauto|]. intros B. exfalso. apply B. repeat split; [discriminate|discriminate|exact L].
  - apply Z.eqb_neq in L. cbn [fst snd]. split; [exact H|]. split; [intros (_ & _ & B); contradiction|reflexivity].
Qed.
Lemma mixed_step Sbox m op : mixed m -> mixed (fst (mixer_step Sbox m op)).
Proof. intros H. destruct op; cbn [mixer_step]; [now apply mixed_setKey|now apply mixed_setTA|now apply newKey_spec|now apply mixed_setPn]. Qed.
Lemma mixed_run Sbox ops : forall m, mixed m -> mixed (mixer_run Sbox m ops).
Proof. induction ops as [|op ops IH]; intros m H; [exact H|]. cbn [mixer_run]. apply IH. now apply mixed_step. Qed.
Lemma mixed_new Sbox tk ta pn m : mixer_new Sbox tk ta pn = Ok m -> mixed m.
Proof.
  unfold mixer_new. unfold mixer_setPnBytes at 1. destruct (len pn =? 6); [|discriminate]. cbn [m_tk m_ta m_pn m_upper m_phase1].
  set (m0 := Mixer None None pn (last4 pn) None). assert (M0 : mixed m0) by (unfold mixed; cbn [m_tk m_ta m_phase1]; contradiction).
  assert (K : forall m1, (match tk with Some k => match mixer_setKey Sbox m0 k with (m, Ok _) => Ok m | (_, Raise e) => Raise e end | None => Ok m0 end) = Ok m1 -> mixed m1).
  { intros m1. destruct tk as [k|]; [|intros E; assert (E' : m0 = m1) by congruence; rewrite <- E'; exact M0]. pose proof (mixed_setKey Sbox m0 k M0). destruct (mixer_setKey Sbox m0 k) as (m2, [u|e]); [|discriminate]. cbn [fst] in H. intros E. assert (E' : m2 = m1) by congruence. rewrite <- E'. exact H. }
  destruct (match tk with Some k => _ | None => _ end) as [m1|e]; [|discriminate]. cbn [bind]. specialize (K m1 eq_refl). destruct ta as [t|]; [|intros E; assert (E' : m1 = m) by congruence; rewrite <- E'; exact K].
  pose proof (mixed_setTA Sbox m1 t K) as Q. destruct (mixer_setTA Sbox m1 t) as (m2, [u|e]); [|discriminate]. cbn [fst] in Q. intros E. assert (E' : m2 = m) by congruence. rewrite <- E'. exact Q.
Qed.
Lemma c34_newKey : forall Sbox tk ta pn0 m ops pn, mixer_new Sbox tk ta pn0 = Ok m ->
  let s := mixer_run Sbox m ops in
  (m_tk s <> None /\ m_ta s <> None /\ len pn = 6 -> exists k, snd (mixer_newKey Sbox s pn) = Ok k) /\
  (~ (m_tk s <> None /\ m_ta s <> None /\ len pn = 6) -> snd (mixer_newKey Sbox s pn) = Raise AssertionError).
Proof. intros Sbox tk ta pn0 m ops pn E s. apply newKey_spec. apply mixed_run. eapply mixed_new, E. Qed.
Lemma c48_not_positive fuel a p : p <= 0 -> legendre_symbol a p = Raise TypeError /\ modular_sqrt fuel a p = Raise TypeError.
Proof.
  intros H. assert (E : legendre_symbol a p = Raise TypeError).
  { unfold legendre_symbol, py_pow3. assert ((p - 1) / 2 < 0) by (apply Z.div_lt_upper_bound; lia). replace ((p - 1) / 2 <? 0) with true by (symmetry; apply Z.ltb_lt; assumption). reflexivity. }
  split; [exact E|]. unfold modular_sqrt. rewrite E. reflexivity.
Qed.
Lemma get_neg_last (l : list Z) : l <> [] -> get_neg l 1 = last l 0.
Proof.
  intros N. destruct (exists_last N) as (t & x & ->). rewrite last_last. unfold get_neg. rewrite app_length. cbn [length]. replace (length t + 1 - 1)%nat with (length t) by lia.
  rewrite app_nth2, Nat.sub_diag by lia. reflexivity.
Qed.
Lemma c43_checks poly p : polynomial_reduce_mod poly [] p = Raise IndexError /\
  (forall f, f <> [] -> last f 0 <> 1 \/ len f = 1 -> polynomial_reduce_mod poly f p = Raise AssertionError) /\
  (forall f, 1 < len f -> last f 0 = 1 -> p <> 0 -> exists r, polynomial_reduce_mod poly f p = Ok r).
Proof.
  split; [reflexivity|]. split.
  - intros f N H. unfold polynomial_reduce_mod. rewrite (get_neg_last f N). destruct f as [|c f]; [contradiction|]. destruct (Z.eqb_spec (last (c :: f) 0) 1) as [E|E]; [|reflexivity].
    destruct H as [H|H]; [contradiction|]. rewrite H. reflexivity.
  - intros f L E P. assert (N : f <> []) by (intros ->; cbn in L; lia). unfold polynomial_reduce_mod. rewrite (get_neg_last f N), E. destruct f as [|c f]; [contradiction|].
    apply Z.ltb_lt in L. rewrite L. apply Z.eqb_neq in P. rewrite P. cbn [Z.eqb Pos.eqb py_assert bind]. eauto.
Qed.
