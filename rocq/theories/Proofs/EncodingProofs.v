From Coq Require Import String.
From Verif Require Import Proofs.Tac Model.Encoding Spec.EncodingSpec.
Local Open Scope Z_scope.

(** ** positional notation *)
Lemma be_value_app base a b :
  be_value base (a ++ b) = be_value base a * base ^ len b + be_value base b.
Proof.
  induction a as [|d a IH]; cbn [app be_value]; [lia|].
  rewrite IH, app_length, Nat2Z.inj_add. unfold len in *.
  rewrite Z.pow_add_r by lia. ring.
Qed.

Lemma be_value_bound base ds :
  1 <= base -> Forall (fun d => 0 <= d < base) ds ->
  0 <= be_value base ds < base ^ len ds.
Proof.
  intros Hb. induction 1 as [|d ds Hd Hds IH]; [cbn; lia|].
  cbn [be_value]. rewrite len_cons. unfold len in *.
  rewrite Z.pow_add_r by lia. rewrite Z.pow_1_r. nia.
Qed.

Lemma be_value_repeat0 base n : be_value base (repeat 0 n) = 0.
Proof. induction n; cbn [repeat be_value]; lia. Qed.

Lemma be_value_inj base a b :
  1 <= base -> length a = length b ->
  Forall (fun d => 0 <= d < base) a -> Forall (fun d => 0 <= d < base) b ->
  be_value base a = be_value base b -> a = b.
Proof.
  intros Hb. revert b. induction a as [|x a IH]; intros [|y b] HL Ha Hbb HV; try discriminate; auto.
  inversion Ha; inversion Hbb; subst. cbn [be_value] in HV.
  injection HL as HL. rewrite HL in HV.
  pose proof (be_value_bound base a Hb ltac:(assumption)).
  pose proof (be_value_bound base b Hb ltac:(assumption)).
  unfold len in *. rewrite HL in *.
  assert (x = y) by nia. subst. f_equal. apply IH; auto. lia.
Qed.

Lemma strip_app_repeat n s :
  strip_zeros (repeat 0 n ++ s) = strip_zeros s.
Proof. induction n; cbn; auto. Qed.

Lemma strip_decomp s : exists n, s = repeat 0 n ++ strip_zeros s.
Proof.
  induction s as [|x s IH]; [exists 0%nat; reflexivity|].
  cbn [strip_zeros]. destruct (Z.eq_dec x 0) as [->|Hx].
  - destruct IH as [n E]. exists (S n). cbn. congruence.
  - exists 0%nat. destruct x; [congruence|reflexivity|reflexivity].
Qed.

Lemma strip_no_leading s : no_leading_zero (strip_zeros s).
Proof.
  induction s as [|x s IH]; cbn; auto.
  destruct x; auto; cbn; discriminate.
Qed.

Lemma strip_id s : no_leading_zero s -> strip_zeros s = s.
Proof. destruct s as [|[| |] s]; cbn; intros; auto. congruence. Qed.

Lemma be_value_strip base s : be_value base (strip_zeros s) = be_value base s.
Proof.
  destruct (strip_decomp s) as [n E]. rewrite E at 2.
  rewrite be_value_app, be_value_repeat0. lia.
Qed.

Lemma no_leading_lower base d t :
  2 <= base -> Forall (fun d => 0 <= d < base) (d :: t) -> no_leading_zero (d :: t) ->
  base ^ len t <= be_value base (d :: t).
Proof.
  intros Hb HF Hn. inversion HF; subst. cbn in Hn.
  pose proof (be_value_bound base t ltac:(lia) ltac:(assumption)).
  cbn [be_value]. unfold len in *. nia.
Qed.

(** canonical digit lists are unique *)
Lemma canonical_unique base a b :
  2 <= base ->
  Forall (fun d => 0 <= d < base) a -> Forall (fun d => 0 <= d < base) b ->
  no_leading_zero a -> no_leading_zero b ->
  be_value base a = be_value base b -> a = b.
Proof.
  intros Hb Ha Hbb Na Nb HV.
  assert (HL : len a = len b).
  { destruct (Z.lt_trichotomy (len a) (len b)) as [H|[H|H]]; auto; exfalso.
    - destruct b as [|y b]; [rewrite len_nil in H; pose proof (len_nonneg a); lia|].
      pose proof (no_leading_lower base y b Hb Hbb Nb).
      pose proof (be_value_bound base a ltac:(lia) Ha).
      rewrite len_cons in H.
      assert (base ^ len a <= base ^ len b) by (apply Z.pow_le_mono_r; lia). lia.
    - destruct a as [|y a]; [rewrite len_nil in H; pose proof (len_nonneg b); lia|].
      pose proof (no_leading_lower base y a Hb Ha Na).
      pose proof (be_value_bound base b ltac:(lia) Hbb).
      rewrite len_cons in H.
      assert (base ^ len b <= base ^ len a) by (apply Z.pow_le_mono_r; lia). lia. }
  apply (be_value_inj base); auto; try lia. unfold len in HL. lia.
Qed.

(** ** the digit loop *)
Lemma log2_div_lt base n : 2 <= base -> 0 < n -> 0 < n / base ->
  Z.log2 (n / base) < Z.log2 n.
Proof.
  intros Hb Hn Hq.
  assert (2 * (n / base) <= n) by nia.
  pose proof (Z.log2_le_mono _ _ H). rewrite Z.log2_double in H0 by lia. lia.
Qed.

Lemma digit_loop_spec base digit f :
  2 <= base -> (forall r, 0 <= r < base -> digit r = Ok (f r)) ->
  forall fuel n acc, 0 <= n -> (n = 0 \/ (Z.to_nat (Z.log2 n) < fuel)%nat) ->
  exists ds, digit_loop fuel base digit n acc = Ok (map f ds ++ acc) /\
    Forall (fun d => 0 <= d < base) ds /\ no_leading_zero ds /\ be_value base ds = n.
Proof.
  intros Hb Hd. induction fuel as [|fuel IH]; intros n acc Hn Hf.
  - assert (n = 0) by lia. subst. exists []. cbn. repeat split; auto.
  - cbn [digit_loop]. destruct (0 <? n) eqn:E.
    2:{ assert (n = 0) by lia. subst. exists []. cbn. repeat split; auto. }
    unfold py_divmod. destruct (base =? 0) eqn:E0; [lia|]. cbn [bind fst snd].
    assert (Hr : 0 <= n mod base < base) by lia.
    rewrite Hd by exact Hr. cbn [bind].
    assert (Hq : 0 <= n / base) by (apply Z.div_pos; lia).
    edestruct (IH (n / base) (f (n mod base) :: acc)) as (ds & H1 & H2 & H3 & H4); auto.
    { destruct (Z.eq_dec (n / base) 0); [left; auto|right].
      pose proof (log2_div_lt base n Hb ltac:(lia) ltac:(lia)).
      pose proof (Z.log2_nonneg (n/base)). lia. }
    exists (ds ++ [n mod base]). rewrite H1, map_app, <- app_assoc. cbn [map app].
    split; auto. split; [apply Forall_app; auto|]. split.
    + destruct ds as [|x ds]; [|exact H3]. cbn [be_value] in H4. cbn.
      intros E1. pose proof (Z.div_mod n base ltac:(lia)) as E2. rewrite <- H4, E1 in E2. lia.
    + rewrite be_value_app. cbn [be_value length]. unfold len. cbn [length].
      rewrite H4. change (Z.of_nat 1) with 1. rewrite Z.pow_1_r, Z.pow_0_r. pose proof (Z.div_mod n base ltac:(lia)). lia.
Qed.

Lemma chr_digit_ok r : 0 <= r < 256 -> chr_digit r = Ok r.
Proof. intros H; unfold chr_digit. destruct (0 <=? r) eqn:?, (r <? 256) eqn:?; cbn; auto; lia. Qed.

Definition byte_digits (s : str) : octets s <-> Forall (fun d => 0 <= d < 256) s.
Proof. reflexivity. Qed.

Lemma chr_loop_spec n : 0 < n ->
  exists ds, digit_loop (digit_fuel n) 256 chr_digit n [] = Ok ds /\ octets ds /\
    no_leading_zero ds /\ be_value 256 ds = n /\ ds <> [].
Proof.
  intros Hn.
  destruct (digit_loop_spec 256 chr_digit (fun r => r) ltac:(lia) chr_digit_ok
              (digit_fuel n) n [] ltac:(lia)) as (ds & H1 & H2 & H3 & H4).
  { right. unfold digit_fuel. lia. }
  rewrite map_id, app_nil_r in H1.
  exists ds. repeat split; auto. intros ->. cbn in H4. lia.
Qed.

Lemma int_to_string_none x : 0 <= x ->
  exists s, int_to_string x None = Ok s /\ shortest x s.
Proof.
  intros Hx. unfold int_to_string. destruct (0 <? x) eqn:E.
  - destruct (chr_loop_spec x ltac:(lia)) as (ds & -> & H2 & H3 & H4 & H5).
    cbn. exists ds. split; auto. split; auto.
  - assert (x = 0) by lia. subst. cbn. exists [0]. split; auto.
    split; [repeat constructor; lia|]. split; [discriminate|]. split; auto.
Qed.

Lemma shortest_len x s k : shortest x s -> 0 < k -> x < 256 ^ k <-> len s <= k.
Proof.
  intros (H1 & H2 & H3 & H4) Hk. pose proof (be_value_bound 256 s ltac:(lia) H1).
  split; intros H0.
  - destruct H4 as [H4| ->]; [|unfold len; cbn; lia].
    destruct s as [|d t]; [congruence|].
    pose proof (no_leading_lower 256 d t ltac:(lia) H1 H4).
    rewrite H3 in *.
    assert (256 ^ len t < 256 ^ k) by lia.
    apply Z.pow_lt_mono_r_iff in H6; try lia. rewrite len_cons. lia.
  - rewrite <- H3. eapply Z.lt_le_trans; [apply H|]. apply Z.pow_le_mono_r; lia.
Qed.

Lemma shortest_unique x s t : shortest x s -> shortest x t -> s = t.
Proof.
  intros (H1 & H2 & H3 & H4) (K1 & K2 & K3 & K4).
  destruct H4 as [H4| ->], K4 as [K4| ->]; auto.
  - apply (canonical_unique 256); auto; try lia.
  - cbn in K3. rewrite <- K3 in H3. destruct s as [|d s]; [congruence|].
    pose proof (no_leading_lower 256 d s ltac:(lia) H1 H4). pose proof (Z.pow_pos_nonneg 256 (len s)).
    pose proof (len_nonneg s). lia.
  - cbn in H3. rewrite <- H3 in K3. destruct t as [|d s]; [congruence|].
    pose proof (no_leading_lower 256 d s ltac:(lia) K1 K4). pose proof (Z.pow_pos_nonneg 256 (len s)).
    pose proof (len_nonneg s). lia.
Qed.

Lemma int_to_string_none_iff x s :
  int_to_string x None = Ok s <-> 0 <= x /\ shortest x s.
Proof.
  split.
  - intros H. destruct (Z.lt_ge_cases x 0) as [Hx|Hx].
    + unfold int_to_string in H. destruct (0 <? x) eqn:?, (x =? 0) eqn:?; try lia. discriminate.
    + split; auto. destruct (int_to_string_none x Hx) as (t & E & Ht). congruence.
  - intros [Hx Hs]. destruct (int_to_string_none x Hx) as (t & E & Ht).
    rewrite E. f_equal. eapply shortest_unique; eauto.
Qed.

Lemma int_to_string_neg x padto : x < 0 -> int_to_string x padto = Raise ValueError.
Proof.
  intros H. unfold int_to_string. destruct (0 <? x) eqn:?, (x =? 0) eqn:?; try lia. reflexivity.
Qed.

Lemma int_to_string_bind x padto :
  int_to_string x padto = (do s <- int_to_string x None; pad_to padto s).
Proof.
  unfold int_to_string at 2. cbn [pad_to]. unfold int_to_string.
  destruct (if 0 <? x then _ else _); reflexivity.
Qed.

Lemma int_to_string_pad x k : 0 <= x -> 0 < k -> x < 256 ^ k ->
  exists s, int_to_string x (Some k) = Ok s /\ octets s /\ len s = k /\ be_value 256 s = x.
Proof.
  intros Hx Hk Hb. rewrite int_to_string_bind.
  destruct (int_to_string_none x Hx) as (s & -> & Hs). cbn [bind pad_to].
  pose proof (proj1 (shortest_len _ _ _ Hs Hk) Hb) as HL.
  destruct (k =? 0) eqn:?; [lia|]. destruct (0 <=? k - len s) eqn:?; [|lia]. cbn [py_assert bind].
  destruct Hs as (H1 & H2 & H3 & H4).
  eexists; split; [reflexivity|]. split; [|split].
  - apply octets_app; split; auto. apply octets_repeat. unfold is_octet; lia.
  - rewrite len_app, len_repeat. lia.
  - rewrite be_value_app. unfold str_repeat. rewrite be_value_repeat0. lia.
Qed.

Lemma int_to_string_too_long x k : 0 <= x -> k <> 0 -> (k < 0 \/ 256 ^ k <= x) ->
  int_to_string x (Some k) = Raise AssertionError.
Proof.
  intros Hx Hk Hb. rewrite int_to_string_bind.
  destruct (int_to_string_none x Hx) as (s & -> & Hs). cbn [bind pad_to].
  destruct (k =? 0) eqn:?; [lia|]. destruct (0 <=? k - len s) eqn:E; [|reflexivity].
  exfalso. pose proof (len_nonneg s).
  assert (0 < k) by lia. pose proof (proj2 (shortest_len _ _ _ Hs H0)). lia.
Qed.

Lemma int_to_string_pad0 x : int_to_string x (Some 0) = int_to_string x None.
Proof. rewrite (int_to_string_bind x (Some 0)), (int_to_string_bind x None).
  destruct (int_to_string x None); reflexivity. Qed.

(** string_to_int *)
Lemma fold_be base s n :
  fold_left (fun n c => base * n + c) s n = n * base ^ len s + be_value base s.
Proof.
  revert n; induction s as [|c s IH]; intros n; cbn [fold_left be_value].
  - unfold len; cbn. lia.
  - rewrite IH, len_cons. unfold len in *. rewrite Z.pow_add_r by lia. ring.
Qed.

Lemma string_to_int_value s : string_to_int s = be_value 256 s.
Proof. unfold string_to_int. rewrite fold_be. lia. Qed.

Lemma string_to_int_bound s : octets s -> 0 <= string_to_int s < 256 ^ len s.
Proof. intros; rewrite string_to_int_value; apply be_value_bound; auto; lia. Qed.

Lemma int_string_roundtrip x padto s :
  int_to_string x padto = Ok s -> string_to_int s = x.
Proof.
  intros H. rewrite string_to_int_value.
  destruct (Z.lt_ge_cases x 0) as [Hx|Hx]; [rewrite int_to_string_neg in H by lia; discriminate|].
  rewrite int_to_string_bind in H.
  destruct (int_to_string_none x Hx) as (t & E & (H1 & H2 & H3 & H4)). rewrite E in H.
  cbn [bind] in H. destruct padto as [k|]; cbn [pad_to] in H; [|congruence].
  destruct (k =? 0); [congruence|]. destruct (0 <=? k - len t); cbn in H; [|discriminate].
  injection H as <-. rewrite be_value_app. unfold str_repeat. rewrite be_value_repeat0. lia.
Qed.

Lemma string_int_roundtrip_pad s : octets s -> s <> [] ->
  int_to_string (string_to_int s) (Some (len s)) = Ok s.
Proof.
  intros Hs Hn. pose proof (string_to_int_bound s Hs).
  assert (0 < len s). { destruct s; [congruence|]. rewrite len_cons. pose proof (len_nonneg s). lia. }
  destruct (int_to_string_pad (string_to_int s) (len s)) as (t & E & H1 & H2 & H3); try lia.
  rewrite E. f_equal. apply (be_value_inj 256); auto; try lia.
  - unfold len in *; lia.
  - rewrite H3. apply string_to_int_value.
Qed.

Lemma shortest_strip s : octets s ->
  shortest (be_value 256 s) (match strip_zeros s with [] => [0] | t => t end).
Proof.
  intros Hs. pose proof (strip_no_leading s). pose proof (be_value_strip 256 s).
  assert (Ho : octets (strip_zeros s)).
  { destruct (strip_decomp s) as [n E]. rewrite E in Hs. apply octets_app in Hs. tauto. }
  destruct (strip_zeros s) as [|d t] eqn:E.
  - rewrite <- H0. split; [repeat constructor; lia|]. repeat split; auto. discriminate.
  - split; auto. split; [discriminate|]. split; auto.
Qed.

Lemma string_int_roundtrip s : octets s ->
  int_to_string (string_to_int s) None =
  Ok (match strip_zeros s with [] => [0] | t => t end).
Proof.
  intros Hs. apply int_to_string_none_iff. rewrite string_to_int_value. split.
  - apply (be_value_bound 256); auto; lia.
  - apply shortest_strip; auto.
Qed.

(** ecc version *)
Lemma ecc_int_to_string_pos x padto : 0 < x -> ecc_int_to_string x padto = int_to_string x padto.
Proof.
  intros H. unfold ecc_int_to_string, int_to_string.
  destruct (0 <=? x) eqn:?; [|lia]. destruct (x =? 0) eqn:?; [lia|].
  destruct (0 <? x) eqn:?; [|lia]. reflexivity.
Qed.

(** ** base N *)
Lemma index_from_spec alphabet : NoDup alphabet ->
  forall k i, nth_error alphabet k = Some i ->
  forall j, index_from j alphabet i = Ok (j + Z.of_nat k).
Proof.
  induction 1 as [|x l Hx Hl IH]; intros k i Hk j; [destruct k; discriminate|].
  destruct k as [|k]; cbn in *.
  - injection Hk as ->. rewrite Z.eqb_refl. f_equal. lia.
  - destruct (x =? i) eqn:E.
    + apply Z.eqb_eq in E. subst. exfalso. apply Hx. eapply nth_error_In; eauto.
    + rewrite (IH k) by auto. f_equal. lia.
Qed.

Lemma index_from_none alphabet c j : ~ In c alphabet -> index_from j alphabet c = Raise ValueError.
Proof.
  revert j; induction alphabet as [|x l IH]; intros j H; cbn; auto.
  destruct (x =? c) eqn:E; [apply Z.eqb_eq in E; subst; exfalso; apply H; left; auto|].
  apply IH. intros Hc; apply H; right; auto.
Qed.

Definition alpha_char (alphabet : str) (i : Z) : Z := nth (Z.to_nat i) alphabet 0.

Lemma alpha_digit_ok alphabet r : 0 <= r < len alphabet ->
  alpha_digit alphabet r = Ok (alpha_char alphabet r).
Proof.
  intros H. unfold alpha_digit, alpha_char. unfold len in H.
  rewrite (nth_error_nth' alphabet 0) by lia. reflexivity.
Qed.

Lemma py_index_char alphabet i : NoDup alphabet -> 0 <= i < len alphabet ->
  py_index alphabet (alpha_char alphabet i) = Ok i.
Proof.
  intros Hn Hi. unfold py_index, alpha_char. unfold len in Hi.
  rewrite (index_from_spec alphabet Hn (Z.to_nat i)).
  - f_equal. lia.
  - apply nth_error_nth'. lia.
Qed.

Lemma decode_loop_digits alphabet ds n : NoDup alphabet ->
  Forall (fun d => 0 <= d < len alphabet) ds ->
  decode_loop (len alphabet) alphabet (map (alpha_char alphabet) ds) n =
  Ok (n * len alphabet ^ len ds + be_value (len alphabet) ds).
Proof.
  intros Hn H. revert n. induction H as [|d ds Hd Hds IH]; intros n.
  - cbn [map decode_loop be_value]. f_equal. rewrite len_nil, Z.pow_0_r. lia.
  - cbn [map decode_loop]. rewrite py_index_char by auto. cbn [bind].
    rewrite IH. f_equal. cbn [be_value]. rewrite len_cons. unfold len in *.
    rewrite (Z.pow_add_r _ 1) by lia. ring.
Qed.

(** a text over the alphabet is the image of its digits *)
Lemma text_digits alphabet text : NoDup alphabet -> incl text alphabet ->
  exists ds, text = map (alpha_char alphabet) ds /\ Forall (fun d => 0 <= d < len alphabet) ds.
Proof.
  intros Hn. induction text as [|c t IH]; intros Hi.
  - exists []. split; auto.
  - destruct IH as (ds & -> & Hds); [intros x Hx; apply Hi; right; auto|].
    destruct (In_nth alphabet c 0 (Hi c (or_introl eq_refl))) as (k & Hk & E).
    exists (Z.of_nat k :: ds). split.
    + cbn [map]. f_equal. unfold alpha_char. rewrite Nat2Z.id. auto.
    + constructor; auto. unfold len. lia.
Qed.

Lemma decode_loop_bad alphabet text base n : NoDup alphabet ->
  ~ incl text alphabet -> decode_loop base alphabet text n = Raise ValueError.
Proof.
  intros Hn. revert n. induction text as [|c t IH]; intros n Hi; [exfalso; apply Hi; intros x []|].
  cbn [decode_loop]. destruct (in_dec Z.eq_dec c alphabet) as [Hc|Hc].
  - destruct (In_nth alphabet c 0 Hc) as (k & Hk & E).
    unfold py_index. rewrite (index_from_spec alphabet Hn k) by (rewrite <- E; apply nth_error_nth'; auto).
    cbn [bind]. apply IH. intros Ht. apply Hi. intros x [->|Hx]; auto.
  - unfold py_index. rewrite index_from_none by auto. reflexivity.
Qed.

Lemma base_N_encode_spec s alphabet : octets s -> 2 <= len alphabet ->
  exists ds, base_N_encode s alphabet = Ok (map (alpha_char alphabet) ds) /\
    Forall (fun d => 0 <= d < len alphabet) ds /\ no_leading_zero ds /\
    be_value (len alphabet) ds = be_value 256 s.
Proof.
  intros Hs Ha. unfold base_N_encode. rewrite string_to_int_value.
  pose proof (be_value_bound 256 s ltac:(lia) Hs).
  destruct (digit_loop_spec (len alphabet) (alpha_digit alphabet) (alpha_char alphabet)
    Ha (alpha_digit_ok alphabet) (digit_fuel (be_value 256 s)) (be_value 256 s) [] ltac:(lia))
    as (ds & H1 & H2 & H3 & H4).
  { right. unfold digit_fuel. lia. }
  rewrite app_nil_r in H1. exists ds. auto.
Qed.

Lemma base_N_roundtrip_value s alphabet text padto : octets s -> 2 <= len alphabet -> NoDup alphabet ->
  base_N_encode s alphabet = Ok text ->
  base_N_decode text alphabet padto = int_to_string (be_value 256 s) padto.
Proof.
  intros Hs Ha Hn He. destruct (base_N_encode_spec s alphabet Hs Ha) as (ds & E & H1 & H2 & H3).
  rewrite He in E. injection E as ->. unfold base_N_decode.
  rewrite decode_loop_digits by auto. cbn [bind]. f_equal. lia.
Qed.

Lemma base_N_roundtrip s alphabet text : octets s -> 2 <= len alphabet -> NoDup alphabet ->
  base_N_encode s alphabet = Ok text ->
  base_N_decode text alphabet None = Ok (match strip_zeros s with [] => [0] | t => t end).
Proof.
  intros. rewrite (base_N_roundtrip_value s) by auto. rewrite <- string_to_int_value.
  apply string_int_roundtrip; auto.
Qed.

Lemma strip_fixed_iff s :
  (match strip_zeros s with [] => [0] | t => t end) = s <-> (s = [0] \/ (s <> [] /\ no_leading_zero s)).
Proof.
  pose proof (strip_no_leading s) as Hn. split.
  - destruct (strip_zeros s) as [|d t] eqn:E; intros H; subst; [left; auto|right].
    split; [discriminate|]. auto.
  - intros [->|[H1 H2]]; [reflexivity|]. rewrite strip_id by auto. destruct s; congruence.
Qed.

Lemma base_N_roundtrip_iff s alphabet text : octets s -> 2 <= len alphabet -> NoDup alphabet ->
  base_N_encode s alphabet = Ok text ->
  (base_N_decode text alphabet None = Ok s <-> (s = [0] \/ (s <> [] /\ no_leading_zero s))).
Proof.
  intros. rewrite (base_N_roundtrip s) by auto. rewrite <- strip_fixed_iff. split; [intros E; injection E; auto|intros ->; auto].
Qed.

Lemma base_N_inj s t alphabet text : octets s -> octets t -> 2 <= len alphabet -> NoDup alphabet ->
  base_N_encode s alphabet = Ok text -> base_N_encode t alphabet = Ok text ->
  be_value 256 s = be_value 256 t.
Proof.
  intros Hs Ht Ha Hn E1 E2.
  pose proof (base_N_roundtrip_value s alphabet text None Hs Ha Hn E1) as H1.
  pose proof (base_N_roundtrip_value t alphabet text None Ht Ha Hn E2) as H2.
  pose proof (be_value_bound 256 s ltac:(lia) Hs).
  destruct (int_to_string_none (be_value 256 s) ltac:(lia)) as (u & Eu & _).
  pose proof (int_string_roundtrip _ _ _ Eu).
  rewrite <- H1, H2 in Eu. pose proof (int_string_roundtrip _ _ _ Eu). congruence.
Qed.

Lemma base_N_length s alphabet text : octets s -> 2 <= len alphabet ->
  base_N_encode s alphabet = Ok text ->
  incl text alphabet /\
  be_value 256 s < len alphabet ^ len text /\
  (0 < len text -> len alphabet ^ (len text - 1) <= be_value 256 s).
Proof.
  intros Hs Ha He. destruct (base_N_encode_spec s alphabet Hs Ha) as (ds & E & H1 & H2 & H3).
  rewrite He in E. injection E as ->. rewrite len_map, <- H3. split; [|split].
  - intros c Hc. apply in_map_iff in Hc as (d & <- & Hd). rewrite Forall_forall in H1.
    apply H1 in Hd. unfold alpha_char. apply nth_In. unfold len in Hd. lia.
  - apply be_value_bound; auto; lia.
  - destruct ds as [|d t]; [intros HH; cbn in HH; lia|]. intros _. rewrite len_cons.
    replace (1 + len t - 1) with (len t) by lia. apply no_leading_lower; auto.
Qed.

Lemma base_N_decode_total text alphabet : 1 <= len alphabet -> NoDup alphabet ->
  incl text alphabet -> exists s, base_N_decode text alphabet None = Ok s /\ octets s.
Proof.
  intros Ha Hn Hi. destruct (text_digits alphabet text Hn Hi) as (ds & -> & Hds).
  unfold base_N_decode. rewrite decode_loop_digits by auto. cbn [bind].
  pose proof (be_value_bound (len alphabet) ds ltac:(lia) Hds).
  destruct (int_to_string_none (0 * len alphabet ^ len ds + be_value (len alphabet) ds) ltac:(lia))
    as (s & E & Hs & _). eauto.
Qed.

Lemma base_N_decode_bad text alphabet padto : NoDup alphabet -> ~ incl text alphabet ->
  base_N_decode text alphabet padto = Raise ValueError.
Proof. intros. unfold base_N_decode. rewrite decode_loop_bad by auto. reflexivity. Qed.

(** ** the three alphabets *)
Fixpoint nodupb (l : list Z) : bool :=
  match l with [] => true | x :: t => negb (existsb (Z.eqb x) t) && nodupb t end.
Lemma nodupb_ok l : nodupb l = true -> NoDup l.
Proof.
  induction l as [|x l IH]; cbn; intros H; constructor.
  - apply andb_prop in H as [H _]. intros Hx. rewrite negb_true_iff in H.
    assert (existsb (Z.eqb x) l = true) by (apply existsb_exists; exists x; rewrite Z.eqb_refl; auto).
    congruence.
  - apply IH. apply andb_prop in H. tauto.
Qed.
Lemma b27_alpha : len b27chars = 27 /\ NoDup b27chars.
Proof. split; [reflexivity|apply nodupb_ok; reflexivity]. Qed.
Lemma b85_alpha : len b85chars = 85 /\ NoDup b85chars.
Proof. split; [reflexivity|apply nodupb_ok; reflexivity]. Qed.
Lemma b94_alpha : len ascii_printable = 94 /\ NoDup ascii_printable.
Proof. split; [reflexivity|apply nodupb_ok; reflexivity]. Qed.

(** ** xor *)
Lemma xor_zip_len a b : len (xor_zip a b) = Z.min (len a) (len b).
Proof.
  revert b; induction a as [|x a IH]; intros [|y b]; cbn [xor_zip]; rewrite ?len_nil, ?len_cons;
    try (pose proof (len_nonneg a)); try (pose proof (len_nonneg b)); try lia.
  rewrite IH. lia.
Qed.
Lemma xor_zip_comm a b : xor_zip a b = xor_zip b a.
Proof. revert b; induction a as [|x a IH]; intros [|y b]; cbn; auto. rewrite Z.lxor_comm, IH. auto. Qed.
Lemma xor_zip_invol a b : (length a <= length b)%nat -> xor_zip (xor_zip a b) b = a.
Proof.
  revert b; induction a as [|x a IH]; intros [|y b]; cbn; intros; auto; try lia.
  rewrite IH by lia. rewrite Z.lxor_assoc, Z.lxor_nilpotent, Z.lxor_0_r. auto.
Qed.
Lemma xor_zip_octets a b : octets a -> octets b -> octets (xor_zip a b).
Proof.
  unfold octets. intros Ha; revert b. induction Ha as [|x a Hx Ha IH]; intros [|y b] Hb; cbn; constructor;
  inversion Hb; subst; auto. apply lxor_octet; auto.
Qed.
Lemma xor_zip_assoc a b c : xor_zip (xor_zip a b) c = xor_zip a (xor_zip b c).
Proof.
  revert b c; induction a as [|x a IH]; intros [|y b] [|z c]; cbn; auto.
  now rewrite Z.lxor_assoc, IH.
Qed.
Lemma xor_zip_app a b c d : length a = length c ->
  xor_zip (a ++ b) (c ++ d) = xor_zip a c ++ xor_zip b d.
Proof.
  revert c; induction a as [|x a IH]; intros [|y c] H; cbn in *; try lia; auto. f_equal. auto.
Qed.
Lemma xor_zip_nth a b k x y : nth_error a k = Some x -> nth_error b k = Some y ->
  nth_error (xor_zip a b) k = Some (Z.lxor x y).
Proof.
  revert b k; induction a as [|u a IH]; intros [|v b] [|k]; cbn; intros; try discriminate; try congruence.
  auto.
Qed.

(** ** Property proofs *)
Lemma c01_ecc_padding_refuted : exists k, 0 < k /\ 0 < 256 ^ k /\
  forall s, ecc_int_to_string 0 (Some k) = Ok s -> len s <> k.
Proof. exists 4. split; [reflexivity|]. split; [reflexivity|].
  intros s H. injection H as <-. discriminate. Qed.

Lemma c03_round_trip_iff : forall alphabet s text,
  2 <= len alphabet -> NoDup alphabet -> octets s ->
  base_N_encode s alphabet = Ok text ->
  (base_N_decode text alphabet None = Ok s <->
   (s = [0] \/ (s <> [] /\ no_leading_zero s))).
Proof. intros; apply base_N_roundtrip_iff; auto. Qed.

Lemma c03_encode_total : forall alphabet s, 2 <= len alphabet -> octets s ->
  exists text, base_N_encode s alphabet = Ok text.
Proof. intros alphabet s Ha Hs. destruct (base_N_encode_spec s alphabet Hs Ha) as (ds & H & _). eauto. Qed.

Lemma c03_decode_of_encode : forall s text, octets s ->
  (b27encode s = Ok text ->
     b27decode text None = Ok (match strip_zeros s with [] => [0] | t => t end)) /\
  (b85encode s = Ok text ->
     b85decode text None = Ok (match strip_zeros s with [] => [0] | t => t end)) /\
  (b94encode s = Ok text ->
     b94decode text None = Ok (match strip_zeros s with [] => [0] | t => t end)).
Proof.
  intros s text Hs. pose proof b27_alpha. pose proof b85_alpha. pose proof b94_alpha.
  repeat split; apply base_N_roundtrip; intuition lia.
Qed.

Lemma c03_lossless_refuted : exists s text, octets s /\ b27encode s = Ok text /\
  b27decode text None <> Ok s /\ (exists t85, b85encode s = Ok t85 /\ b85decode t85 None <> Ok s) /\
  (exists t94, b94encode s = Ok t94 /\ b94decode t94 None <> Ok s).
Proof.
  exists [0; 1], (of_ascii "B"). split; [repeat constructor; discriminate|].
  split; [reflexivity|]. split; [discriminate|]. split; eexists; split; reflexivity || discriminate.
Qed.

Lemma c04_padto_is_ignored : forall text k,
  b27decode text k = b27decode text None /\
  b85decode text k = b85decode text None /\
  b94decode text k = b94decode text None.
Proof. intros; repeat split. Qed.

Lemma c04_padto_restores_length_refuted : exists text v k,
  b27decode text None = Ok v /\ 0 < k /\ string_to_int v < 256 ^ k /\
  b27decode text (Some k) = Ok v /\ len v <> k.
Proof. exists (of_ascii "B"), [1], 6. repeat split; discriminate. Qed.

Lemma c04_base_N_decode_padded : forall alphabet s text,
  2 <= len alphabet -> NoDup alphabet -> octets s -> s <> [] ->
  base_N_encode s alphabet = Ok text ->
  base_N_decode text alphabet (Some (len s)) = Ok s.
Proof.
  intros alphabet s text Ha Hn Hs H0 He.
  rewrite (base_N_roundtrip_value s) by auto. rewrite <- string_to_int_value.
  apply string_int_roundtrip_pad; auto.
Qed.

Lemma c05_encoder_alphabet_and_length : forall alphabet s text,
  2 <= len alphabet -> octets s -> base_N_encode s alphabet = Ok text ->
  incl text alphabet /\
  be_value 256 s < len alphabet ^ len text /\
  (0 < len text -> len alphabet ^ (len text - 1) <= be_value 256 s).
Proof. intros; apply base_N_length; auto. Qed.

Lemma c05_decoder_accepts_alphabet : forall alphabet text,
  1 <= len alphabet -> NoDup alphabet ->
  ((exists s, base_N_decode text alphabet None = Ok s) <-> incl text alphabet).
Proof.
  intros alphabet text Ha Hn. split.
  - intros [s Hs]. destruct (in_dec Z.eq_dec 0 []) as [[]|_].
    assert (D : {incl text alphabet} + {~ incl text alphabet}) by
      (unfold incl; destruct (Forall_dec (fun c => In c alphabet) (fun c => in_dec Z.eq_dec c alphabet) text);
       [left | right]; rewrite <- Forall_forall; auto).
    destruct D as [|D]; auto. rewrite base_N_decode_bad in Hs by auto. discriminate.
  - intros H. destruct (base_N_decode_total text alphabet Ha Hn H) as (s & E & _). eauto.
Qed.

Lemma c05_decoder_rejects_others : forall alphabet text padto,
  NoDup alphabet -> ~ incl text alphabet ->
  base_N_decode text alphabet padto = Raise ValueError.
Proof. intros; apply base_N_decode_bad; auto. Qed.

Lemma c05_encoder_injective : forall alphabet s t text,
  2 <= len alphabet -> NoDup alphabet -> octets s -> octets t ->
  base_N_encode s alphabet = Ok text -> base_N_encode t alphabet = Ok text ->
  be_value 256 s = be_value 256 t.
Proof. intros; eapply base_N_inj; eauto. Qed.

Lemma c05_rfc1924_length_refuted : exists s text, octets s /\ len s = 16 /\
  b85encode s = Ok text /\ len text <> 20.
Proof.
  exists [0;0;0;0;0;0;0;0;0;0;0;0;0;0;0;1], (of_ascii "1").
  split; [repeat constructor; discriminate|]. repeat split; discriminate.
Qed.

Lemma c78_xor_defined : forall a b,
  xor a b = if len a =? len b then Ok (xor_zip a b) else Raise AssertionError.
Proof. intros; unfold xor; destruct (len a =? len b); reflexivity. Qed.

Lemma c78_xor_octet_wise : forall a b c k x y,
  xor a b = Ok c -> nth_error a k = Some x -> nth_error b k = Some y ->
  nth_error c k = Some (Z.lxor x y) /\ len c = len a.
Proof.
  intros a b c k x y H Ha Hb. unfold xor in H.
  destruct (len a =? len b) eqn:E; cbn in H; [|discriminate]. injection H as <-.
  split; [apply xor_zip_nth; auto|]. rewrite xor_zip_len. lia.
Qed.

Lemma c78_xor_involutive : forall a b c, xor a b = Ok c -> xor c b = Ok a.
Proof.
  intros a b c H. unfold xor in *. destruct (len a =? len b) eqn:E; cbn in H; [|discriminate].
  injection H as <-. rewrite xor_zip_len. replace (_ =? _) with true by (unfold len in *; lia).
  cbn. f_equal. apply xor_zip_invol. unfold len in *; lia.
Qed.

Lemma c78_xor_commutative : forall a b, xor a b = xor b a.
Proof. intros. unfold xor. rewrite (Z.eqb_sym (len b)), xor_zip_comm. reflexivity. Qed.

Lemma c78_xor_min : forall a b,
  len (xor_min a b) = Z.min (len a) (len b) /\ xor_min a b = xor_min b a /\
  ((length a <= length b)%nat -> xor_min (xor_min a b) b = a) /\
  (octets a -> octets b -> octets (xor_min a b)).
Proof.
  intros. unfold xor_min. split; [apply xor_zip_len|]. split; [apply xor_zip_comm|].
  split; [apply xor_zip_invol|apply xor_zip_octets].
Qed.
