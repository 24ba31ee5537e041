From Verif Require Import Proofs.Tac Proofs.Bits Model.Encoding Model.CmacSiv
  Spec.EncodingSpec Spec.CmacSivSpec Spec.AesSpec Proofs.EncodingProofs Proofs.CmacSivProofs Proofs.SivProofs.
Local Open Scope Z_scope.

Definition octets_b (s : str) : bool := forallb (fun x => (0 <=? x) && (x <? 256)) s.
Lemma octets_b_ok s : octets_b s = true -> octets s.
Proof.
  intros H. apply Forall_forall. intros x Hx. unfold octets_b in H. rewrite forallb_forall in H.
  specialize (H x Hx). unfold is_octet. lia.
Qed.

(** the AES class of the external library, for the three key sizes *)
Definition AES : cipher := {|
  valid_key := fun key => ((len key =? 16) || (len key =? 24) || (len key =? 32)) && octets_b key;
  block_size := 16;
  encrypt_block := aes_block |}.

Lemma sbox_octet x : is_octet (sbox x).
Proof.
  unfold sbox. set (n := Z.to_nat x). clearbody n.
  assert (H : octets sbox_table) by (apply octets_b_ok; reflexivity).
  destruct (nth_in_or_default n sbox_table 0) as [I|E].
  - unfold octets in H. rewrite Forall_forall in H. now apply H.
  - rewrite E. unfold is_octet. lia.
Qed.
Lemma lxor_octet a b : is_octet a -> is_octet b -> is_octet (Z.lxor a b).
Proof. unfold is_octet. intros. apply (lxor_lt_pow2 a b 8); change (2 ^ 8) with 256; lia. Qed.
Lemma xtime_octet a : is_octet a -> is_octet (xtime a).
Proof.
  unfold is_octet, xtime. intros. destruct (a <? 128) eqn:E; [lia|].
  replace (2 * a) with (Z.lxor (2 * a - 256) 256).
  - rewrite Z.lxor_assoc. change (Z.lxor 256 283) with 27. apply (lxor_lt_pow2 (2 * a - 256) 27 8); change (2 ^ 8) with 256; lia.
  - rewrite <- Z.add_nocarry_lxor; [lia|].
    apply Z.bits_inj'. intros i Hi. change 256 with (2 ^ 8). rewrite Z.land_spec, Z.pow2_bits_eqb, Z.bits_0 by lia.
    destruct (8 =? i) eqn:E8; [|now rewrite andb_false_r]. apply Z.eqb_eq in E8. subst i.
    rewrite (testbit_small _ 8) by (change (2 ^ 8) with 256; lia). reflexivity.
Qed.
Lemma nth_octet s n : octets s -> is_octet (nth n s 0).
Proof.
  intros H. destruct (nth_in_or_default n s 0) as [I|E].
  - unfold octets in H. rewrite Forall_forall in H. now apply H.
  - rewrite E. unfold is_octet. lia.
Qed.
Lemma sxor_octets a : forall b, octets a -> octets b -> octets (sxor a b).
Proof.
  induction a as [|x a IH]; intros [|y b] Ha Hb; cbn; try constructor.
  - inversion Ha; inversion Hb; subst. cbn. now apply lxor_octet.
  - inversion Ha; inversion Hb; subst. now apply IH.
Qed.
Lemma sxor_length a b : length (sxor a b) = Nat.min (length a) (length b).
Proof. unfold sxor. now rewrite map_length, combine_length. Qed.

Lemma map_octets {A} (f : A -> Z) l : (forall x, is_octet (f x)) -> octets (map f l).
Proof. intros H. apply Forall_forall. intros x Hx. apply in_map_iff in Hx as (y & <- & _). apply H. Qed.

Definition good_words (w : list str) : Prop := Forall (fun x => octets x /\ length x = 4%nat) w.

Lemma good_nth w n : good_words w -> (n < length w)%nat -> octets (nth n w []) /\ length (nth n w []) = 4%nat.
Proof. intros H L. unfold good_words in H. rewrite Forall_forall in H. apply H. now apply nth_In. Qed.

Lemma expand_good n : forall i nk rcon w, good_words w -> 1 <= nk -> (Z.to_nat nk <= length w)%nat ->
  is_octet rcon -> good_words (expand n i nk rcon w).
Proof.
  induction n as [|n IH]; intros i nk rcon w Hw Hnk HL Hr; [exact Hw|].
  cbn [expand]. apply IH; auto.
  - constructor; [|exact Hw].
    destruct (good_nth w 0 Hw ltac:(lia)) as [O0 L0].
    destruct (good_nth w (Z.to_nat nk - 1) Hw ltac:(lia)) as [O1 L1].
    set (t := nth 0 w []) in *. set (u := nth (Z.to_nat nk - 1) w []) in *.
    assert (G : forall t1, octets t1 /\ length t1 = 4%nat -> octets (sxor u t1) /\ length (sxor u t1) = 4%nat).
    { intros t1 [A B]. split; [now apply sxor_octets|]. rewrite sxor_length. lia. }
    apply G. destruct (i mod nk =? 0).
    + destruct t as [|a [|b [|c [|d [|e t]]]]]; try discriminate. cbn [map]. split; [|reflexivity].
      repeat constructor; try apply sbox_octet; apply lxor_octet; auto; apply sbox_octet.
    + destruct (_ && _); [|auto]. split; [apply map_octets, sbox_octet|now rewrite map_length].
  - cbn [length]. lia.
  - destruct (_ =? 0); [now apply xtime_octet|auto].
Qed.

Lemma words_good n : forall l, octets l -> (4 * n <= length l)%nat -> good_words (words n l).
Proof.
  induction n as [|n IH]; intros l Hl L; cbn [words]; constructor.
  - split; [now apply octets_firstn|]. rewrite firstn_length. lia.
  - apply IH; [now apply octets_skipn|]. rewrite skipn_length. lia.
Qed.
Lemma words_length n l : length (words n l) = n.
Proof. revert l; induction n; intros; cbn [words length]; auto. Qed.

Lemma quads4_good w : good_words w -> Forall (fun x => octets x /\ length x = 16%nat) (quads4 w).
Proof.
  assert (G : forall n w, (length w <= n)%nat -> good_words w -> Forall (fun x => octets x /\ length x = 16%nat) (quads4 w)).
  { induction n as [|n IH]; intros v L H.
    - destruct v; [constructor|cbn in L; lia].
    - destruct v as [|a [|b [|c [|d t]]]]; try constructor.
      + inversion H as [|? ? [A1 A2] H1]; subst. inversion H1 as [|? ? [B1 B2] H2]; subst.
        inversion H2 as [|? ? [C1 C2] H3]; subst. inversion H3 as [|? ? [D1 D2] H4]; subst.
        split; [repeat (apply octets_app; split); auto|]. rewrite !app_length. lia.
      + apply IH; [cbn in L; lia|].
        inversion H as [|? ? _ H1]; subst. inversion H1 as [|? ? _ H2]; subst.
        inversion H2 as [|? ? _ H3]; subst. inversion H3; auto. }
  intros H. now apply (G (length w)).
Qed.

Lemma round_keys_good key : octets key -> (4 <= length key)%nat ->
  Forall (fun x => octets x /\ length x = 16%nat) (round_keys key).
Proof.
  intros Hk L. unfold round_keys. apply quads4_good. apply Forall_rev.
  assert (D : (1 <= length key / 4)%nat) by (apply Nat.div_le_lower_bound; lia).
  assert (D4 : (4 * (length key / 4) <= length key)%nat) by (apply Nat.mul_div_le; lia).
  apply expand_good.
  - apply Forall_rev. now apply words_good.
  - lia.
  - rewrite rev_length, words_length. lia.
  - unfold is_octet. lia.
Qed.

Lemma aes_rounds_good ks : Forall (fun x => octets x /\ length x = 16%nat) ks ->
  forall s, octets s -> length s = 16%nat -> octets (aes_rounds s ks) /\ length (aes_rounds s ks) = 16%nat.
Proof.
  assert (S1 : forall s, octets (sub_shift s) /\ length (sub_shift s) = 16%nat).
  { intros s. split; [apply map_octets; intros; apply sbox_octet|reflexivity]. }
  assert (S2 : forall s, octets s -> octets (mix_columns s) /\ length (mix_columns s) = 16%nat).
  { intros s Hs. split; [|reflexivity]. apply map_octets. intros i.
    repeat apply lxor_octet; try apply xtime_octet; now apply nth_octet. }
  assert (S3 : forall s k, octets s /\ length s = 16%nat -> octets k /\ length k = 16%nat ->
     octets (sxor s k) /\ length (sxor s k) = 16%nat).
  { intros s k [A B] [C D]. split; [now apply sxor_octets|]. rewrite sxor_length. lia. }
  induction ks as [|k ks IH]; intros HK s Hs Ls; [auto|].
  inversion HK as [|? ? K1 K2]; subst. cbn [aes_rounds]. destruct ks as [|k' ks'].
  - apply S3; auto.
  - apply IH; auto; apply S3; auto; apply S2; apply S1.
Qed.

Lemma aes_block_cipher : block_cipher AES.
Proof.
  constructor; [reflexivity|]. intros key H b Hb Lb. cbn [encrypt_block AES valid_key] in *.
  assert (Hk : octets key /\ (16 <= length key)%nat).
  { rewrite !andb_true_iff in H. destruct H as [H1 H2]. apply octets_b_ok in H2. split; [exact H2|].
    unfold len in H1. rewrite !orb_true_iff in H1. lia. }
  pose proof (round_keys_good key (proj1 Hk) ltac:(lia)) as G.
  unfold aes_block. destruct (round_keys key) as [|k t]; [auto|].
  inversion G as [|? ? [K1 K2] K3]; subst. unfold len in *.
  destruct (aes_rounds_good t K3 (sxor b k)) as [A B]; [now apply sxor_octets|rewrite sxor_length; lia|].
  split; auto. lia.
Qed.
