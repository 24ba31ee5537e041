(** The digits of the text are those of pi. *)
From Coq Require Import ZArith List Bool Uint63 Reals Lia Lra Machin Ratan.
From Verif Require Import Model.Py Model.Pi Proofs.PiLimbs Proofs.PiAtan Proofs.PiDigits.
Import ListNotations.
Local Open Scope Z_scope.

Definition is_digit (c : Z) : Prop := 48 <= c <= 57.
Fixpoint fr (l : list Z) : R := match l with [] => 0 | c :: l => (IZR (c - 48) + fr l) / 10 end%R.
Fixpoint wfr (l : list int) : R := match l with [] => 0 | w :: l => (IZR (to_Z w) + wfr l) / IZR (10 ^ 18) end%R.

Lemma take_word_ok k : forall l acc, Forall is_digit l -> to_Z acc * 10 ^ Z.of_nat k <= 10 ^ 18 - 10 ^ Z.of_nat k ->
  let (w, l') := take_word k l acc in
  (IZR (to_Z w) + fr l' = IZR (10 ^ Z.of_nat k) * (IZR (to_Z acc) + fr l))%R /\ to_Z w < 10 ^ 18 /\ Forall is_digit l' /\ length l' = (length l - k)%nat.
Proof.
  induction k as [|k IH]; intros l acc D H.
  - cbn [take_word]. change (10 ^ Z.of_nat 0) with 1 in *. split; [ring|]. split; [lia|]. split; [exact D|lia].
  - rewrite Nat2Z.inj_succ, Z.pow_succ_r in H by lia. pose proof (to_Z_bounded acc) as BA. assert (W : 10 ^ 18 < wB) by reflexivity.
    assert (PK : 1 <= 10 ^ Z.of_nat k) by (assert (0 < 10 ^ Z.of_nat k) by (apply Z.pow_pos_nonneg; lia); lia).
    assert (BA' : 10 * to_Z acc + 10 <= 10 ^ 18).
    { assert (10 * to_Z acc + 10 <= (10 * to_Z acc + 10) * 10 ^ Z.of_nat k) by (apply Z.le_mul_diag_r; lia).
      assert ((10 * to_Z acc + 10) * 10 ^ Z.of_nat k = to_Z acc * (10 * 10 ^ Z.of_nat k) + 10 * 10 ^ Z.of_nat k) by ring. lia. }
    assert (E10 : to_Z (10 * acc) = 10 * to_Z acc) by (rewrite mul_spec; change (to_Z 10) with 10; apply Z.mod_small; lia).
    cbn [take_word]. destruct l as [|c l].
    + specialize (IH [] (10 * acc)%uint63 D). rewrite E10 in IH. destruct (take_word k [] (10 * acc)%uint63) as [w l'].
      destruct IH as (I1 & I2 & I3 & I4). { clear - H. nia. }
      split; [|split; [exact I2|split; [exact I3|exact I4]]]. rewrite I1, Nat2Z.inj_succ, Z.pow_succ_r, !mult_IZR by lia. cbn [fr]. ring.
    + inversion D as [|? ? D1 D2]; subst. unfold is_digit in D1.
      assert (EC : to_Z (of_Z (c - 48)) = c - 48) by (rewrite of_Z_spec; apply Z.mod_small; lia).
      assert (ES : to_Z (10 * acc + of_Z (c - 48)) = 10 * to_Z acc + (c - 48)) by (rewrite add_spec, E10, EC; apply Z.mod_small; lia).
      specialize (IH l (10 * acc + of_Z (c - 48))%uint63 D2). rewrite ES in IH. destruct (take_word k l (10 * acc + of_Z (c - 48))%uint63) as [w l'].
      destruct IH as (I1 & I2 & I3 & I4).
      { assert ((c - 48) * 10 ^ Z.of_nat k <= 9 * 10 ^ Z.of_nat k) by (apply Z.mul_le_mono_nonneg_r; lia). clear - H H0. nia. }
      split; [|split; [exact I2|split; [exact I3|exact I4]]]. rewrite I1, Nat2Z.inj_succ, Z.pow_succ_r, plus_IZR, !mult_IZR by lia. cbn [fr]. field.
Qed.
Lemma words_ok n : forall l, Forall is_digit l -> (length l <= 18 * n)%nat ->
  wfr (words n l) = fr l /\ length (words n l) = n /\ Forall (fun w => to_Z w < 10 ^ 18) (words n l).
Proof.
  induction n as [|n IH]; intros l D L.
  - destruct l; [|cbn in L; lia]. split; [reflexivity|]. split; [reflexivity|constructor].
  - cbn [words]. pose proof (take_word_ok 18 l 0%uint63 D) as T. destruct (take_word 18 l 0%uint63) as [w l'].
    destruct T as (T1 & T2 & T3 & T4); [vm_compute; discriminate|]. destruct (IH l' T3) as (I1 & I2 & I3); [rewrite T4; lia|].
    cbn [wfr length]. split; [|split; [now f_equal|now constructor]]. rewrite I1, T1. change (to_Z 0) with 0. change (Z.of_nat 18) with 18. field. apply not_0_IZR. discriminate.
Qed.
Lemma chunks_ok {A} (P : A -> Prop) n s : forall l, length l = (n * s)%nat -> Forall P l ->
  concat (chunks n s l) = l /\ length (chunks n s l) = n /\ Forall (fun cs => length cs = s /\ Forall P cs) (chunks n s l).
Proof.
  induction n as [|n IH]; intros l L F.
  - destruct l; [|discriminate]. split; [reflexivity|]. split; [reflexivity|constructor].
  - cbn [chunks concat length]. destruct (IH (skipn s l)) as (I1 & I2 & I3).
    { rewrite skipn_length, L. cbn. lia. }
    { rewrite <- (firstn_skipn s l) in F. apply Forall_app in F. apply F. }
    rewrite I1, firstn_skipn. split; [reflexivity|]. split; [now f_equal|]. constructor; [|exact I3].
    split; [rewrite firstn_length, L; cbn; lia|]. rewrite <- (firstn_skipn s l) in F. apply Forall_app in F. apply F.
Qed.
Lemma word_good w : to_Z w < 10 ^ 18 -> good (10 ^ 18) (word_coef w).
Proof.
  intros H. exists 1. split; [lia|]. split; [reflexivity|]. split; [reflexivity|]. pose proof (to_Z_bounded w). lia.
Qed.
Lemma word_affs ws : affs (10 ^ 18) (map word_coef (rev ws)) 0 = wfr ws.
Proof.
  induction ws as [|w ws IH]; [reflexivity|]. cbn [rev]. unfold affs. rewrite map_app, fold_left_app. fold (affs (10 ^ 18) (map word_coef (rev ws)) 0%R). rewrite IH.
  cbn [map fold_left wfr]. unfold aff, alpha, word_coef. change (to_Z 2000000000000000000) with (2 * 10 ^ 18). rewrite mult_IZR. field. apply not_0_IZR. discriminate.
Qed.
Lemma horner_num l : forall acc, horner l acc = acc * B ^ Z.of_nat (size l) + num l.
Proof.
  induction l as [|d l IH]; intros acc; cbn [horner size num]; [change (B ^ Z.of_nat 0) with 1; ring|].
  rewrite IH, Nat2Z.inj_succ, Z.pow_succ_r by lia. ring.
Qed.

Lemma text_sound s b : text_ok s b = true -> s = 51 :: 46 :: skipn 2 s /\ length (skipn 2 s) = 50000%nat /\ Forall is_digit (skipn 2 s) /\ b = true.
Proof.
  unfold text_ok. destruct s as [|c [|d ds]]; try discriminate. rewrite !andb_true_iff. intros ((((H1 & H2) & H3) & H4) & H5).
  apply Z.eqb_eq in H1, H2. apply Nat.eqb_eq in H3. subst c d. cbn [skipn]. split; [reflexivity|]. split; [exact H3|]. split; [|exact H5].
  apply Forall_forall. intros c I. apply (proj1 (forallb_forall _ _) H4) in I. apply andb_prop in I as [I1 I2]. apply Z.leb_le in I1, I2. split; assumption.
Qed.
Lemma pi_string_ok : pi_string = 51 :: 46 :: digits /\ length digits = 50000%nat /\ Forall is_digit digits /\ compare (horner frac_limbs 0) (horner limbs5 0) (horner limbs239 0) = true.
Proof. exact (text_sound _ _ pi_check_ok). Qed.
Local Open Scope R_scope.
Lemma frac_general m s n k l : Forall is_digit l -> (length l <= 18 * k)%nat -> k = (n * s)%nat -> (20 * B ^ Z.of_nat m <= 9 * (10 ^ 18) ^ Z.of_nat s)%Z ->
  near 2 (blocks m (chunks n s (map word_coef (rev' (words k l)))) Nil) (fr l) /\ size (blocks m (chunks n s (map word_coef (rev' (words k l)))) Nil) = (n * m)%nat.
Proof.
  intros D L K C. destruct (words_ok k l D L) as (W1 & W2 & W3). unfold rev'. rewrite <- rev_alt.
  assert (G : Forall (good (10 ^ 18)) (map word_coef (rev (words k l)))).
  { apply Forall_map. apply Forall_rev. eapply Forall_impl; [|exact W3]. intros w. apply word_good. }
  destruct (chunks_ok (good (10 ^ 18)) n s (map word_coef (rev (words k l)))) as (C1 & C2 & C3); [|exact G|].
  { rewrite map_length, rev_length, W2. exact K. }
  destruct (blocks_near (10 ^ 18) m s ltac:(discriminate) C _ C3 Nil 0) as [N S].
  { unfold near. cbn. lra. }
  rewrite C1, word_affs, W1 in N. rewrite C2 in S. split; [exact N|exact S].
Qed.
Lemma frac_ok : near 2 frac_limbs (fr digits) /\ size frac_limbs = (104 * 26)%nat.
Proof.
  destruct pi_string_ok as (_ & L & D & _). unfold frac_limbs. apply frac_general; [exact D| | |].
  - rewrite L. apply Nat.leb_le. vm_cast_no_check (eq_refl true).
  - apply Nat.eqb_eq. vm_cast_no_check (eq_refl true).
  - apply Z.leb_le. vm_cast_no_check (eq_refl true).
Qed.
Lemma near_wrap l v n : size l = n -> IZR (num l) <= v * IZR B ^ n <= IZR (num l) + 2 -> near 2 l v /\ size l = n.
Proof. intros <- H. split; [|reflexivity]. unfold near. lra. Qed.
Lemma limbs5_ok : near 2 limbs5 (5 * atan (/ 5)) /\ size limbs5 = (338 * 8)%nat.
Proof.
  destruct (atan_limbs_ok 5 25 625 18252 ltac:(discriminate) eq_refl eq_refl ltac:(reflexivity) 8 54 216 338 73005) as [S N].
  - apply Nat.leb_le. vm_cast_no_check (eq_refl true).
  - apply Z.leb_le. vm_cast_no_check (eq_refl true).
  - reflexivity.
  - apply Z.eqb_eq. vm_cast_no_check (eq_refl true).
  - apply Z.leb_le. vm_cast_no_check (eq_refl true).
  - unfold limbs5. exact (near_wrap _ _ _ S N).
Qed.
Lemma limbs239_ok : near 2 limbs239 (239 * atan (/ 239)) /\ size limbs239 = (1352 * 2)%nat.
Proof.
  destruct (atan_limbs_ok 239 57121 3262808641 5408 ltac:(discriminate) eq_refl eq_refl ltac:(reflexivity) 2 4 16 1352 21629) as [S N].
  - apply Nat.leb_le. vm_cast_no_check (eq_refl true).
  - apply Z.leb_le. vm_cast_no_check (eq_refl true).
  - reflexivity.
  - apply Z.eqb_eq. vm_cast_no_check (eq_refl true).
  - apply Z.leb_le. vm_cast_no_check (eq_refl true).
  - unfold limbs239. exact (near_wrap _ _ _ S N).
Qed.
Lemma near_pow l v n : near 2 l v -> Z.of_nat (size l) = n -> IZR (num l) <= v * IZR (B ^ n) <= IZR (num l) + 2.
Proof. unfold near. intros N <-. rewrite <- pow_IZR. lra. Qed.
Lemma gap_ok : (gap * 10 ^ 50000 <= B ^ 2704)%Z.
Proof.
  assert (G : (gap * 10 ^ 489 <= 2 ^ 3176)%Z) by (apply Z.leb_le; vm_cast_no_check (eq_refl true)).
  assert (T : (10 ^ 643 <= 2 ^ 2136)%Z) by (apply Z.leb_le; vm_cast_no_check (eq_refl true)).
  assert (E1 : (10 ^ 50000 = 10 ^ 489 * (10 ^ 643) ^ 77)%Z) by (rewrite <- Z.pow_mul_r, <- Z.pow_add_r by discriminate; f_equal).
  assert (E2 : (B ^ 2704 = 2 ^ 3176 * (2 ^ 2136) ^ 77)%Z) by (unfold B; rewrite <- !Z.pow_mul_r, <- Z.pow_add_r by discriminate; f_equal).
  rewrite E1, E2, Z.mul_assoc. apply Z.mul_le_mono_nonneg; [|exact G| |].
  - apply Z.mul_nonneg_nonneg; [discriminate|apply Z.pow_nonneg; discriminate].
  - apply Z.pow_nonneg, Z.pow_nonneg. discriminate.
  - apply Z.pow_le_mono_l. split; [apply Z.pow_nonneg; discriminate|exact T].
Qed.
Lemma horner0 l : horner l 0 = num l.
Proof. rewrite horner_num. ring. Qed.
Lemma compare_sound f v5 v239 l l5 l239 : near 2 l f -> near 2 l5 v5 -> near 2 l239 v239 ->
  Z.of_nat (size l) = 2704%Z -> Z.of_nat (size l5) = 2704%Z -> Z.of_nat (size l239) = 2704%Z -> compare (num l) (num l5) (num l239) = true ->
  3 + f <= (3824 * v5 - 20 * v239) / 1195 < 3 + f + / IZR (10 ^ 50000).
Proof.
  intros N N5 N239 S S5 S239 C. apply near_pow with (n := 2704%Z) in N, N5, N239; try assumption. clear S S5 S239.
  unfold compare in C. apply andb_prop in C as [C1 C2]. apply Z.leb_le in C1. apply Z.ltb_lt in C2. pose proof gap_ok as GP.
  assert (U0 : (0 < B ^ 2704)%Z) by (apply Z.pow_pos_nonneg; [reflexivity|discriminate]).
  assert (T0 : (0 < 10 ^ 50000)%Z) by (apply Z.pow_pos_nonneg; [reflexivity|discriminate]).
  generalize dependent (B ^ 2704)%Z. generalize dependent (10 ^ 50000)%Z. generalize gap. intros g T T0 u N N5 N239 C1 C2 GP U0.
  apply IZR_le in C1, GP. apply IZR_lt in C2, U0, T0. rewrite mult_IZR in GP. repeat (rewrite mult_IZR in C1 || rewrite minus_IZR in C1 || rewrite plus_IZR in C1). repeat (rewrite mult_IZR in C2 || rewrite minus_IZR in C2 || rewrite plus_IZR in C2).
  assert (V0 : (3824 * v5 - 20 * v239) / 1195 * IZR u = (3824 * (v5 * IZR u) - 20 * (v239 * IZR u)) / 1195) by field. 
  assert (V1 : (3 + f) * IZR u <= (3824 * v5 - 20 * v239) / 1195 * IZR u) by (rewrite V0; lra).
  assert (V2 : (3824 * v5 - 20 * v239) / 1195 * IZR u < (3 + f) * IZR u + IZR g) by (rewrite V0; lra).
  split; [apply (Rmult_le_reg_r (IZR u)); assumption|]. apply (Rmult_lt_reg_r (IZR u)); [assumption|]. eapply Rlt_le_trans; [exact V2|].
  rewrite (Rmult_plus_distr_r (3 + f)). apply Rplus_le_compat_l. apply (Rmult_le_reg_r (IZR T)); [assumption|].
  replace (/ IZR T * IZR u * IZR T) with (IZR u) by (field; lra). exact GP.
Qed.
Lemma pi_frac : 3 + fr digits <= PI < 3 + fr digits + / IZR (10 ^ 50000).
Proof.
  destruct frac_ok as [N S]. destruct limbs5_ok as [N5 S5]. destruct limbs239_ok as [N239 S239]. pose proof (proj2 (proj2 (proj2 pi_string_ok))) as C. rewrite !horner0 in C.
  pose proof (compare_sound _ _ _ _ _ _ N N5 N239) as K. rewrite S, S5, S239 in K. specialize (K eq_refl eq_refl eq_refl C).
  replace ((3824 * (5 * atan (/ 5)) - 20 * (239 * atan (/ 239))) / 1195) with PI in K; [exact K|].
  pose proof Machin_4_5_239 as M. clear - M. lra.
Qed.
