(** Invertibility of the ChaCha rounds. *)
From Verif Require Import Proofs.Tac Proofs.Bits Model.Encoding Model.ChaCha
  Spec.EncodingSpec Spec.ChaChaSpec Proofs.EncodingProofs Proofs.ChaChaProofs.
Local Open Scope Z_scope.

Definition sub32 (x y : Z) : Z := (x - y) mod 2 ^ 32.

Lemma sub32_word x y : word (sub32 x y).
Proof. unfold word, sub32. apply Z.mod_pos_bound. lia. Qed.
Lemma add_sub32 x y : word x -> add32 (sub32 x y) y = x.
Proof. unfold word, add32, sub32. intros. rewrite Z.add_mod_idemp_l by lia.
  replace (x - y + y) with x by lia. apply Z.mod_small; auto. Qed.
Lemma sub_add32 x y : word x -> sub32 (add32 x y) y = x.
Proof. unfold word, add32, sub32. intros. rewrite Zminus_mod_idemp_l.
  replace (x + y - y) with x by lia. apply Z.mod_small; auto. Qed.

Lemma rotl32_inv x n : 0 < n < 32 -> word x -> rotl32 (rotl32 x n) (32 - n) = x.
Proof.
  unfold word, rotl32. intros Hn Hx.
  replace (32 - (32 - n)) with n by lia.
  assert (E : 2 ^ 32 = 2 ^ (32 - n) * 2 ^ n) by (rewrite <- Z.pow_add_r by lia; f_equal; lia).
  assert (P1 : 0 < 2 ^ (32 - n)) by (apply Z.pow_pos_nonneg; lia).
  assert (P2 : 0 < 2 ^ n) by (apply Z.pow_pos_nonneg; lia).
  rewrite E in *. set (A := 2 ^ (32 - n)) in *. set (B := 2 ^ n) in *.
  rewrite Z.mul_mod_distr_r by lia.
  pose proof (Z.mod_pos_bound x A P1). pose proof (Z.div_mod x A ltac:(lia)).
  assert (0 <= x / A) by (apply Z.div_pos; lia).
  assert (x / A < B) by (apply Z.div_lt_upper_bound; lia).
  set (r := x mod A) in *. set (q := x / A) in *.
  replace ((r * B + q) / B) with r.
  2:{ rewrite Z.div_add_l by lia. rewrite (Z.div_small q B) by lia. lia. }
  replace (((r * B + q) * A) mod (A * B)) with (q * A).
  2:{ replace ((r * B + q) * A) with (q * A + r * (A * B)) by ring.
      rewrite Z.mod_add by nia. symmetry. apply Z.mod_small. nia. }
  nia.
Qed.

Definition QRinv (a b c d : Z) : Z * Z * Z * Z :=
  let b1 := Z.lxor (rotl32 b 25) c in let c1 := sub32 c d in
  let d1 := Z.lxor (rotl32 d 24) a in let a1 := sub32 a b1 in
  let b0 := Z.lxor (rotl32 b1 20) c1 in let c0 := sub32 c1 d1 in
  let d0 := Z.lxor (rotl32 d1 16) a1 in let a0 := sub32 a1 b0 in
  (a0, b0, c0, d0).

Ltac wd := repeat first [assumption | apply add32_word | apply sub32_word | apply lxor_word
                        | apply rotl32_word; [lia|] ].

Lemma QRinv_QR a b c d a' b' c' d' : word a -> word b -> word c -> word d ->
  QR a b c d = (a', b', c', d') -> QRinv a' b' c' d' = (a, b, c, d).
Proof.
  intros Ha Hb Hc Hd H. unfold QR in H. cbv zeta in H. injection H as <- <- <- <-.
  set (a1 := add32 a b). set (d1 := rotl32 (Z.lxor d a1) 16). set (c1 := add32 c d1).
  set (b1 := rotl32 (Z.lxor b c1) 12). set (a2 := add32 a1 b1).
  set (d2 := rotl32 (Z.lxor d1 a2) 8). set (c2 := add32 c1 d2).
  set (b2 := rotl32 (Z.lxor b1 c2) 7).
  assert (Wa1 : word a1) by apply add32_word.
  assert (Wd1 : word d1) by (unfold d1; wd).
  assert (Wc1 : word c1) by apply add32_word.
  assert (Wb1 : word b1) by (unfold b1; wd).
  assert (Wa2 : word a2) by apply add32_word.
  assert (Wd2 : word d2) by (unfold d2; wd).
  assert (Wc2 : word c2) by apply add32_word.
  unfold QRinv. cbv zeta.
  assert (Eb1 : Z.lxor (rotl32 b2 25) c2 = b1).
  { unfold b2. change 25 with (32 - 7). rewrite rotl32_inv by (lia || wd). apply lxor_lxor_r. }
  assert (Ed1 : Z.lxor (rotl32 d2 24) a2 = d1).
  { unfold d2. change 24 with (32 - 8). rewrite rotl32_inv by (lia || wd). apply lxor_lxor_r. }
  assert (Ec1 : sub32 c2 d2 = c1) by (apply sub_add32; auto).
  assert (Ea1 : sub32 a2 b1 = a1) by (apply sub_add32; auto).
  rewrite Eb1, Ed1, Ec1, Ea1.
  assert (Eb0 : Z.lxor (rotl32 b1 20) c1 = b).
  { unfold b1. change 20 with (32 - 12). rewrite rotl32_inv by (lia || wd). apply lxor_lxor_r. }
  assert (Ed0 : Z.lxor (rotl32 d1 16) a1 = d).
  { unfold d1. change 16 with (32 - 16) at 2. rewrite rotl32_inv by (lia || wd). apply lxor_lxor_r. }
  rewrite Eb0, Ed0. unfold c1. rewrite sub_add32 by auto. unfold a1. rewrite sub_add32 by auto. reflexivity.
Qed.

Lemma QRinv_words a b c d a' b' c' d' : word a -> word b -> word c -> word d ->
  QRinv a b c d = (a', b', c', d') -> word a' /\ word b' /\ word c' /\ word d'.
Proof.
  intros Ha Hb Hc Hd H. unfold QRinv in H. cbv zeta in H. injection H as <- <- <- <-.
  repeat split; try apply sub32_word; wd.
  all: repeat (apply lxor_word || apply rotl32_word || apply sub32_word || lia || assumption).
Qed.

Lemma QR_QRinv a b c d a' b' c' d' : word a -> word b -> word c -> word d ->
  QRinv a b c d = (a', b', c', d') -> QR a' b' c' d' = (a, b, c, d).
Proof.
  intros Ha Hb Hc Hd H. unfold QRinv in H. cbv zeta in H. injection H as <- <- <- <-.
  set (b1 := Z.lxor (rotl32 b 25) c). set (c1 := sub32 c d).
  set (d1 := Z.lxor (rotl32 d 24) a). set (a1 := sub32 a b1).
  set (b0 := Z.lxor (rotl32 b1 20) c1). set (d0 := Z.lxor (rotl32 d1 16) a1).
  assert (Wb1 : word b1) by (unfold b1; wd).
  assert (Wc1 : word c1) by apply sub32_word.
  assert (Wd1 : word d1) by (unfold d1; wd).
  assert (Wa1 : word a1) by apply sub32_word.
  unfold QR. cbv zeta.
  rewrite (add_sub32 a1 b0) by auto.
  assert (E1 : rotl32 (Z.lxor d0 a1) 16 = d1).
  { unfold d0. rewrite lxor_lxor_r. change 16 with (32 - 16) at 2. apply rotl32_inv; auto; lia. }
  rewrite E1. rewrite (add_sub32 c1 d1) by auto.
  assert (E2 : rotl32 (Z.lxor b0 c1) 12 = b1).
  { unfold b0. rewrite lxor_lxor_r. change 12 with (32 - 20). apply rotl32_inv; auto; lia. }
  rewrite E2. unfold a1. rewrite (add_sub32 a b1) by auto.
  assert (E3 : rotl32 (Z.lxor d1 a) 8 = d).
  { unfold d1. rewrite lxor_lxor_r. change 8 with (32 - 24). apply rotl32_inv; auto; lia. }
  rewrite E3. unfold c1. rewrite (add_sub32 c d) by auto.
  assert (E4 : rotl32 (Z.lxor b1 c) 7 = b).
  { unfold b1. rewrite lxor_lxor_r. change 7 with (32 - 25). apply rotl32_inv; auto; lia. }
  rewrite E4. reflexivity.
Qed.

Lemma q_round_inj a b c d a' b' c' d' :
  word a -> word b -> word c -> word d -> word a' -> word b' -> word c' -> word d' ->
  chacha_q_round a b c d = chacha_q_round a' b' c' d' -> (a, b, c, d) = (a', b', c', d').
Proof.
  intros. destruct (q_round_spec a b c d) as [E _]; auto.
  destruct (q_round_spec a' b' c' d') as [E' _]; auto. rewrite E, E' in *.
  destruct (QR a b c d) as [[[u v] w] x] eqn:F. 
  rewrite <- (QRinv_QR a b c d u v w x) by auto.
  apply QRinv_QR; auto.
Qed.

Lemma q_round_surj a b c d : word a -> word b -> word c -> word d ->
  exists a' b' c' d', word a' /\ word b' /\ word c' /\ word d' /\
  chacha_q_round a' b' c' d' = (a, b, c, d).
Proof.
  intros. destruct (QRinv a b c d) as [[[a' b'] c'] d'] eqn:F.
  exists a', b', c', d'. destruct (QRinv_words a b c d a' b' c' d') as (?&?&?&?); auto.
  repeat (split; [assumption|]).
  destruct (q_round_spec a' b' c' d') as [-> _]; auto. apply QR_QRinv; auto.
Qed.

(** distinct positions *)
Lemma get_set_other l i j v : i <> j -> get (set l i v) j = get l j.
Proof. revert i j; induction l; intros [|i] [|j]; cbn; intros; auto; try lia. apply IHl. lia. Qed.

Lemma words_get st i : words st -> (i < length st)%nat -> word (get st i).
Proof. unfold words. rewrite Forall_forall. intros H Hi. apply H. apply nth_In. auto. Qed.

Lemma quarter_round_inj st st' x y z w :
  words st -> words st' -> length st = 16%nat -> length st' = 16%nat ->
  NoDup [x; y; z; w] -> (x < 16)%nat -> (y < 16)%nat -> (z < 16)%nat -> (w < 16)%nat ->
  quarter_round st x y z w = quarter_round st' x y z w -> st = st'.
Proof.
  intros W W' L L' ND Hx Hy Hz Hw H.
  apply NoDup_cons_iff in ND as [N1 ND]. apply NoDup_cons_iff in ND as [N2 ND].
  apply NoDup_cons_iff in ND as [N3 _]. cbn [In] in *.
  unfold quarter_round in H.
  destruct (chacha_q_round (get st x) (get st y) (get st z) (get st w)) as [[[a b] c] d] eqn:E.
  destruct (chacha_q_round (get st' x) (get st' y) (get st' z) (get st' w)) as [[[a' b'] c'] d'] eqn:E'.
  assert (Ex : a = a').
  { apply (f_equal (fun l => get l x)) in H.
    rewrite !(get_set_other _ w x), !(get_set_other _ z x), !(get_set_other _ y x) in H by tauto.
    rewrite !get_set in H by lia. auto. }
  assert (Ey : b = b').
  { apply (f_equal (fun l => get l y)) in H.
    rewrite !(get_set_other _ w y), !(get_set_other _ z y) in H by tauto.
    rewrite !get_set in H by (rewrite set_length; lia). auto. }
  assert (Ez : c = c').
  { apply (f_equal (fun l => get l z)) in H.
    rewrite !(get_set_other _ w z) in H by tauto.
    rewrite !get_set in H by (rewrite !set_length; lia). auto. }
  assert (Ew : d = d').
  { apply (f_equal (fun l => get l w)) in H.
    rewrite !get_set in H by (rewrite !set_length; lia). auto. }
  subst a' b' c' d'.
  assert (Q : (get st x, get st y, get st z, get st w) = (get st' x, get st' y, get st' z, get st' w)).
  { apply q_round_inj; try (apply words_get; auto; lia). congruence. }
  injection Q as Q1 Q2 Q3 Q4.
  apply (nth_ext _ _ 0 0); [lia|]. intros i Hi.
  change (get st i = get st' i).
  destruct (Nat.eq_dec x i) as [<-|]; auto. destruct (Nat.eq_dec y i) as [<-|]; auto.
  destruct (Nat.eq_dec z i) as [<-|]; auto. destruct (Nat.eq_dec w i) as [<-|]; auto.
  apply (f_equal (fun l => get l i)) in H. rewrite !get_set_other in H by auto. exact H.
Qed.

Lemma quarter_round_words st x y z w : words st -> length st = 16%nat ->
  (x < 16)%nat -> (y < 16)%nat -> (z < 16)%nat -> (w < 16)%nat ->
  words (quarter_round st x y z w).
Proof.
  intros W L Hx Hy Hz Hw. unfold quarter_round.
  destruct (q_round_spec (get st x) (get st y) (get st z) (get st w)) as [E H];
    try (apply words_get; auto; lia).
  rewrite E. destruct (QR _ _ _ _) as [[[a b] c] d]. destruct H as (?&?&?&?).
  assert (G : forall l i v, words l -> word v -> words (set l i v)).
  { unfold words. clear. induction l as [|u l IH]; intros [|i] v Hl Hv; cbn; auto;
    inversion Hl; subst; constructor; auto. }
  repeat apply G; auto.
Qed.

Lemma quarter_round_surj st x y z w :
  words st -> length st = 16%nat ->
  NoDup [x; y; z; w] -> (x < 16)%nat -> (y < 16)%nat -> (z < 16)%nat -> (w < 16)%nat ->
  exists st', words st' /\ length st' = 16%nat /\ quarter_round st' x y z w = st.
Proof.
  intros W L ND Hx Hy Hz Hw.
  apply NoDup_cons_iff in ND as [N1 ND]. apply NoDup_cons_iff in ND as [N2 ND].
  apply NoDup_cons_iff in ND as [N3 _]. cbn [In] in *.
  destruct (q_round_surj (get st x) (get st y) (get st z) (get st w)) as (a&b&c&d&Wa&Wb&Wc&Wd&E);
    try (apply words_get; auto; lia).
  exists (set (set (set (set st x a) y b) z c) w d).
  assert (G : forall l i v, words l -> word v -> words (set l i v)).
  { unfold words. clear. induction l as [|u l IH]; intros [|i] v Hl Hv; cbn; auto;
    inversion Hl; subst; constructor; auto. }
  split; [repeat apply G; auto|]. split; [rewrite !set_length; auto|].
  unfold quarter_round.
  rewrite !(get_set_other _ w x), !(get_set_other _ z x), !(get_set_other _ y x) by tauto.
  rewrite !(get_set_other _ w y), !(get_set_other _ z y) by tauto.
  rewrite !(get_set_other _ w z) by tauto.
  rewrite !get_set by (rewrite ?set_length; lia).
  rewrite E.
  apply (nth_ext _ _ 0 0); [rewrite !set_length; lia|]. intros i Hi. rewrite !set_length in Hi.
  match goal with |- nth i ?l 0 = _ => change (get l i = get st i) end.
  destruct (Nat.eq_dec w i) as [<-|Nw].
  { rewrite get_set by (rewrite !set_length; lia). auto. }
  rewrite (get_set_other _ w i) by auto.
  destruct (Nat.eq_dec z i) as [<-|Nz].
  { rewrite get_set by (rewrite !set_length; lia). auto. }
  rewrite (get_set_other _ z i) by auto.
  destruct (Nat.eq_dec y i) as [<-|Ny].
  { rewrite get_set by (rewrite !set_length; lia). auto. }
  rewrite (get_set_other _ y i) by auto.
  destruct (Nat.eq_dec x i) as [<-|Nx].
  { rewrite get_set by (rewrite !set_length; lia). auto. }
  rewrite !get_set_other by auto. reflexivity.
Qed.

(** the double round as a fold over the eight index quadruples *)
Definition run_rounds (qr : list Z -> nat -> nat -> nat -> nat -> list Z)
  (qs : list (nat * nat * nat * nat)) (st : list Z) : list Z :=
  fold_left (fun s q => let '(x, y, z, w) := q in qr s x y z w) qs st.
Definition quads : list (nat * nat * nat * nat) :=
  [(0,4,8,12); (1,5,9,13); (2,6,10,14); (3,7,11,15);
   (0,5,10,15); (1,6,11,12); (2,7,8,13); (3,4,9,14)]%nat.
Definition good_quad (q : nat * nat * nat * nat) : Prop :=
  let '(x, y, z, w) := q in
  NoDup [x; y; z; w] /\ (x < 16 /\ y < 16 /\ z < 16 /\ w < 16)%nat.

Lemma rounds_unfold (qr : list Z -> nat -> nat -> nat -> nat -> list Z) st :
  run_rounds qr quads st =
  (qr (qr (qr (qr (qr (qr (qr (qr st 0 4 8 12) 1 5 9 13) 2 6 10 14) 3 7 11 15)
    0 5 10 15) 1 6 11 12) 2 7 8 13) 3 4 9 14)%nat.
Proof. reflexivity. Qed.

Lemma inner_block_rounds st : inner_block st = run_rounds quarter_round quads st.
Proof. rewrite rounds_unfold. unfold inner_block. cbv zeta. exact eq_refl. Qed.

Lemma quads_good : Forall good_quad quads.
Proof.
  unfold quads. repeat (apply Forall_cons; [unfold good_quad; split; [|lia];
    repeat (apply NoDup_cons; [cbn [In]; lia|]); apply NoDup_nil|]). apply Forall_nil.
Qed.

Lemma rounds_inj qs : Forall good_quad qs -> forall st st',
  words st -> words st' -> length st = 16%nat -> length st' = 16%nat ->
  run_rounds quarter_round qs st = run_rounds quarter_round qs st' -> st = st'.
Proof.
  unfold run_rounds.
  induction 1 as [|[[[x y] z] w] qs (ND & Hx & Hy & Hz & Hw) Hqs IH]; intros st st' W W' L L' H; [exact H|].
  cbn [fold_left] in H. apply IH in H.
  - apply quarter_round_inj in H; auto.
  - apply quarter_round_words; auto.
  - apply quarter_round_words; auto.
  - rewrite quarter_round_length; auto.
  - rewrite quarter_round_length; auto.
Qed.

Lemma rounds_surj qs : Forall good_quad qs -> forall st, words st -> length st = 16%nat ->
  exists st', words st' /\ length st' = 16%nat /\ run_rounds quarter_round qs st' = st.
Proof.
  unfold run_rounds.
  induction 1 as [|[[[x y] z] w] qs (ND & Hx & Hy & Hz & Hw) Hqs IH]; intros st W L.
  - exists st. auto.
  - destruct (IH st W L) as (s1 & W1 & L1 & E1).
    destruct (quarter_round_surj s1 x y z w W1 L1 ND Hx Hy Hz Hw) as (s2 & W2 & L2 & E2).
    exists s2. split; auto. split; auto. cbn [fold_left]. rewrite E2. exact E1.
Qed.

Lemma inner_block_inj st st' :
  words st -> words st' -> length st = 16%nat -> length st' = 16%nat ->
  inner_block st = inner_block st' -> st = st'.
Proof.
  intros W W' L L' H. apply (rounds_inj quads quads_good st st' W W' L L').
  exact (eq_trans (eq_sym (inner_block_rounds st)) (eq_trans H (inner_block_rounds st'))).
Qed.

Lemma inner_block_surj st : words st -> length st = 16%nat ->
  exists st', words st' /\ length st' = 16%nat /\ inner_block st' = st.
Proof.
  intros W L. destruct (rounds_surj quads quads_good st W L) as (s & Ws & Ls & E).
  exists s. split; [exact Ws|]. split; [exact Ls|]. exact (eq_trans (inner_block_rounds s) E).
Qed.
