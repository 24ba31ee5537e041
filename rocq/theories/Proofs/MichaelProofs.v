From Verif Require Import Proofs.Tac Proofs.Bits Model.Michael Spec.MichaelSpec.
Local Open Scope Z_scope.

Definition word (x : Z) : Prop := 0 <= x < 2 ^ 32.

Lemma rol_code n l : 0 <= n <= 32 -> word l ->
  Z.lor (Z.land (Z.shiftl l n) 0xffffffff) (Z.land (Z.shiftr l (32 - n)) (2 ^ n - 1)) = rol n l.
Proof.
  intros Hn Hl. unfold rol. rewrite <- (rot_or l n) by auto. f_equal.
  rewrite land_ones_mod by lia. apply Z.mod_small. rewrite Z.shiftr_div_pow2 by lia.
  unfold word in Hl. split; [apply Z.div_pos; [lia|apply Z.pow_pos_nonneg; lia]|].
  apply Z.div_lt_upper_bound; [apply Z.pow_pos_nonneg; lia|].
  rewrite <- Z.pow_add_r by lia. replace (32 - n + n) with 32 by lia. lia.
Qed.

Lemma ror2_rol30 l : word l -> rol 30 l = ror 2 l.
Proof.
  unfold rol, ror, word. change (2 ^ 30) with 1073741824. change (32 - 30) with 2. change (2 ^ 2) with 4.
  change (32 - 2) with 30. change (2 ^ 30) with 1073741824. change (2 ^ 32) with 4294967296. lia.
Qed.

Lemma land_field x k : 0 <= k -> Z.land x (255 * 2 ^ k) = (x / 2 ^ k mod 256) * 2 ^ k.
Proof.
  intros Hk. rewrite <- Z.shiftl_mul_pow2 by lia. rewrite <- (Z.shiftl_mul_pow2 (_ mod _)) by lia.
  change 256 with (2 ^ 8). rewrite <- land_ones_mod by lia. change (2 ^ 8 - 1) with 255.
  rewrite <- Z.shiftr_div_pow2 by lia.
  apply Z.bits_inj'. intros i Hi. rewrite Z.land_spec, !Z.shiftl_spec, Z.land_spec by lia.
  destruct (Z.lt_ge_cases i k).
  - rewrite !(Z.testbit_neg_r _ (i - k)) by lia. rewrite !andb_false_r. reflexivity.
  - rewrite Z.shiftr_spec by lia. now replace (i - k + k) with i by lia.
Qed.

Lemma xswap_code l : word l ->
  Z.lor (Z.shiftr (Z.land l 0xff00ff00) 8) (Z.shiftl (Z.land l 0x00ff00ff) 8) = XSWAP l.
Proof.
  intros Hl. unfold XSWAP, octet.
  change (8 * 0) with 0. change (8 * 1) with 8. change (8 * 2) with 16. change (8 * 3) with 24.
  change 0xff00ff00 with (Z.lor (255 * 2 ^ 24) (255 * 2 ^ 8)).
  change 0x00ff00ff with (Z.lor (255 * 2 ^ 16) (255 * 2 ^ 0)).
  rewrite !Z.land_lor_distr_r, !land_field, Z.shiftr_lor, Z.shiftl_lor by lia.
  set (o0 := l / 2 ^ 0 mod 256). set (o1 := l / 2 ^ 8 mod 256). set (o2 := l / 2 ^ 16 mod 256). set (o3 := l / 2 ^ 24 mod 256).
  assert (R0 : 0 <= o0 < 256) by (unfold o0; lia). assert (R1 : 0 <= o1 < 256) by (unfold o1; lia).
  assert (R2 : 0 <= o2 < 256) by (unfold o2; lia). assert (R3 : 0 <= o3 < 256) by (unfold o3; lia).
  clearbody o0 o1 o2 o3. clear l Hl.
  rewrite !Z.shiftr_div_pow2, !Z.shiftl_mul_pow2 by lia.
  replace (o3 * 2 ^ 24 / 2 ^ 8) with (o3 * 2 ^ 16).
  2:{ symmetry. replace (o3 * 2 ^ 24) with (o3 * 2 ^ 16 * 2 ^ 8) by lia. apply Z.div_mul. lia. }
  rewrite (Z.div_mul o1 (2 ^ 8)) by lia.
  replace (o2 * 2 ^ 16 * 2 ^ 8) with (o2 * 2 ^ 24) by lia. replace (o0 * 2 ^ 0 * 2 ^ 8) with (o0 * 2 ^ 8) by lia.
  rewrite (lor_disjoint_add o3 o1 16) by lia. 
  replace (Z.lor (o2 * 2 ^ 24) (o0 * 2 ^ 8)) with (o2 * 2 ^ 24 + o0 * 2 ^ 8) by (symmetry; apply lor_disjoint_add; lia).
  rewrite <- (lor_disjoint_add o3 o1 16) by lia. rewrite <- (lor_disjoint_add o2 (o0 * 2 ^ 8) 24) by lia.
  rewrite (Z.lor_comm (o3 * 2 ^ 16)), Z.lor_comm.
  replace (Z.lor (Z.lor (o2 * 2 ^ 24) (o0 * 2 ^ 8)) (Z.lor o1 (o3 * 2 ^ 16)))
    with (Z.lor (o2 * 2 ^ 24) (Z.lor (o3 * 2 ^ 16) (Z.lor (o0 * 2 ^ 8) o1))).
  - rewrite (lor_disjoint_add o0 o1 8) by lia. rewrite (lor_disjoint_add o3 _ 16) by lia.
    rewrite (lor_disjoint_add o2 _ 24) by lia. lia.
  - apply Z.bits_inj'. intros i Hi. rewrite !Z.lor_spec.
    destruct (Z.testbit (o2 * 2 ^ 24) i), (Z.testbit (o3 * 2 ^ 16) i), (Z.testbit (o0 * 2 ^ 8) i), (Z.testbit o1 i); reflexivity.
Qed.

(** ** the block function as four invertible steps *)
Definition step (f : Z -> Z) (s : Z * Z) : Z * Z :=
  let '(l, r) := s in let r := Z.lxor r (f l) in (add32 l r, r).
Definition unstep (f : Z -> Z) (s : Z * Z) : Z * Z :=
  let '(l, r) := s in let l := (l - r) mod 2 ^ 32 in (l, Z.lxor r (f l)).
Definition wpair (s : Z * Z) : Prop := word (fst s) /\ word (snd s).

Lemma word_lxor a c : word a -> word c -> word (Z.lxor a c).
Proof. unfold word. intros. apply lxor_lt_pow2; auto; lia. Qed.
Lemma step_w f s : (forall x, word x -> word (f x)) -> wpair s -> wpair (step f s).
Proof.
  intros Hf [H1 H2]. destruct s as [l r]. cbn [step fst snd] in *. split; cbn [fst snd].
  - unfold add32, word. apply Z.mod_pos_bound. lia.
  - apply word_lxor; auto.
Qed.
Lemma unstep_w f s : (forall x, word x -> word (f x)) -> wpair s -> wpair (unstep f s).
Proof.
  intros Hf [H1 H2]. destruct s as [l r]. cbn [unstep fst snd] in *. 
  assert (word ((l - r) mod 2 ^ 32)) by (unfold word; apply Z.mod_pos_bound; lia).
  split; cbn [fst snd]; auto. apply word_lxor; auto.
Qed.
Lemma unstep_step f s : wpair s -> unstep f (step f s) = s.
Proof.
  intros [H1 H2]. destruct s as [l r]. cbn [step unstep fst snd] in *. set (r' := Z.lxor r (f l)).
  assert (E : (add32 l r' - r') mod 2 ^ 32 = l).
  { unfold add32. rewrite Zminus_mod_idemp_l. replace (l + r' - r') with l by lia. now apply Z.mod_small. }
  rewrite E. f_equal. unfold r'. now rewrite Z.lxor_assoc, Z.lxor_nilpotent, Z.lxor_0_r.
Qed.
Lemma step_unstep f s : wpair s -> step f (unstep f s) = s.
Proof.
  intros [H1 H2]. destruct s as [l r]. cbn [step unstep fst snd] in *. set (l' := (l - r) mod 2 ^ 32).
  rewrite Z.lxor_assoc, Z.lxor_nilpotent, Z.lxor_0_r. f_equal. unfold add32, l'.
  rewrite Zplus_mod_idemp_l. replace (l - r + r) with l by lia. now apply Z.mod_small.
Qed.

Lemma block_steps l r : block l r = step (ror 2) (step (rol 3) (step XSWAP (step (rol 17) (l, r)))).
Proof. reflexivity. Qed.

Lemma rol_word n x : 0 <= n <= 32 -> word x -> word (rol n x).
Proof.
  intros Hn Hx. rewrite <- rol_code by auto. unfold word in *.
  assert (A : 0 <= Z.land (Z.shiftl x n) 4294967295 < 2 ^ 32).
  { change 4294967295 with (2 ^ 32 - 1). rewrite land_ones_mod by lia. apply Z.mod_pos_bound. lia. }
  assert (C : 0 <= Z.land (Z.shiftr x (32 - n)) (2 ^ n - 1) < 2 ^ 32).
  { rewrite land_ones_mod by lia.
    assert (0 < 2 ^ n) by (apply Z.pow_pos_nonneg; lia).
    assert (2 ^ n <= 2 ^ 32) by (apply Z.pow_le_mono_r; lia).
    pose proof (Z.mod_pos_bound (Z.shiftr x (32 - n)) (2 ^ n)). lia. }
  revert A C. generalize (Z.land (Z.shiftl x n) 4294967295) (Z.land (Z.shiftr x (32 - n)) (2 ^ n - 1)). intros u v A C.
  assert (N : 0 <= Z.lor u v) by (apply Z.lor_nonneg; lia). split; [exact N|].
  destruct (Z.eq_dec (Z.lor u v) 0) as [->|NZ]; [lia|].
  apply Z.log2_lt_pow2; [lia|]. rewrite Z.log2_lor by lia.
  apply Z.max_lub_lt.
  - destruct (Z.eq_dec u 0) as [->|]; [cbn; lia|]. apply Z.log2_lt_pow2; lia.
  - destruct (Z.eq_dec v 0) as [->|]; [cbn; lia|]. apply Z.log2_lt_pow2; lia.
Qed.
Lemma ror2_word x : word x -> word (ror 2 x).
Proof. intros. rewrite <- ror2_rol30 by auto. apply rol_word; auto. lia. Qed.
Lemma xswap_word x : word x -> word (XSWAP x).
Proof.
  intros _. unfold XSWAP, word, octet.
  pose proof (Z.mod_pos_bound (x / 2 ^ (8 * 0)) 256 ltac:(lia)). pose proof (Z.mod_pos_bound (x / 2 ^ (8 * 1)) 256 ltac:(lia)).
  pose proof (Z.mod_pos_bound (x / 2 ^ (8 * 2)) 256 ltac:(lia)). pose proof (Z.mod_pos_bound (x / 2 ^ (8 * 3)) 256 ltac:(lia)).
  revert H H0 H1 H2. generalize (x / 2 ^ (8 * 0) mod 256) (x / 2 ^ (8 * 1) mod 256) (x / 2 ^ (8 * 2) mod 256) (x / 2 ^ (8 * 3) mod 256).
  intros. lia.
Qed.

Lemma b_block l r : word l -> word r -> b l r = block l r.
Proof.
  intros Hl Hr.
  assert (A : forall x y, Z.land (x + y) 4294967295 = add32 x y).
  { intros. change 4294967295 with (2 ^ 32 - 1). apply land_ones_mod. lia. }
  assert (Wa : forall x y, word (add32 x y)) by (intros; unfold word, add32; apply Z.mod_pos_bound; lia).
  unfold b, block. cbv zeta.
  change 0x1ffff with (2 ^ 17 - 1). change 15 with (32 - 17). rewrite (rol_code 17 l) by (auto; lia).
  set (r1 := Z.lxor r (rol 17 l)). rewrite (A l r1). set (l1 := add32 l r1).
  rewrite (xswap_code l1) by apply Wa. set (r2 := Z.lxor r1 (XSWAP l1)). rewrite (A l1 r2). set (l2 := add32 l1 r2).
  change 7 with (2 ^ 3 - 1). change 29 with (32 - 3). rewrite (rol_code 3 l2) by (try apply Wa; lia).
  set (r3 := Z.lxor r2 (rol 3 l2)). rewrite (A l2 r3). set (l3 := add32 l2 r3).
  change 0x3fffffff with (2 ^ 30 - 1). 
  replace (Z.shiftr l3 2) with (Z.shiftr l3 (32 - 30)) by reflexivity.
  rewrite (rol_code 30 l3) by (try apply Wa; lia). rewrite ror2_rol30 by apply Wa.
  now rewrite A.
Qed.

Definition unblock (s : Z * Z) : Z * Z :=
  unstep (rol 17) (unstep XSWAP (unstep (rol 3) (unstep (ror 2) s))).
Lemma r17 : forall x, word x -> word (rol 17 x). Proof. intros. apply rol_word; auto. lia. Qed.
Lemma r3 : forall x, word x -> word (rol 3 x). Proof. intros. apply rol_word; auto. lia. Qed.
Lemma block_w s : wpair s -> wpair (block (fst s) (snd s)).
Proof.
  intros H. rewrite block_steps. destruct s as [l r].
  apply step_w; [apply ror2_word|]. apply step_w; [apply r3|]. apply step_w; [apply xswap_word|]. apply step_w; [apply r17|]. exact H.
Qed.
Lemma unblock_w s : wpair s -> wpair (unblock s).
Proof.
  intros H. unfold unblock.
  apply unstep_w; [apply r17|]. apply unstep_w; [apply xswap_word|]. apply unstep_w; [apply r3|]. apply unstep_w; [apply ror2_word|]. exact H.
Qed.
Lemma unblock_block s : wpair s -> unblock (block (fst s) (snd s)) = s.
Proof.
  intros H. destruct s as [l r]. cbn [fst snd]. rewrite block_steps. unfold unblock.
  assert (W1 := step_w _ _ r17 H). assert (W2 := step_w _ _ xswap_word W1). assert (W3 := step_w _ _ r3 W2).
  rewrite (unstep_step (ror 2)) by exact W3. rewrite (unstep_step (rol 3)) by exact W2.
  rewrite (unstep_step XSWAP) by exact W1. rewrite (unstep_step (rol 17)) by exact H. reflexivity.
Qed.
Lemma block_unblock s : wpair s -> block (fst (unblock s)) (snd (unblock s)) = s.
Proof.
  intros H. rewrite block_steps, <- surjective_pairing. unfold unblock.
  assert (W1 := unstep_w _ _ ror2_word H). assert (W2 := unstep_w _ _ r3 W1). assert (W3 := unstep_w _ _ xswap_word W2).
  rewrite (step_unstep (rol 17)) by exact W3. rewrite (step_unstep XSWAP) by exact W2.
  rewrite (step_unstep (rol 3)) by exact W1. rewrite (step_unstep (ror 2)) by exact H. reflexivity.
Qed.

(** ** the loop *)
Definition absorb (s : Z * Z) (w : Z) : Z * Z := block (Z.lxor (fst s) w) (snd s).
Definition unabsorb (s : Z * Z) (w : Z) : Z * Z := let t := unblock s in (Z.lxor (fst t) w, snd t).

Lemma absorb_w s w : wpair s -> word w -> wpair (absorb s w).
Proof. intros [A B] H. apply (block_w (Z.lxor (fst s) w, snd s)). split; cbn; auto using word_lxor. Qed.
Lemma unabsorb_w s w : wpair s -> word w -> wpair (unabsorb s w).
Proof. intros A H. apply unblock_w in A as [A B]. split; cbn; auto using word_lxor. Qed.
Lemma unabsorb_absorb s w : wpair s -> word w -> unabsorb (absorb s w) w = s.
Proof.
  intros [A B] H. unfold unabsorb, absorb.
  pose proof (unblock_block (Z.lxor (fst s) w, snd s)) as E. cbn [fst snd] in E.
  rewrite E by (split; cbn; auto using word_lxor). cbn [fst snd].
  rewrite Z.lxor_assoc, Z.lxor_nilpotent, Z.lxor_0_r. now destruct s.
Qed.
Lemma absorb_unabsorb s w : wpair s -> word w -> absorb (unabsorb s w) w = s.
Proof.
  intros A H. unfold unabsorb, absorb. cbn [fst snd]. rewrite Z.lxor_assoc, Z.lxor_nilpotent, Z.lxor_0_r.
  now apply block_unblock.
Qed.

Lemma fold_absorb_w ws : Forall word ws -> forall s, wpair s -> wpair (fold_left absorb ws s).
Proof. induction 1; intros s Hs; cbn [fold_left]; auto. apply IHForall. now apply absorb_w. Qed.
Lemma fold_absorb_inj ws : Forall word ws -> forall s t, wpair s -> wpair t ->
  fold_left absorb ws s = fold_left absorb ws t -> s = t.
Proof.
  induction 1 as [|w ws Hw Hws IH]; intros s t Hs Ht E; cbn [fold_left] in E; auto.
  apply IH in E; auto using absorb_w.
  rewrite <- (unabsorb_absorb s w), <- (unabsorb_absorb t w) by auto. now rewrite E.
Qed.
Lemma fold_absorb_onto ws : Forall word ws -> forall t, wpair t -> exists s, wpair s /\ fold_left absorb ws s = t.
Proof.
  induction 1 as [|w ws Hw Hws IH]; intros t Ht; [eauto|].
  destruct (IH t Ht) as (s & Ws & E). exists (unabsorb s w). split; [now apply unabsorb_w|].
  cbn [fold_left]. now rewrite absorb_unabsorb.
Qed.

Lemma octets4 a c d e t : octets (a :: c :: d :: e :: t) ->
  is_octet a /\ is_octet c /\ is_octet d /\ is_octet e /\ octets t.
Proof. unfold octets. intros H. rewrite !Forall_cons_iff in H. tauto. Qed.
Lemma four_octets_word a c d e : is_octet a -> is_octet c -> is_octet d -> is_octet e ->
  word (a + 2 ^ 8 * c + 2 ^ 16 * d + 2 ^ 24 * e).
Proof. unfold is_octet, word. lia. Qed.
Lemma le_words_words n : forall s, (length s <= n)%nat -> octets s -> Forall word (le_words s).
Proof.
  induction n as [|n IH]; intros s L H; [destruct s; [constructor|cbn in L; lia]|].
  destruct s as [|a [|c [|d [|e t]]]]; try constructor.
  - destruct (octets4 _ _ _ _ _ H) as (Ha & Hc & Hd & He & Ht).
    now apply four_octets_word.
  - destruct (octets4 _ _ _ _ _ H) as (Ha & Hc & Hd & He & Ht).
    apply IH; auto. cbn in L; lia.
Qed.

Lemma skipn_plus {A} n m (l : list A) : skipn n (skipn m l) = skipn (m + n) l.
Proof. revert l. induction m as [|m IH]; intros l; [reflexivity|]. destruct l; [now destruct n|]. cbn. apply IH. Qed.
Lemma michael_loop_spec n : forall i P rest l r, 0 <= i -> skipn (Z.to_nat (i * 4)) P = rest ->
  length rest = (4 * n)%nat -> octets rest -> word l -> word r ->
  michael_loop n i P l r = Ok (fold_left absorb (le_words rest) (l, r)).
Proof.
  induction n as [|n IH]; intros i P rest l r Hi E L O Hl Hr.
  - destruct rest; [reflexivity|cbn in L; lia].
  - destruct rest as [|a [|c [|d [|e t]]]]; cbn [length] in L; try lia.
    cbn [michael_loop]. unfold slice. rewrite E. replace (Z.to_nat (i * 4 + 4 - i * 4)) with 4%nat by lia.
    cbn [firstn unpack_I bind le_words fold_left].
    change (a + 256 * c + 65536 * d + 16777216 * e) with (a + 2 ^ 8 * c + 2 ^ 16 * d + 2 ^ 24 * e).
    set (w := a + 2 ^ 8 * c + 2 ^ 16 * d + 2 ^ 24 * e).
    destruct (octets4 _ _ _ _ _ O) as (Ha & Hc & Hd & He & Ht).
    assert (Ww : word w) by now apply four_octets_word.
    rewrite b_block by auto using word_lxor.
    pose proof (absorb_w (l, r) w (conj Hl Hr) Ww) as [W1 W2].
    change (block (Z.lxor l w) r) with (absorb (l, r) w).
    destruct (absorb (l, r) w) as [l' r'] eqn:EA. cbn [fst snd] in *.
    apply IH; auto; [lia| |lia].
    replace (Z.to_nat ((i + 1) * 4)) with (Z.to_nat (i * 4) + 4)%nat by lia.
    rewrite <- skipn_plus, E. reflexivity.
Qed.

Lemma pad_code data : data ++ [0x5a] ++ str_repeat 0 (7 - len data mod 4) = mic_pad data.
Proof.
  unfold mic_pad, str_repeat. do 3 f_equal. unfold len. lia.
Qed.
Lemma mic_pad_length data : length (mic_pad data) = (4 * Z.to_nat (len data / 4 + 2))%nat.
Proof. rewrite <- pad_code. unfold str_repeat. rewrite !app_length, repeat_length. cbn [length]. unfold len. lia. Qed.
Lemma mic_pad_octets data : octets data -> octets (mic_pad data).
Proof.
  intros H. rewrite <- pad_code. apply octets_app. split; auto. apply octets_app. split.
  - constructor; [unfold is_octet; lia|constructor].
  - apply octets_repeat. unfold is_octet; lia.
Qed.

Lemma pack_le4 x : word x -> pack_I x = Ok (le4 x).
Proof. intros H. unfold pack_I. unfold word in H. replace (_ && _) with true by lia. unfold le4, octet. cbn [Z.mul]. rewrite Z.pow_0_r, Z.div_1_r. reflexivity. Qed.

Lemma michael_hash_spec l r data : word l -> word r -> octets data ->
  michael_hash (Some (l, r)) data =
  Ok (let s := fold_left absorb (le_words (mic_pad data)) (l, r) in le4 (fst s) ++ le4 (snd s)).
Proof.
  intros Hl Hr Hd. unfold michael_hash. rewrite pad_code.
  rewrite (michael_loop_spec _ 0 _ (mic_pad data) l r); auto; [|lia|apply mic_pad_length|now apply mic_pad_octets].
  cbn [bind].
  pose proof (fold_absorb_w _ (le_words_words _ _ (le_n _) (mic_pad_octets _ Hd)) (l, r) (conj Hl Hr)) as [W1 W2].
  destruct (fold_left absorb _ _) as [l' r']. cbn [fst snd] in *. rewrite !pack_le4 by auto. reflexivity.
Qed.

Lemma setKey_spec key : octets key -> len key = 8 ->
  exists k0 k1, le_words key = [k0; k1] /\ word k0 /\ word k1 /\ michael_setKey key = Ok (k0, k1).
Proof.
  intros Ho L. unfold len in L.
  destruct key as [|a [|c [|d [|e [|f [|g [|h [|i [|z t]]]]]]]]]; cbn [length] in L; try lia.
  pose proof (le_words_words _ _ (le_n _) Ho) as W. cbn [le_words] in W.
  inversion W as [|? ? W1 W']; inversion W' as [|? ? W2 _]; subst.
  eexists _, _. split; [reflexivity|]. split; [exact W1|]. split; [exact W2|]. reflexivity.
Qed.

Lemma michael_spec key data : octets key -> octets data -> len key = 8 ->
  michael key data = Ok (ieee_michael key data).
Proof.
  intros Hk Hd L. destruct (setKey_spec key Hk L) as (k0 & k1 & E & W0 & W1 & ES).
  unfold michael, ieee_michael. rewrite ES, E. cbn [bind]. rewrite michael_hash_spec by auto.
  change (fun (s : Z * Z) (w : Z) => block (Z.lxor (fst s) w) (snd s)) with absorb.
  destruct (fold_left absorb _ _) as [l r]. reflexivity.
Qed.

Lemma le4_ok x : octets (le4 x) /\ length (le4 x) = 4%nat.
Proof. split; [|reflexivity]. unfold le4, octet. repeat constructor; unfold is_octet; apply Z.mod_pos_bound; lia. Qed.
Lemma ieee_michael_ok key data : octets key -> len key = 8 ->
  octets (ieee_michael key data) /\ len (ieee_michael key data) = 8.
Proof.
  intros Hk L. destruct (setKey_spec key Hk L) as (k0 & k1 & E & _). unfold ieee_michael. rewrite E.
  destruct (fold_left _ _ _) as [l r]. destruct (le4_ok l), (le4_ok r). split; [apply octets_app; auto|]. reflexivity.
Qed.

Lemma le4_inj x y : word x -> word y -> le4 x = le4 y -> x = y.
Proof.
  intros Hx Hy E. unfold le4, octet, word in *. cbn [Z.mul Pos.mul Pos.add] in E. injection E as E0 E1 E2 E3.
  change (2 ^ 32) with 4294967296 in *.
  change (2 ^ 0) with 1 in *. change (2 ^ 8) with 256 in *. change (2 ^ 16) with 65536 in *. change (2 ^ 24) with 16777216 in *. lia.
Qed.
Lemma le4_words x rest : word x -> le_words (le4 x ++ rest) = x :: le_words rest.
Proof.
  intros Hx. unfold le4, octet, word in *. cbn [app le_words]. f_equal.
  change (2 ^ (8 * 0)) with 1. change (2 ^ (8 * 1)) with 256. change (2 ^ (8 * 2)) with 65536. change (2 ^ (8 * 3)) with 16777216.
  change (2 ^ 32) with 4294967296 in *. change (2 ^ 8) with 256. change (2 ^ 16) with 65536. change (2 ^ 24) with 16777216. lia.
Qed.
Lemma words_le4 s : octets s -> length s = 4%nat -> exists w, word w /\ s = le4 w.
Proof.
  intros H L. destruct s as [|a [|c [|d [|e [|]]]]]; cbn in L; try lia.
  destruct (octets4 _ _ _ _ _ H) as (Ha & Hc & Hd & He & Ht).
  exists (a + 2 ^ 8 * c + 2 ^ 16 * d + 2 ^ 24 * e). split; [now apply four_octets_word|].
  unfold is_octet in *. unfold le4, octet.
  change (2 ^ (8 * 0)) with 1. change (2 ^ (8 * 1)) with 256. change (2 ^ (8 * 2)) with 65536. change (2 ^ (8 * 3)) with 16777216.
  change (2 ^ 8) with 256. change (2 ^ 16) with 65536. change (2 ^ 24) with 16777216.
  repeat (f_equal; [lia|]). f_equal. lia.
Qed.
Lemma le4_split s : octets s -> len s = 8 -> exists l r, word l /\ word r /\ s = le4 l ++ le4 r.
Proof.
  intros H L. rewrite <- (firstn_skipn 4 s).
  destruct (words_le4 (firstn 4 s)) as (l & Wl & El); [now apply octets_firstn|rewrite firstn_length; unfold len in L; lia|].
  destruct (words_le4 (skipn 4 s)) as (r & Wr & Er); [now apply octets_skipn|rewrite skipn_length; unfold len in L; lia|].
  exists l, r. rewrite <- El, <- Er. auto.
Qed.

Lemma michael_bijective data t : octets data -> octets t -> len t = 8 ->
  exists key, (octets key /\ len key = 8 /\ michael key data = Ok t) /\
  forall key', octets key' -> len key' = 8 -> michael key' data = Ok t -> key' = key.
Proof.
  intros Hd Ht Lt. destruct (le4_split t Ht Lt) as (tl & tr & Wl & Wr & ->).
  pose proof (le_words_words _ _ (le_n _) (mic_pad_octets _ Hd)) as WW.
  destruct (fold_absorb_onto _ WW (tl, tr) (conj Wl Wr)) as ([kl kr] & [Wkl Wkr] & E). cbn [fst snd] in *.
  assert (G : forall l r, word l -> word r -> octets (le4 l ++ le4 r) /\ len (le4 l ++ le4 r) = 8 /\
      michael (le4 l ++ le4 r) data =
        Ok (let s := fold_left absorb (le_words (mic_pad data)) (l, r) in le4 (fst s) ++ le4 (snd s))).
  { intros l r Wl' Wr'. assert (O : octets (le4 l ++ le4 r)) by (apply octets_app; split; apply le4_ok).
    split; [exact O|]. split; [reflexivity|]. rewrite michael_spec by (auto; reflexivity). unfold ieee_michael.
    rewrite le4_words by auto. rewrite <- (app_nil_r (le4 r)), le4_words by auto. cbn [le_words].
    change (fun (s : Z * Z) (w : Z) => block (Z.lxor (fst s) w) (snd s)) with absorb.
    destruct (fold_left absorb _ (l, r)) as [u v]. reflexivity. }
  exists (le4 kl ++ le4 kr). destruct (G kl kr Wkl Wkr) as (O & L & M). split.
  - split; [exact O|]. split; [exact L|]. rewrite M, E. reflexivity.
  - intros key' O' L' M'. destruct (le4_split key' O' L') as (l & r & Wl' & Wr' & ->).
    destruct (G l r Wl' Wr') as (_ & _ & M2). rewrite M2 in M'. injection M' as M'.
    pose proof (fold_absorb_w _ WW (l, r) (conj Wl' Wr')) as [V1 V2].
    assert (Q : fold_left absorb (le_words (mic_pad data)) (l, r) = (tl, tr)).
    { destruct (fold_left absorb _ (l, r)) as [u v]. cbn [fst snd] in *.
      assert (le4 u = le4 tl /\ le4 v = le4 tr) as [Q1 Q2].
      { unfold le4 in *. cbn [app] in M'. split; congruence. }
      apply le4_inj in Q1, Q2; auto. congruence. }
    rewrite <- E in Q. apply fold_absorb_inj in Q; [congruence|exact WW|split; auto|split; auto].
Qed.

Lemma rev_repeat {A} (x : A) n : rev (repeat x n) = repeat x n.
Proof.
  induction n as [|n IH]; [reflexivity|]. cbn [repeat rev]. rewrite IH. clear IH.
  induction n as [|n IH]; [reflexivity|]. cbn [repeat app]. now rewrite IH.
Qed.
Lemma mic_pad_inj m m' : mic_pad m = mic_pad m' -> m = m'.
Proof.
  unfold mic_pad. intros E. apply (f_equal (@rev Z)) in E. rewrite !rev_app_distr, <- !app_assoc in E. cbn [rev app] in E.
  rewrite !rev_repeat in E. 
  revert E. generalize (Z.to_nat (4 + - (Z.of_nat (length m) + 5) mod 4)) (Z.to_nat (4 + - (Z.of_nat (length m') + 5) mod 4)).
  intros j k. revert k. induction j as [|j IH]; intros [|k] E; cbn in E; try discriminate.
  - injection E as E. apply (f_equal (@rev Z)) in E. now rewrite !rev_involutive in E.
  - injection E as E. apply (IH k). exact E.
Qed.
