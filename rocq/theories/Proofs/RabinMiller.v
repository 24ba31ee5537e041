(** Monier-Rabin: at most a quarter of the bases are strong liars for an odd composite. *)
From Coq Require Import Znumtheory Zpow_facts Setoid Morphisms.
From Verif Require Import Proofs.Tac Model.NumberTheory Spec.NumberSpec Proofs.Jacobi Proofs.Cong Proofs.Sqrt Proofs.NTBasic Proofs.PrimeCert Proofs.Legendre Proofs.Primality Proofs.PrimeFacts Proofs.UnitRoots.
Local Open Scope Z_scope.

(** ** what the loop decides *)
Lemma m1_mod n : 2 < n -> (-1) mod n = n - 1.
Proof. intros H. replace (-1) with (n - 1 + (-1) * n) by ring. rewrite Z_mod_plus_full. apply Z.mod_small. lia. Qed.
Lemma mr_loop_char n fuel : 2 < n -> forall j s y o, mr_loop fuel j s y n = Ok o -> 1 <= j <= s -> 0 <= y < n -> y <> 1 ->
  (o = Some (n - 1) <-> exists i, 0 <= i <= s - j /\ cong n (y ^ (2 ^ i)) (-1)).
Proof.
  intros Hn. assert (M1 := m1_mod n Hn).
  induction fuel as [|f IH]; intros j s y o E J Y Y1; cbn [mr_loop] in E; destruct ((j <=? s - 1) && negb (y =? n - 1)) eqn:C.
  1: discriminate.
  1,3: injection E as <-; apply andb_false_iff in C; split;
    [ intros [= ->]; exists 0; split; [lia|]; change (2 ^ 0) with 1; rewrite Z.pow_1_r; apply cong_divide; [lia|exists 1; ring]
    | intros (i & I & D); destruct C as [C|C];
      [ assert (i = 0) by lia; subst i; change (2 ^ 0) with 1 in D; rewrite Z.pow_1_r in D; apply uncong in D;
        rewrite M1, Z.mod_small in D by lia; now subst
      | f_equal; destruct (Z.eqb_spec y (n - 1)); [assumption|discriminate] ] ].
  rewrite mr_square in E by lia. cbn [bind] in E. apply andb_true_iff in C as (C1 & C2). assert (YN : y <> n - 1) by (destruct (Z.eqb_spec y (n - 1)); [discriminate|assumption]).
  assert (STEP : forall i, 0 < i -> cong n (y ^ (2 ^ i)) ((y ^ 2 mod n) ^ (2 ^ (i - 1)))).
  { intros i I. cmod. apply cong_refl_eq. rewrite <- Z.pow_mul_r by lia. f_equal. rewrite <- (Z.pow_succ_r 2) by lia. f_equal. lia. }
  assert (NOT0 : ~ cong n (y ^ (2 ^ 0)) (-1)).
  { intros [D]. change (2 ^ 0) with 1 in D. rewrite Z.pow_1_r, M1, Z.mod_small in D by lia. congruence. }
  destruct (y ^ 2 mod n =? 1) eqn:Q.
  - injection E as <-. split; [discriminate|]. intros (i & I & D). exfalso. destruct (Z.eq_dec i 0) as [->|I0]; [auto|].
    rewrite STEP in D by lia. apply Z.eqb_eq in Q. rewrite Q, Z.pow_1_l in D by lia. destruct D as [D]. rewrite M1, Z.mod_small in D by lia. lia.
  - apply Z.eqb_neq in Q. assert (B := Z.mod_pos_bound (y ^ 2) n ltac:(lia)). rewrite (IH _ _ _ _ E) by (auto; lia). split.
    + intros (i & I & D). exists (i + 1). split; [lia|]. rewrite STEP by lia. replace (i + 1 - 1) with i by ring. exact D.
    + intros (i & I & D). assert (i <> 0) by (intros ->; auto). exists (i - 1). split; [lia|]. rewrite <- STEP by lia. exact D.
Qed.
Lemma mr_round_char n fuel s r a b : 2 < n -> 1 <= s -> 0 < r -> mr_round fuel n s r a = Ok b ->
  (b = true <-> cong n (a ^ r) 1 \/ exists i, 0 <= i < s /\ cong n (a ^ (2 ^ i * r)) (-1)).
Proof.
  intros Hn Hs Hr. unfold mr_round. rewrite modexp_ok by lia. cbn [bind]. assert (M1 := m1_mod n Hn).
  assert (B := Z.mod_pos_bound (a ^ r) n ltac:(lia)).
  destruct (a ^ r mod n =? 1) eqn:E1; cbn [negb andb].
  { intros [= <-]. split; [intros _|auto]. left. split. apply Z.eqb_eq in E1. rewrite E1. symmetry. apply Z.mod_small. lia. }
  destruct (a ^ r mod n =? n - 1) eqn:E2; cbn [negb andb].
  { intros [= <-]. split; [intros _|auto]. right. exists 0. split; [lia|]. change (2 ^ 0) with 1. rewrite Z.mul_1_l. split. lia. }
  destruct (mr_loop fuel 1 s (a ^ r mod n) n) as [o|] eqn:E; cbn [bind]; [|discriminate].
  assert (C := mr_loop_char n fuel Hn _ _ _ _ E ltac:(lia) B ltac:(lia)). intros F.
  assert (P : forall i, 0 <= i -> cong n (a ^ (2 ^ i * r)) ((a ^ r mod n) ^ (2 ^ i))).
  { intros i I. cmod. apply cong_refl_eq. rewrite <- Z.pow_mul_r by lia. f_equal. ring. }
  assert (X : b = true <-> o = Some (n - 1)). { destruct o as [y|]; injection F as <-; [|split; discriminate]. rewrite Z.eqb_eq. split; [now intros ->|now intros [=]]. }
  rewrite X, C. split.
  - intros (i & I & D). right. exists i. split; [lia|]. rewrite P by lia. exact D.
  - intros [[D]|(i & I & D)]; [rewrite (Z.mod_small 1) in D by lia; lia|]. exists i. split; [lia|]. rewrite <- P by lia. exact D.
Qed.
Lemma odd_part s r s' r' : 0 <= s -> 0 <= s' -> r mod 2 = 1 -> r' mod 2 = 1 -> 2 ^ s * r = 2 ^ s' * r' -> s = s' /\ r = r'.
Proof.
  assert (X : forall s r s' r', 0 <= s < s' -> r mod 2 = 1 -> 2 ^ s * r = 2 ^ s' * r' -> False).
  { clear. intros s r s' r' S R E. replace s' with (s + (1 + (s' - s - 1))) in E by ring. rewrite !Z.pow_add_r in E by lia.
    assert (P : 0 < 2 ^ s) by (apply Z.pow_pos_nonneg; lia). assert (r = 2 * (2 ^ (s' - s - 1) * r')).
    { apply (Z.mul_reg_l _ _ (2 ^ s)); [lia|]. rewrite E. ring. }
    rewrite H, Z.mul_comm, Z.mod_mul in R; lia. }
  intros S S' R R' E. destruct (Z.lt_trichotomy s s') as [L|[L|L]].
  - destruct (X _ _ _ _ (conj S L) R E).
  - subst. split; [auto|]. apply (Z.mul_reg_l _ _ (2 ^ s')); [|exact E]. assert (0 < 2 ^ s') by (apply Z.pow_pos_nonneg; lia). lia.
  - symmetry in E. destruct (X _ _ _ _ (conj S' L) R' E).
Qed.
Lemma strong_fixed n a s r : 0 <= s -> 0 < r -> r mod 2 = 1 -> n - 1 = 2 ^ s * r ->
  (strong_probable_prime n a <-> cong n (a ^ r) 1 \/ exists i, 0 <= i < s /\ cong n (a ^ (2 ^ i * r)) (-1)).
Proof.
  intros S R O E. split.
  - intros (s' & r' & S' & R' & O' & E' & H). destruct (odd_part s r s' r') as (<- & <-); auto; [congruence|].
    destruct H as [H|(i & I & H)]; [left; now split|right; exists i; split; [auto|now split]].
  - intros H. exists s, r. repeat (split; [assumption|]). destruct H as [[H]|(i & I & [H])]; eauto.
Qed.
Lemma c51_strong_test : forall n a, 2 < n -> n mod 2 = 1 -> 1 <= a <= n - 1 -> exists fuel0 v,
  (forall fuel, (fuel0 <= fuel)%nat -> rabin_miller fuel n a = Ok v) /\ (v = 0 \/ v = 1) /\ (v = 1 <-> strong_probable_prime n a).
Proof.
  intros n a Hn On Ha. destruct (rabin_miller_round (Z.to_nat n) n a Ha (le_n _)) as (s0 & r0 & b0 & _ & _ & S0 & R0 & E0 & _ & O0).
  exists (Z.to_nat n). destruct (rabin_miller_round (Z.to_nat n) n a Ha (le_n _)) as (s & r & b & E1 & E2 & S & R & E & F & O).
  assert (S1 : 1 <= s). { destruct (Z.eq_dec s 0) as [->|]; [|lia]. change (2 ^ 0) with 1 in E. lia. }
  exists (if b then 1 else 0). split; [|split; [destruct b; auto|]].
  - intros fuel L. destruct (rabin_miller_round fuel n a Ha L) as (s' & r' & b' & E1' & E2' & S' & R' & E' & F' & O').
    rewrite E1'. destruct (odd_part s r s' r') as (<- & <-); auto; [congruence|].
    rewrite (mr_round_mono _ _ _ _ _ _ fuel E2 L) in E2'. injection E2' as <-. reflexivity.
  - rewrite (strong_fixed n a s r) by auto. rewrite <- (mr_round_char n (Z.to_nat n) s r a b) by auto. destruct b; split; congruence.
Qed.

(** ** C50: what is_prime decides *)
Lemma witnesses bits a : In a (firstn (mr_count bits mr_table 40) smallprimes) <-> prime a /\ a <= witness_limit bits.
Proof.
  assert (X : forall k l, firstn k smallprimes = filter (fun x => x <=? l) smallprimes -> l <= 1229 -> (In a (firstn k smallprimes) <-> prime a /\ a <= l)).
  { intros k l E L. rewrite E, filter_In, small_spec, Z.leb_le. split; [tauto|]. intros (P & B). split; [split; [exact P|clear - B L; lia]|exact B]. }
  unfold mr_table, witness_limit. cbn [mr_count].
  repeat match goal with |- context [bits <? ?k] => destruct (bits <? k); [apply X; [vm_compute; reflexivity|lia]|] end.
  apply X; [vm_compute; reflexivity|lia].
Qed.
Lemma mr_rounds_char n fuel s r l b : 2 < n -> 1 <= s -> 0 < r -> r mod 2 = 1 -> n - 1 = 2 ^ s * r -> mr_rounds fuel n s r l = Ok b ->
  (b = true <-> forall a, In a l -> strong_probable_prime n a).
Proof.
  intros Hn Hs Hr Or E. revert b. induction l as [|a l IH]; intros b; cbn [mr_rounds].
  - intros [= <-]. split; [intros _ a []|reflexivity].
  - destruct (mr_round fuel n s r a) as [c|] eqn:R; cbn [bind]; [|discriminate].
    apply mr_round_char in R; auto. rewrite <- (strong_fixed n a s r) in R by (auto; lia). destruct c.
    + intros M. rewrite (IH b M). split; [intros H x [<-|I]; [now apply R|now apply H]|intros H x I; apply H; now right].
    + intros [= <-]. split; [discriminate|]. intros H. apply R. apply H. now left.
Qed.
Lemma c50_criterion : forall n_bits n, 1229 < n -> exists fuel0 b, (forall fuel, (fuel0 <= fuel)%nat -> is_prime n_bits fuel n = Ok b) /\
  (b = true <-> Z.gcd n 2310 = 1 /\ forall q, prime q -> q <= witness_limit (n_bits n) -> strong_probable_prime n q).
Proof.
  intros nb n N. destruct (is_prime_total' nb n) as (f0 & b & H). exists f0, b. split; [exact H|].
  specialize (H (Nat.max f0 (Nat.max (steps n) (Z.to_nat n))) ltac:(clear; lia)). set (f := Nat.max f0 _) in H.
  assert (F1 : (steps n <= f)%nat) by (clear; lia). assert (F2 : (Z.to_nat n <= f)%nat) by (clear; lia). clearbody f.
  unfold is_prime in H. unfold smallprimes_last in H. replace (n <=? 1229) with false in H by (clear - N; lia). rewrite gcd_two in H; [|clear - N; lia|clear; lia|exact F1].
  cbn [bind] in H. change (2 * 3 * 5 * 7 * 11) with 2310 in H. destruct (Z.gcd n 2310 =? 1) eqn:G; cbn [negb] in H; [apply Z.eqb_eq in G|apply Z.eqb_neq in G].
  - destruct (split2_total n f) as (s & r & E & S0 & _ & R0 & RO & EQ); [clear - N; lia|exact F2|]. rewrite E in H. cbn [bind] in H.
    assert (On : n mod 2 = 1). { destruct (Z.eq_dec (n mod 2) 0) as [D|D]; [|clear - D; lia]. apply Z.mod_divide in D; [|discriminate].
      assert (T : (2 | Z.gcd n 2310)) by (apply Z.gcd_greatest; [exact D|now exists 1155]). rewrite G in T. apply Z.divide_1_r in T. clear - T; lia. }
    assert (S1 : 1 <= s). { destruct (Z.eq_dec s 0) as [->|D]; [|clear - D S0; lia]. change (2 ^ 0) with 1 in EQ. clear - EQ RO On; lia. }
    apply mr_rounds_char in H; auto; [|clear - N; lia]. rewrite H. split.
    + intros A. split; [exact G|]. intros q P L. apply A. now apply witnesses.
    + intros (_ & A) q I. apply witnesses in I as (P & L). now apply A.
  - injection H as <-. split; [discriminate|tauto].
Qed.

(** ** counting *)
Lemma NoDup_app_intro {A} (l l' : list A) : NoDup l -> NoDup l' -> (forall x, In x l -> ~ In x l') -> NoDup (l ++ l').
Proof.
  intros N N' D. induction N as [|x l I N IH]; [exact N'|]. cbn. constructor.
  - rewrite in_app_iff. intros [H|H]; [auto|]. apply (D x); [now left|exact H].
  - apply IH. intros y J. apply D. now right.
Qed.
Lemma NoDup_flat_map {A B} (f : A -> list B) l : NoDup l -> (forall x, In x l -> NoDup (f x)) ->
  (forall x y z, In x l -> In y l -> In z (f x) -> In z (f y) -> x = y) -> NoDup (flat_map f l).
Proof.
  intros N F D. induction N as [|x l I N IH]; [constructor|]. cbn [flat_map]. apply NoDup_app_intro.
  - apply F. now left.
  - apply IH; [intros y J; apply F; now right|intros y y' z J J'; apply D; now right].
  - intros z Z1 Z2. apply in_flat_map in Z2 as (y & J & Z2). assert (x = y) by (eapply D; eauto; [now left|now right]). now subst.
Qed.
Lemma NoDup_map_inj {A B} (f : A -> B) l : NoDup l -> (forall x y, In x l -> In y l -> f x = f y -> x = y) -> NoDup (map f l).
Proof.
  intros N D. induction N as [|x l I N IH]; [constructor|]. cbn [map]. constructor.
  - intros J. apply in_map_iff in J as (y & E & J). assert (x = y) by (apply D; [now left|now right|auto]). now subst.
  - apply IH. intros y z J K. apply D; now right.
Qed.
Lemma zrange_in n a : In a (zrange n) <-> 1 <= a <= n - 1.
Proof.
  unfold zrange. rewrite in_map_iff. split; [intros (x & <- & I); apply in_seq in I; lia|].
  intros H. exists (Z.to_nat a). split; [lia|]. apply in_seq. lia.
Qed.
Lemma zrange_nodup n : NoDup (zrange n).
Proof. apply NoDup_map_inj; [apply seq_NoDup|]. intros x y _ _ E. lia. Qed.
Lemma zrange_length n : 1 <= n -> Z.of_nat (length (zrange n)) = n - 1.
Proof. intros H. unfold zrange. rewrite map_length, seq_length. lia. Qed.

Definition unit (n c : Z) : Prop := exists u, cong n (c * u) 1.
Lemma unit_mul n a b : unit n a -> unit n b -> unit n (a * b).
Proof. intros (u & U) (v & V). exists (u * v). replace (a * b * (u * v)) with ((a * u) * (b * v)) by ring. rewrite U, V. reflexivity. Qed.
Lemma unit_pow n a k : 0 <= k -> unit n a -> unit n (a ^ k).
Proof. intros K (u & U). exists (u ^ k). rewrite <- Z.pow_mul_l, U, Z.pow_1_l by lia. reflexivity. Qed.
Lemma unit_root n a k : 1 <= k -> cong n (a ^ k) 1 -> unit n a.
Proof. intros K E. exists (a ^ (k - 1)). rewrite <- Z.pow_succ_r by lia. now replace (Z.succ (k - 1)) with k by lia. Qed.
Lemma unit_cancel n c a b : unit n c -> cong n (c * a) (c * b) -> cong n a b.
Proof.
  intros (u & U) E. rewrite <- (Z.mul_1_l a), <- (Z.mul_1_l b), <- U. replace (c * u * a) with (u * (c * a)) by ring. rewrite E. apply cong_refl_eq. ring.
Qed.
Lemma unit_nonzero n c : 1 < n -> unit n c -> c mod n <> 0.
Proof.
  intros N (u & U) E. assert (C : cong n c 0) by (split; rewrite E, Z.mod_0_l; lia). rewrite C in U. destruct U as [U].
  rewrite Z.mul_0_l, Z.mod_0_l, Z.mod_small in U by lia. lia.
Qed.
Lemma cosets n (c : nat -> Z) L : 1 < n -> NoDup L -> (forall a, In a L -> 1 <= a <= n - 1 /\ unit n a) -> (forall i, (i < 4)%nat -> unit n (c i)) ->
  (forall i j a a', (i < 4)%nat -> (j < 4)%nat -> In a L -> In a' L -> cong n (c i * a) (c j * a') -> i = j) ->
  4 * Z.of_nat (length L) <= n - 1.
Proof.
  intros N ND HL U D. set (S4 := flat_map (fun i => map (fun a => (c i * a) mod n) L) (seq 0 4)).
  assert (LEN : Z.of_nat (length S4) = 4 * Z.of_nat (length L)). { unfold S4. cbn [seq flat_map]. rewrite !app_length, !map_length. cbn [length]. lia. }
  rewrite <- LEN, <- zrange_length by lia. apply inj_le. apply NoDup_incl_length.
  - unfold S4. apply NoDup_flat_map; [apply seq_NoDup| |].
    + intros i I. apply in_seq in I. apply NoDup_map_inj; [exact ND|]. intros a a' A A' E. destruct (HL a A) as (R & _). destruct (HL a' A') as (R' & _).
      apply (cong_eq n); [lia|lia|]. apply (unit_cancel n (c i)); [apply U; lia|]. now split.
    + intros i j z I J Z1 Z2. apply in_seq in I, J. apply in_map_iff in Z1 as (a & E1 & A). apply in_map_iff in Z2 as (a' & E2 & A').
      apply (D i j a a'); [lia|lia|auto|auto|]. split. congruence.
  - intros z I. apply in_flat_map in I as (i & I & Z1). apply in_seq in I. apply in_map_iff in Z1 as (a & <- & A). destruct (HL a A) as (R & UA).
    assert (NZ := unit_nonzero n (c i * a) N (unit_mul n _ _ (U i ltac:(lia)) UA)). assert (B := Z.mod_pos_bound (c i * a) n ltac:(lia)).
    apply zrange_in. lia.
Qed.
Lemma crt2 n1 n2 x y : Z.gcd n1 n2 = 1 -> exists b, cong n1 b x /\ cong n2 b y.
Proof.
  intros G. apply Zgcd_1_rel_prime in G. destruct (rel_prime_bezout _ _ G) as [u v E]. exists (x * (v * n2) + y * (u * n1)). split.
  - replace (v * n2) with (1 - u * n1) by lia. replace (x * (1 - u * n1) + y * (u * n1)) with (x + (u * (y - x)) * n1) by ring. apply cong_period.
  - replace (u * n1) with (1 - v * n2) by lia. replace (x * (v * n2) + y * (1 - v * n2)) with (y + (v * (x - y)) * n2) by ring. apply cong_period.
Qed.
Lemma cong_sub n d a b : (d | n) -> n <> 0 -> cong n a b -> cong d a b.
Proof. intros D N H. assert (d <> 0) by (intros ->; apply Z.divide_0_l in D; lia). apply cong_divide in H; auto. apply cong_divide; auto. now apply Z.divide_trans with n. Qed.
Lemma cong_prod n1 n2 a b : n1 <> 0 -> n2 <> 0 -> Z.gcd n1 n2 = 1 -> cong n1 a b -> cong n2 a b -> cong (n1 * n2) a b.
Proof.
  intros A B G H1 H2. apply cong_divide in H1; auto. apply cong_divide in H2; auto. apply cong_divide; [nia|].
  destruct H1 as (k & K). rewrite K in *. rewrite Z.mul_comm. apply Z.mul_divide_mono_r. apply Z.gauss with n1; [now rewrite Z.mul_comm|now rewrite Z.gcd_comm].
Qed.
Lemma not_m1 n : 2 < n -> ~ cong n 1 (-1).
Proof. intros H [E]. rewrite m1_mod, Z.mod_small in E by lia. lia. Qed.

(** largest exponent with a root of -1 *)
Lemma bounded_max (P : nat -> Prop) (dec : forall i, {P i} + {~ P i}) k : P 0%nat -> exists i, (i <= k)%nat /\ P i /\ forall j, (j <= k)%nat -> P j -> (j <= i)%nat.
Proof.
  intros P0. induction k as [|k (i & I & Pi & M)]; [exists 0%nat; split; [lia|split; [auto|lia]]|].
  destruct (dec (Datatypes.S k)) as [Y|N].
  - exists (Datatypes.S k). split; [lia|split; [auto|lia]].
  - exists i. split; [lia|split; [auto|]]. intros j J Pj. destruct (Nat.eq_dec j (Datatypes.S k)) as [->|]; [contradiction|]. apply M; [lia|auto].
Qed.
Definition has_root (n : Z) (i : nat) : Prop := exists a, cong n (a ^ (2 ^ Z.of_nat i)) (-1).
Lemma has_root_dec n i : 0 < n -> {has_root n i} + {~ has_root n i}.
Proof.
  intros N. destruct (existsb (fun a => a ^ (2 ^ Z.of_nat i) mod n =? (-1) mod n) (map Z.of_nat (seq 0 (Z.to_nat n)))) eqn:E.
  - left. apply existsb_exists in E as (a & _ & E). exists a. split. now apply Z.eqb_eq.
  - right. intros (a & A). assert (X : existsb (fun a => a ^ (2 ^ Z.of_nat i) mod n =? (-1) mod n) (map Z.of_nat (seq 0 (Z.to_nat n))) = true); [|congruence].
    assert (B := Z.mod_pos_bound a n N). apply existsb_exists. exists (a mod n). split.
    + apply in_map_iff. exists (Z.to_nat (a mod n)). split; [lia|]. apply in_seq. lia.
    + apply Z.eqb_eq. apply uncong. cmod. exact A.
Qed.

Lemma pow_split s i : 0 <= i < s -> 2 ^ s = 2 ^ i * (2 * 2 ^ (s - 1 - i)).
Proof. intros H. assert (E : s = i + (1 + (s - 1 - i))) by lia. rewrite E at 1. rewrite !Z.pow_add_r by lia. reflexivity. Qed.
Section Liars.
Variables (n s r : Z).
Hypotheses (N3 : 2 < n) (On : n mod 2 = 1) (S1 : 1 <= s) (R1 : 0 < r) (Or : r mod 2 = 1) (En : n - 1 = 2 ^ s * r).
Lemma odd_pow_m1 a : cong n a (-1) -> cong n (a ^ r) (-1).
Proof.
  intros ->. apply cong_refl_eq. replace r with (2 * (r / 2) + 1) by lia. assert (0 <= r / 2) by (apply Z.div_pos; lia).
  rewrite Z.pow_add_r, Z.pow_mul_r by lia. change ((-1) ^ 2) with 1. rewrite Z.pow_1_l by lia. reflexivity.
Qed.
Lemma setup : exists m a0 h, 0 < m /\ 0 < h /\ n - 1 = m * (2 * h) /\ cong n (a0 ^ m) (-1) /\
  forall a, strong_probable_prime n a -> cong n (a ^ m) 1 \/ cong n (a ^ m) (-1).
Proof.
  destruct (bounded_max (has_root n) (fun i => has_root_dec n i ltac:(lia)) (Z.to_nat (s - 1))) as (i & I & (a0 & A0) & M).
  { exists (-1). change (2 ^ Z.of_nat 0) with 1. rewrite Z.pow_1_r. reflexivity. }
  assert (P : 0 < 2 ^ Z.of_nat i) by (apply Z.pow_pos_nonneg; lia).
  exists (2 ^ Z.of_nat i * r), a0, (2 ^ (s - 1 - Z.of_nat i)). split; [nia|]. split; [apply Z.pow_pos_nonneg; lia|]. split.
  { rewrite En, (pow_split s (Z.of_nat i)) by lia. ring. }
  split; [rewrite Z.pow_mul_r by lia; now apply odd_pow_m1|].
  intros a Ha. apply (strong_fixed n a s r) in Ha; [|lia|auto|auto|auto]. destruct Ha as [Ha|(j & J & Ha)].
  - left. rewrite Z.mul_comm, Z.pow_mul_r, Ha, Z.pow_1_l by lia. reflexivity.
  - assert (L : (Z.to_nat j <= i)%nat). { apply M; [lia|]. exists (a ^ r). rewrite Z2Nat.id by lia. rewrite <- Z.pow_mul_r by lia. now rewrite Z.mul_comm. }
    destruct (Z.eq_dec j (Z.of_nat i)) as [<-|Nj]; [right; exact Ha|left].
    replace (2 ^ Z.of_nat i * r) with ((2 ^ j * r) * (2 * 2 ^ (Z.of_nat i - 1 - j))) by (rewrite (pow_split (Z.of_nat i) j) by lia; ring).
    assert (0 < 2 ^ j) by (apply Z.pow_pos_nonneg; lia). assert (0 < 2 ^ (Z.of_nat i - 1 - j)) by (apply Z.pow_pos_nonneg; lia).
    rewrite Z.pow_mul_r, Ha by (match goal with H1 : 0 < 2 ^ j, H2 : 0 < 2 ^ (Z.of_nat i - 1 - j) |- _ => try (apply Z.mul_nonneg_nonneg; lia); clear - H1 H2 R1; nia end). rewrite Z.pow_mul_r by lia. change ((-1) ^ 2) with 1. rewrite Z.pow_1_l by lia. reflexivity.
Qed.

Variables (m a0 h : Z).
Hypotheses (M0 : 0 < m) (H0 : 0 < h) (Em : n - 1 = m * (2 * h)) (A0 : cong n (a0 ^ m) (-1)).
Variable L : list Z.
Hypotheses (ND : NoDup L) (HL : forall a, In a L -> 1 <= a <= n - 1) (HM : forall a, In a L -> cong n (a ^ m) 1 \/ cong n (a ^ m) (-1)).
Lemma fermat_of_m d a : cong d (a ^ m) 1 \/ cong d (a ^ m) (-1) -> cong d (a ^ (n - 1)) 1.
Proof. intros [H|H]; rewrite Em, Z.pow_mul_r, H by lia; rewrite Z.pow_mul_r by lia; [change (1 ^ 2) with 1|change ((-1) ^ 2) with 1]; rewrite Z.pow_1_l by lia; reflexivity. Qed.
Lemma L_fermat a : In a L -> cong n (a ^ (n - 1)) 1. Proof. intros I. apply fermat_of_m. auto. Qed.
Lemma L_unit a : In a L -> unit n a. Proof. intros I. apply (unit_root n a (n - 1)); [lia|now apply L_fermat]. Qed.
Let HL' : forall a, In a L -> 1 <= a <= n - 1 /\ unit n a. Proof. intros a I. split; [auto|now apply L_unit]. Qed.

(** four elements whose (n-1)-st powers differ *)
Lemma by_fermat (c : nat -> Z) : (forall i, (i < 4)%nat -> unit n (c i)) ->
  (forall i j, (i < 4)%nat -> (j < 4)%nat -> cong n (c i ^ (n - 1)) (c j ^ (n - 1)) -> i = j) -> 4 * Z.of_nat (length L) <= n - 1.
Proof.
  intros U D. apply (cosets n c L); auto; [lia|]. intros i j a a' I J A A' E. apply D; auto.
  assert (Q : cong n ((c i * a) ^ (n - 1)) ((c j * a') ^ (n - 1))) by now rewrite E.
  rewrite !Z.pow_mul_l, (L_fermat a A), (L_fermat a' A'), !Z.mul_1_r in Q. exact Q.
Qed.
Lemma one_plus k e : (n | k * k) -> 0 <= e -> cong n ((1 + k) ^ e) (1 + e * k).
Proof.
  intros D E. pattern e. apply natlike_ind; [reflexivity| |exact E]. intros x X IH. rewrite Z.pow_succ_r, IH by lia.
  apply cong_divide; [lia|]. replace ((1 + k) * (1 + x * k) - (1 + Z.succ x * k)) with (x * (k * k)) by (rewrite <- Z.add_1_r; ring). now apply Z.divide_mul_r.
Qed.
Lemma one_plus_unit k : (n | k * k) -> unit n (1 + k).
Proof. intros D. exists (1 - k). apply cong_divide; [lia|]. replace ((1 + k) * (1 - k) - 1) with (- (k * k)) by ring. now apply Z.divide_opp_r. Qed.

Lemma case_B p k : prime p -> 5 <= p -> n = p * p * k -> 4 * Z.of_nat (length L) <= n - 1.
Proof.
  intros Hp P5 E. set (g := 1 + p * k). assert (D : (n | p * k * (p * k))) by (exists k; rewrite E; ring).
  apply (by_fermat (fun i => g ^ Z.of_nat i)).
  - intros i _. apply unit_pow; [lia|]. now apply one_plus_unit.
  - intros i j I J C. rewrite <- !Z.pow_mul_r in C by lia. unfold g in C. rewrite !one_plus in C by (first [exact D|clear - N3; nia]).
    apply cong_divide in C; [|lia]. destruct C as (q & Q).
    assert (K0 : p * k <> 0) by nia.
    assert (X : (Z.of_nat i - Z.of_nat j) * (n - 1) = q * p). { apply (Z.mul_reg_r _ _ (p * k)); [exact K0|]. rewrite E in Q at 3. nia. }
    assert (DP : (p | (Z.of_nat i - Z.of_nat j) * (n - 1))) by (exists q; lia). apply prime_mult in DP as [DP|DP]; [| |exact Hp].
    + destruct (Nat.eq_dec i j); [assumption|exfalso]. apply Znumtheory.Zdivide_bounds in DP; lia.
    + exfalso. assert (Y : (p | 1)). { replace 1 with (n - (n - 1)) by ring. apply Z.divide_sub_r; [exists (p * k); lia|exact DP]. } apply Z.divide_1_r in Y. lia.
Qed.
Lemma case_C k : n = 27 * k -> 4 * Z.of_nat (length L) <= n - 1.
Proof.
  intros E. apply (by_fermat (fun i => 4 ^ Z.of_nat i)).
  - intros i _. apply unit_pow; [lia|]. exists (((n + 1) / 2) ^ 2). apply cong_divide; [lia|].
    assert (X : 2 * ((n + 1) / 2) = n + 1) by lia. exists (n + 2). rewrite Z.pow_2_r. nia.
  - intros i j I J C. apply (cong_sub n 27) in C; [|exists k; lia|lia].
    assert (X : cong 27 (4 ^ (n - 1)) 7).
    { replace (n - 1) with (9 * ((n - 1) / 9) + 8) by lia. assert (0 <= (n - 1) / 9) by (apply Z.div_pos; lia). rewrite Z.pow_add_r, Z.pow_mul_r by lia.
      assert (Y : cong 27 (4 ^ 9) 1) by (split; reflexivity). rewrite Y, Z.pow_1_l by lia. split. reflexivity. }
    rewrite <- !Z.pow_mul_r, !(Z.mul_comm _ (n - 1)), !Z.pow_mul_r, X in C by lia. destruct C as [C].
    destruct i as [|[|[|[|i]]]]; [| | | |lia]; destruct j as [|[|[|[|j]]]]; try lia; vm_compute in C; discriminate.
Qed.
Lemma case_D n1 n2 g : n = n1 * n2 -> Z.gcd n1 n2 = 1 -> 2 < n1 -> 2 < n2 -> unit n g -> ~ cong n (g ^ (n - 1)) 1 -> 4 * Z.of_nat (length L) <= n - 1.
Proof.
  intros E G N1 N2 Ug Ng. destruct (crt2 n1 n2 a0 1 G) as (b & B1 & B2).
  assert (D1 : (n1 | n)) by (exists n2; lia). assert (D2 : (n2 | n)) by (exists n1; lia).
  assert (C1 : cong n1 (b ^ m) (-1)) by (rewrite B1; apply (cong_sub n); auto; lia).
  assert (C2 : cong n2 (b ^ m) 1) by (rewrite B2, Z.pow_1_l by lia; reflexivity).
  assert (BF : cong n (b ^ (n - 1)) 1). { rewrite E at 1. apply cong_prod; auto; try lia; apply fermat_of_m; auto. }
  assert (Ub : unit n b) by (apply (unit_root n b (n - 1)); [lia|auto]).
  set (c := fun i : nat => match i with 0%nat => 1 | 1%nat => b | 2%nat => g | _ => g * b end).
  assert (SGN : forall a a', In a L -> In a' L -> ~ cong n a (b * a')).
  { intros a a' A A' X. assert (Y : cong n (a ^ m) (b ^ m * a' ^ m)) by (rewrite X, Z.pow_mul_l; reflexivity).
    assert (Y1 := cong_sub _ _ _ _ D1 ltac:(lia) Y). assert (Y2 := cong_sub _ _ _ _ D2 ltac:(lia) Y). rewrite C1 in Y1. rewrite C2 in Y2.
    destruct (HM a A) as [Q|Q]; destruct (HM a' A') as [Q'|Q'];
      rewrite (cong_sub _ _ _ _ D1 ltac:(lia) Q), (cong_sub _ _ _ _ D1 ltac:(lia) Q') in Y1; rewrite (cong_sub _ _ _ _ D2 ltac:(lia) Q), (cong_sub _ _ _ _ D2 ltac:(lia) Q') in Y2.
    - apply (not_m1 n1 N1 Y1).
    - apply (not_m1 n2 N2 Y2).
    - apply (not_m1 n2 N2). now symmetry.
    - apply (not_m1 n1 N1). now symmetry. }
  assert (FER : forall a a' x y, In a L -> In a' L -> cong n (x ^ (n - 1)) 1 -> cong n (y ^ (n - 1)) 1 -> ~ cong n (x * a) (g * (y * a'))).
  { intros a a' x y A A' X Y C. apply Ng. assert (Q : cong n ((x * a) ^ (n - 1)) ((g * (y * a')) ^ (n - 1))) by now rewrite C.
    rewrite !Z.pow_mul_l, X, Y, (L_fermat a A), (L_fermat a' A') in Q. symmetry. rewrite Z.mul_1_l, !Z.mul_1_r in Q. exact Q. }
  assert (F1 : cong n (1 ^ (n - 1)) 1) by (rewrite Z.pow_1_l by lia; reflexivity).
  apply (cosets n c L); auto; [lia| |].
  - intros [|[|[|i]]] _; cbn [c]; auto; [exists 1; reflexivity|now apply unit_mul].
  - intros i j a a' I J A A' C. destruct i as [|[|[|[|i]]]]; [| | | |lia]; destruct j as [|[|[|[|j]]]]; try lia; exfalso; cbn [c] in C.
    + apply (SGN a a'); auto. rewrite <- C. apply cong_refl_eq. ring.
    + apply (FER a a' 1 1); auto. rewrite C. apply cong_refl_eq. ring.
    + apply (FER a a' 1 b); auto. rewrite C. apply cong_refl_eq. ring.
    + apply (SGN a' a); auto. rewrite C. apply cong_refl_eq. ring.
    + apply (FER a a' b 1); auto. rewrite C. apply cong_refl_eq. ring.
    + apply (FER a a' b b); auto. rewrite C. apply cong_refl_eq. ring.
    + apply (FER a' a 1 1); auto. rewrite Z.mul_1_l in C |- *. rewrite <- C. apply cong_refl_eq. ring.
    + apply (FER a' a b 1); auto. rewrite <- C. apply cong_refl_eq. ring.
    + apply (SGN a a'); auto. apply (unit_cancel n g); auto. rewrite C. apply cong_refl_eq. ring.
    + apply (FER a' a 1 b); auto. rewrite Z.mul_1_l in C |- *. rewrite <- C. apply cong_refl_eq. ring.
    + apply (FER a' a b b); auto. rewrite <- C. apply cong_refl_eq. ring.
    + apply (SGN a' a); auto. apply (unit_cancel n g); auto. rewrite Z.mul_assoc, C. reflexivity.
Qed.
Lemma crt3 n1 n2 n3 x y z : Z.gcd n1 n2 = 1 -> Z.gcd n1 n3 = 1 -> Z.gcd n2 n3 = 1 -> n1 <> 0 -> n2 <> 0 -> n3 <> 0 ->
  exists b, cong n1 b x /\ cong n2 b y /\ cong n3 b z.
Proof.
  intros G12 G13 G23 Z1 Z2 Z3. destruct (crt2 n2 n3 y z G23) as (w & W2 & W3).
  assert (G : Z.gcd n1 (n2 * n3) = 1).
  { apply Zgcd_1_rel_prime. apply rel_prime_mult; now apply Zgcd_1_rel_prime. }
  destruct (crt2 n1 (n2 * n3) x w G) as (b & B1 & B2). exists b. split; [exact B1|].
  assert (ZZ : n2 * n3 <> 0) by nia.
  split; [rewrite <- W2|rewrite <- W3]; apply (cong_sub (n2 * n3)); auto; [exists n3; ring|exists n2; ring].
Qed.
Lemma case_E n1 n2 n3 : n = n1 * n2 * n3 -> Z.gcd n1 n2 = 1 -> Z.gcd n1 n3 = 1 -> Z.gcd n2 n3 = 1 -> 2 < n1 -> 2 < n2 -> 2 < n3 ->
  4 * Z.of_nat (length L) <= n - 1.
Proof.
  intros E G12 G13 G23 N1 N2 N3'.
  assert (D1 : (n1 | n)) by (exists (n2 * n3); rewrite E; ring). assert (D2 : (n2 | n)) by (exists (n1 * n3); rewrite E; ring). assert (D3 : (n3 | n)) by (exists (n1 * n2); rewrite E; ring).
  (* signs of the m-th powers *)
  assert (MK : forall x y z, (x = 1 \/ x = -1) -> (y = 1 \/ y = -1) -> (z = 1 \/ z = -1) ->
    exists b, cong n1 (b ^ m) x /\ cong n2 (b ^ m) y /\ cong n3 (b ^ m) z /\ unit n b).
  { intros x y z Hx Hy Hz.
    destruct (crt3 n1 n2 n3 (if x =? 1 then 1 else a0) (if y =? 1 then 1 else a0) (if z =? 1 then 1 else a0)) as (b & B1 & B2 & B3); auto; try lia.
    assert (X : forall k v, (k | n) -> (v = 1 \/ v = -1) -> cong k b (if v =? 1 then 1 else a0) -> cong k (b ^ m) v).
    { intros k v K [->| ->] B; rewrite B; cbn [Z.eqb Pos.eqb]; [rewrite Z.pow_1_l by lia; reflexivity|apply (cong_sub n); auto; lia]. }
    exists b. assert (C1 := X n1 x D1 Hx B1). assert (C2 := X n2 y D2 Hy B2). assert (C3 := X n3 z D3 Hz B3). repeat (split; [assumption|]).
    apply (unit_root n b (n - 1)); [lia|]. rewrite E at 1. apply cong_prod; [nia|lia| | |].
    - rewrite Z.gcd_comm. apply Zgcd_1_rel_prime. apply rel_prime_mult; apply Zgcd_1_rel_prime; now rewrite Z.gcd_comm.
    - apply cong_prod; auto; try lia; apply fermat_of_m; [destruct Hx as [->| ->]|destruct Hy as [->| ->]]; auto.
    - apply fermat_of_m. destruct Hz as [->| ->]; auto. }
  destruct (MK (-1) 1 1) as (b1 & P11 & P12 & P13 & U1); auto. destruct (MK 1 (-1) 1) as (b2 & P21 & P22 & P23 & U2); auto.
  destruct (MK 1 1 (-1)) as (b3 & P31 & P32 & P33 & U3); auto.
  set (c := fun i : nat => match i with 0%nat => 1 | 1%nat => b1 | 2%nat => b2 | _ => b3 end).
  assert (KEY : forall k k' x y v w v' w' a a', (k | n) -> (k' | n) -> 2 < k -> 2 < k' -> In a L -> In a' L -> cong n (x * a) (y * a') ->
     cong k (x ^ m) v -> cong k (y ^ m) w -> cong k' (x ^ m) v' -> cong k' (y ^ m) w' -> (v = 1 \/ v = -1) -> (w = 1 \/ w = -1) -> (v' = 1 \/ v' = -1) -> (w' = 1 \/ w' = -1) ->
     v * w = v' * w').
  { intros k k' x y v w v' w' a a' K K' Kk Kk' A A' C Ex Ey Ex' Ey' Hv Hw Hv' Hw'.
    assert (Q : cong n (x ^ m * a ^ m) (y ^ m * a' ^ m)) by (rewrite <- !Z.pow_mul_l; now rewrite C).
    assert (Q1 := cong_sub _ _ _ _ K ltac:(lia) Q). assert (Q2 := cong_sub _ _ _ _ K' ltac:(lia) Q). rewrite Ex, Ey in Q1. rewrite Ex', Ey' in Q2.
    assert (N1' := not_m1 k Kk). assert (N2' := not_m1 k' Kk').
    assert (N1'' : ~ cong k (-1) 1) by (intros T; apply N1'; now symmetry). assert (N2'' : ~ cong k' (-1) 1) by (intros T; apply N2'; now symmetry).
    destruct (HM a A) as [R|R]; destruct (HM a' A') as [R'|R'];
      rewrite (cong_sub _ _ _ _ K ltac:(lia) R), (cong_sub _ _ _ _ K ltac:(lia) R') in Q1; rewrite (cong_sub _ _ _ _ K' ltac:(lia) R), (cong_sub _ _ _ _ K' ltac:(lia) R') in Q2;
      clear - Q1 Q2 Hv Hw Hv' Hw' N1' N2' N1'' N2''; destruct Hv as [->| ->]; destruct Hw as [->| ->]; destruct Hv' as [->| ->]; destruct Hw' as [->| ->]; try reflexivity; exfalso;
      cbn in Q1, Q2; contradiction. }
  apply (cosets n c L); auto; [lia| |].
  - intros [|[|[|i]]] _; cbn [c]; auto. exists 1. reflexivity.
  - assert (F : forall k, cong k (1 ^ m) 1) by (intros k; rewrite Z.pow_1_l by lia; reflexivity).
    intros i j a a' I J A A' C. destruct i as [|[|[|[|i]]]]; [| | | |lia]; destruct j as [|[|[|[|j]]]]; try lia; exfalso; cbn [c] in C.
    all: first [ assert (T := KEY n1 n2 _ _ _ _ _ _ a a' D1 D2 N1 N2 A A' C ltac:(first [exact (F n1)|eassumption]) ltac:(first [exact (F n1)|eassumption]) ltac:(first [exact (F n2)|eassumption]) ltac:(first [exact (F n2)|eassumption]) ltac:(auto) ltac:(auto) ltac:(auto) ltac:(auto)); discriminate T
               | assert (T := KEY n1 n3 _ _ _ _ _ _ a a' D1 D3 N1 N3' A A' C ltac:(first [exact (F n1)|eassumption]) ltac:(first [exact (F n1)|eassumption]) ltac:(first [exact (F n3)|eassumption]) ltac:(first [exact (F n3)|eassumption]) ltac:(auto) ltac:(auto) ltac:(auto) ltac:(auto)); discriminate T ].
Qed.

Lemma gcd_prime p k : prime p -> ~ (p | k) -> Z.gcd p k = 1.
Proof. intros Hp D. apply Zgcd_1_rel_prime. now apply prime_rel_prime. Qed.
Lemma div_odd d : (d | n) -> d mod 2 = 1.
Proof. intros (k & K). rewrite K in On. now apply odd_mul in On as (_ & ?). Qed.
Lemma case_square q : prime q -> (q * q | n) -> n <> 9 -> 4 * Z.of_nat (length L) <= n - 1.
Proof.
  intros Hq (k & K) N9. assert (Q2 := prime_ge_2 q Hq). assert (Oq := div_odd q ltac:(exists (k * q); rewrite K; ring)).
  assert (Ok : k mod 2 = 1) by (apply div_odd; exists (q * q); rewrite K; ring).
  destruct (Z_le_gt_dec 5 q) as [L5|L5]; [apply (case_B q k); auto; lia|]. assert (q = 3) by (assert (q <> 2) by (intros ->; discriminate); assert (q <> 4) by (intros ->; discriminate); lia). subst q.
  destruct (Zdivide_dec 3 k) as [(j & J)|D]; [apply (case_C j); lia|].
  apply (case_D 9 k (1 + 3 * k)); [lia| |lia| | |].
  - change 9 with (3 * 3). rewrite Z.gcd_comm. apply Zgcd_1_rel_prime. apply rel_prime_mult; apply Zgcd_1_rel_prime; rewrite Z.gcd_comm; now apply gcd_prime.
  - assert (0 < k) by lia. assert (k <> 1) by lia. assert (k <> 2) by (intros ->; discriminate). lia.
  - apply one_plus_unit. exists k. rewrite K. ring.
  - rewrite one_plus; [|exists k; rewrite K; ring|lia]. intros C. apply cong_divide in C; [|lia]. destruct C as (t & T).
    assert (T2 : (n - 1) * (3 * k) = t * (k * (3 * 3))) by (clear - K T; lia). assert (X : n - 1 = t * 3). { apply (Z.mul_reg_r _ _ (3 * k)); [clear - K N3; lia|]. rewrite T2. ring. }
    clear - X K. lia.
Qed.
Lemma case_pq p q : prime p -> prime q -> p < q -> n = p * q -> 4 * Z.of_nat (length L) <= n - 1.
Proof.
  intros Hp Hq PQ E. assert (P2 := prime_ge_2 p Hp). assert (Op := div_odd p ltac:(exists q; lia)). assert (Oq := div_odd q ltac:(exists p; lia)).
  assert (NP : p <> 2) by (intros ->; discriminate).
  assert (G : Z.gcd q p = 1). { apply gcd_prime; auto. intros D. apply Z.divide_pos_le in D; lia. }
  destruct (primitive_root Hq) as (w & W & PW). destruct (crt2 q p w 1 G) as (g & G1 & G2).
  assert (D1 : (p | n)) by (exists q; clear - E; lia). assert (D2 : (q | n)) by (exists p; clear - E; lia).
  apply (case_D q p g); auto; try (clear - PQ P2 NP; lia); try (clear - E; lia).
  - assert (PP : 1 <= (p - 1) * (q - 1)) by (clear - P2 PQ; nia). apply (unit_root n g ((p - 1) * (q - 1))); [exact PP|]. rewrite E at 1. apply cong_prod; [clear - P2; lia|clear - P2 PQ; lia|now rewrite Z.gcd_comm| |].
    + rewrite G2, Z.pow_1_l by (clear - PP; lia). reflexivity.
    + rewrite G1, Z.mul_comm, Z.pow_mul_r by (clear - P2 PQ; lia). rewrite (fermat_z q w Hq); [rewrite Z.pow_1_l by lia; reflexivity|]. rewrite Z.mod_small; lia.
  - intros C. apply (cong_sub _ _ _ _ D2 ltac:(lia)) in C. rewrite G1 in C. destruct C as [C]. apply PW in C; [|lia].
    assert (X : (q - 1 | p - 1)). { replace (p - 1) with (n - 1 - p * (q - 1)) by (rewrite E; ring). apply Z.divide_sub_r; [exact C|]. apply Z.divide_factor_r. }
    apply Z.divide_pos_le in X; lia.
Qed.
Lemma liars_not9 : ~ prime n -> n <> 9 -> 4 * Z.of_nat (length L) <= n - 1.
Proof.
  intros NP N9. destruct (small_divisor n ltac:(lia) NP) as (p & Hp & (k & K) & PP). assert (P2 := prime_ge_2 p Hp).
  destruct (Zdivide_dec p k) as [(j & J)|D]; [apply (case_square p); auto; exists j; rewrite K, J; ring|].
  assert (K1 : 1 < k) by (clear - PP K P2; nia). destruct (prime_divisor k K1) as (q & Hq & (j & J)). assert (Q2 := prime_ge_2 q Hq).
  assert (NPQ : p <> q) by (intros ->; apply D; exists j; exact J). assert (J0 : 0 < j) by (clear - K1 J Q2; nia).
  destruct (Z.eq_dec j 1) as [->|J1].
  { destruct (Z_lt_le_dec p q); [apply (case_pq p q)|apply (case_pq q p)]; auto; lia. }
  destruct (Zdivide_dec q j) as [(i & I)|Dq]; [apply (case_square q); auto; exists (i * p); rewrite K, J, I; ring|].
  assert (O3 := div_odd j ltac:(exists (q * p); rewrite K, J; ring)). assert (O2 := div_odd q ltac:(exists (j * p); rewrite K, J; ring)). assert (O1 := div_odd p ltac:(exists k; rewrite K; ring)).
  assert (j <> 2) by (intros ->; discriminate). assert (q <> 2) by (intros ->; discriminate). assert (p <> 2) by (intros ->; discriminate).
  apply (case_E p q j); try lia; [| |now apply gcd_prime].
  - apply gcd_prime; auto. intros X. apply D. rewrite J. now apply Z.divide_mul_r.
  - apply gcd_prime; auto. intros X. apply D. rewrite J. now apply Z.divide_mul_l.
Qed.
End Liars.

Lemma liars_9 L : NoDup L -> (forall a, In a L -> 1 <= a <= 9 - 1 /\ strong_probable_prime 9 a) -> 4 * Z.of_nat (length L) <= 9 - 1.
Proof.
  intros ND H. assert (I : incl L [1; 8]).
  { intros a A. destruct (H a A) as (R & S). apply (strong_fixed 9 a 3 1) in S; [|lia|lia|reflexivity|reflexivity].
    assert (C : a = 1 \/ a = 2 \/ a = 3 \/ a = 4 \/ a = 5 \/ a = 6 \/ a = 7 \/ a = 8) by lia.
    destruct C as [->|[->|[->|[->|[->|[->|[->| ->]]]]]]]; cbn [In]; auto; exfalso.
    all: destruct S as [[S]|(i & Hi & [S])]; [vm_compute in S; discriminate|].
    all: assert (C : i = 0 \/ i = 1 \/ i = 2) by lia; destruct C as [->|[->| ->]]; vm_compute in S; discriminate. }
  apply NoDup_incl_length in I; [|exact ND]. cbn [length] in I. lia.
Qed.
Lemma liars_bound n L : 1 < n -> n mod 2 = 1 -> ~ prime n -> NoDup L -> (forall a, In a L -> 1 <= a <= n - 1 /\ strong_probable_prime n a) ->
  4 * Z.of_nat (length L) <= n - 1.
Proof.
  intros N1 On NP ND H. destruct (Z.eq_dec n 9) as [->|N9]; [now apply liars_9|].
  destruct (split2_total n (Z.to_nat n)) as (s & r & _ & A & B & C & D & G); [lia|lia|].
  assert (S1 : 1 <= s). { destruct (Z.eq_dec s 0) as [->|]; [|lia]. change (2 ^ 0) with 1 in G. lia. }
  destruct (setup n s r) as (m & a0 & h & M0 & H0 & Em & A0 & Q); auto; [lia|].
  apply liars_not9 with (s := s) (r := r) (m := m) (a0 := a0) (h := h); auto; [lia| |].
  - intros a I. apply H, I.
  - intros a I. apply Q, H, I.
Qed.
Lemma c51_quarter : forall n, 1 < n -> n mod 2 = 1 -> ~ prime n -> exists fuel0, forall fuel, (fuel0 <= fuel)%nat ->
  4 * Z.of_nat (length (filter (fun a => match rabin_miller fuel n a with Ok v => v =? 1 | _ => false end) (zrange n))) <= n - 1.
Proof.
  intros n N1 On NP. exists (Z.to_nat n). intros fuel F. apply (liars_bound n); auto; [apply NoDup_filter, zrange_nodup|].
  intros a I. apply filter_In in I as (I & V). apply zrange_in in I. split; [exact I|].
  destruct (rabin_miller_round fuel n a I F) as (s & r & b & E1 & E2 & S & R & E & _ & O).
  assert (S1 : 1 <= s). { destruct (Z.eq_dec s 0) as [->|]; [|lia]. change (2 ^ 0) with 1 in E. lia. }
  rewrite E1 in V. apply (strong_fixed n a s r); auto. apply (mr_round_char n fuel s r a b); auto; [lia|]. destruct b; [reflexivity|discriminate].
Qed.
