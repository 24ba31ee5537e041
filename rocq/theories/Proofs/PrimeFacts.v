(** Primality tests, next_prime and the prime tables. *)
From Coq Require Import Znumtheory Zpow_facts Setoid Morphisms Sorted.
From Verif Require Import Proofs.Tac Proofs.Bits Model.NumberTheory Model.PrimeTable Spec.NumberSpec Proofs.Jacobi Proofs.Cong Proofs.Sqrt Proofs.NTBasic Proofs.PrimeCert Proofs.Legendre Proofs.Primality.
Local Open Scope Z_scope.

(** ** more fuel does not change a result *)
Lemma gcd2_mono f : forall a b r f', gcd2 f a b = Ok r -> (f <= f')%nat -> gcd2 f' a b = Ok r.
Proof.
  induction f as [|f IH]; intros a b r f' H L; destruct f' as [|f']; cbn [gcd2] in *; destruct (a =? 0); try congruence; try lia.
  apply IH; [exact H|lia].
Qed.
Lemma gcd_mono f a b r f' : gcd f [a; b] = Ok r -> (f <= f')%nat -> gcd f' [a; b] = Ok r.
Proof. cbn. apply gcd2_mono. Qed.
Lemma split2_mono f : forall s r x f', split2 f s r = Ok x -> (f <= f')%nat -> split2 f' s r = Ok x.
Proof.
  induction f as [|f IH]; intros s r x f' H L; destruct f' as [|f']; cbn [split2] in *; destruct (r mod 2 =? 0); try congruence; try lia.
  eapply IH; [exact H|lia].
Qed.
Lemma mr_loop_mono f : forall j s y n x f', mr_loop f j s y n = Ok x -> (f <= f')%nat -> mr_loop f' j s y n = Ok x.
Proof.
  induction f as [|f IH]; intros j s y n x f' H L; destruct f' as [|f']; cbn [mr_loop] in *; destruct (_ && _); try congruence; try lia.
  destruct (modular_exp y 2 n) as [y'|]; cbn [bind] in *; [|congruence]. destruct (y' =? 1); [congruence|]. eapply IH; [exact H|lia].
Qed.
Lemma mr_round_mono f n s r a x f' : mr_round f n s r a = Ok x -> (f <= f')%nat -> mr_round f' n s r a = Ok x.
Proof.
  unfold mr_round. intros H L. destruct (modular_exp a r n); cbn [bind] in *; [|congruence]. destruct (_ && _); [|congruence].
  destruct (mr_loop f 1 s a0 n) eqn:E; cbn [bind] in *; [|congruence]. rewrite (mr_loop_mono _ _ _ _ _ _ f' E L). exact H.
Qed.
Lemma mr_rounds_mono f n s r l x f' : mr_rounds f n s r l = Ok x -> (f <= f')%nat -> mr_rounds f' n s r l = Ok x.
Proof.
  intros H L. induction l as [|a l IH]; cbn [mr_rounds] in *; [congruence|].
  destruct (mr_round f n s r a) eqn:E; cbn [bind] in *; [|congruence]. rewrite (mr_round_mono _ _ _ _ _ _ f' E L). cbn [bind].
  destruct a0; auto.
Qed.
Lemma is_prime_mono nb f n x f' : is_prime nb f n = Ok x -> (f <= f')%nat -> is_prime nb f' n = Ok x.
Proof.
  unfold is_prime. intros H L. destruct (n <=? smallprimes_last); [exact H|].
  destruct (gcd f [n; 2 * 3 * 5 * 7 * 11]) eqn:E; cbn [bind] in H; [|congruence]. rewrite (gcd_mono _ _ _ _ f' E L). cbn [bind].
  destruct (negb _); [exact H|]. destruct (split2 f 0 (n - 1)) as [(s & r)|] eqn:E2; cbn [bind] in H; [|congruence].
  rewrite (split2_mono _ _ _ _ f' E2 L). cbn [bind]. eapply mr_rounds_mono; eauto.
Qed.
Lemma is_prime_total' nb n : exists f0 b, forall f, (f0 <= f)%nat -> is_prime nb f n = Ok b.
Proof.
  destruct (is_prime_total nb n (Z.to_nat n + steps n)) as (b & E); [lia|lia|]. exists (Z.to_nat n + steps n)%nat, b.
  intros f L. eapply is_prime_mono; eauto.
Qed.

(** ** the tables *)
Definition primes_below (k : nat) : list Z := filter trial (map Z.of_nat (seq 0 k)).
Lemma primes_below_spec k n : Z.of_nat k <= 72 * 72 -> (In n (primes_below k) <-> prime n /\ n < Z.of_nat k).
Proof.
  intros K. unfold primes_below. rewrite filter_In, in_map_iff. split.
  - intros ((x & <- & I) & T). apply in_seq in I. split; [|lia]. apply trial_spec; [lia|exact T].
  - intros (P & L). assert (P2 := prime_ge_2 n P). split; [|apply trial_spec; [lia|exact P]].
    exists (Z.to_nat n). split; [lia|]. apply in_seq. lia.
Qed.
Lemma small_below : smallprimes = primes_below 1230. Proof. vm_compute. reflexivity. Qed.
Lemma small_spec n : In n smallprimes <-> prime n /\ n <= 1229.
Proof. rewrite small_below, primes_below_spec by lia. split; intros (A & B); split; auto; lia. Qed.
Lemma p5k_below : primes_to_5k = primes_below 5000. Proof. vm_compute. reflexivity. Qed.
Fixpoint incr (l : list Z) : bool := match l with x :: ((y :: _) as t) => (x <? y) && incr t | _ => true end.
Lemma incr_spec l : incr l = true -> StronglySorted Z.lt l.
Proof.
  intros H. apply Sorted_StronglySorted; [intros ? ? ?; lia|].
  induction l as [|x [|y t] IH]; [constructor|constructor; constructor|]. cbn [incr] in H; apply andb_true_iff in H as (A & B).
  constructor; [apply IH, B|]. constructor. lia.
Qed.
Lemma existsb_in n l : existsb (Z.eqb n) l = true <-> In n l.
Proof. rewrite existsb_exists. split; [intros (x & I & E); apply Z.eqb_eq in E; now subst|intros I; exists n; split; [auto|apply Z.eqb_refl]]. Qed.

(** ** C58 *)
Lemma c58_smallprimes : (forall n, In n smallprimes <-> prime n /\ n <= 1229) /\ StronglySorted Z.lt smallprimes.
Proof. split; [exact small_spec|apply incr_spec; vm_compute; reflexivity]. Qed.
Lemma c58_primes_to_5k : (forall n, In n primes_to_5k <-> prime n /\ n < 5000) /\ StronglySorted Z.lt primes_to_5k.
Proof.
  split; [|apply incr_spec; vm_compute; reflexivity]. intros n. rewrite p5k_below. apply primes_below_spec. lia.
Qed.

(** ** C49 *)
Lemma mr_count_in nb tb t : In (mr_count nb tb t) (t :: map snd tb).
Proof.
  revert t. induction tb as [|(k, t1) tb IH]; intros t; cbn [mr_count map snd]; [left; reflexivity|].
  destruct (nb <? k); [left; reflexivity|]. right. apply IH.
Qed.
Lemma mr_count_le nb : (mr_count nb mr_table 40 <= 40)%nat.
Proof. assert (I := mr_count_in nb mr_table 40). cbn [map snd mr_table] in I. cbn [In] in I. lia. Qed.
Lemma base_in x k : (k <= 40)%nat -> In x (firstn k smallprimes) -> 2 <= x <= 173.
Proof.
  intros K I. assert (J : In x (firstn 40 smallprimes)).
  { replace (firstn k smallprimes) with (firstn k (firstn 40 smallprimes)) in I by (rewrite firstn_firstn; f_equal; lia).
    rewrite <- (firstn_skipn k). apply in_or_app. left. exact I. }
  assert (F : forallb (fun x => (2 <=? x) && (x <=? 173)) (firstn 40 smallprimes) = true) by (vm_compute; reflexivity).
  rewrite forallb_forall in F. specialize (F x J). lia.
Qed.
Lemma mr_rounds_prime p fuel s r l : prime p -> p mod 2 = 1 -> 0 <= s -> 0 < r -> p - 1 = 2 ^ s * r -> (Z.to_nat s <= fuel)%nat ->
  (forall a, In a l -> a mod p <> 0) -> mr_rounds fuel p s r l = Ok true.
Proof.
  intros Hp Op Hs Hr E F A. induction l as [|a l IH]; cbn [mr_rounds]; [reflexivity|].
  rewrite (mr_round_prime p Hp Op) by (auto; apply A; left; auto). cbn [bind]. apply IH. intros x I. apply A. now right.
Qed.
Lemma is_prime_prime nb p fuel : prime p -> (Z.to_nat p <= fuel)%nat -> (steps p <= fuel)%nat -> is_prime nb fuel p = Ok true.
Proof.
  intros Hp F S. unfold is_prime. destruct (p <=? smallprimes_last) eqn:E.
  { f_equal. apply existsb_in, small_spec. unfold smallprimes_last in E. split; [auto|lia]. }
  unfold smallprimes_last in E. assert (Op := odd_of_prime p Hp ltac:(lia)).
  rewrite gcd_two by (auto; lia). cbn [bind].
  assert (G : Z.gcd p (2 * 3 * 5 * 7 * 11) = 1).
  { assert (R : rel_prime p (2 * 3 * 5 * 7 * 11)); [|apply Zgcd_1_rel_prime in R; exact R].
    apply prime_rel_prime; auto. intros D.
    repeat (apply (prime_mult p Hp) in D as [D|D]; [|apply Z.divide_pos_le in D; lia]). apply Z.divide_pos_le in D; lia. }
  rewrite G. cbn [negb Z.eqb Pos.eqb].
  destruct (split2_total p fuel) as (s & r & -> & A & B & C & D & H); [lia|exact F|]. cbn [bind].
  apply mr_rounds_prime; auto. intros a I. apply base_in in I; [|apply mr_count_le]. rewrite Z.mod_small by lia. lia.
Qed.
Lemma c49_is_prime : forall n_bits p, prime p -> exists fuel0, forall fuel, (fuel0 <= fuel)%nat -> is_prime n_bits fuel p = Ok true.
Proof. intros nb p Hp. exists (Z.to_nat p + steps p)%nat. intros f L. apply is_prime_prime; auto; lia. Qed.
Lemma c49_is_prime_defined : forall n_bits n, exists fuel0 b, forall fuel, (fuel0 <= fuel)%nat -> is_prime n_bits fuel n = Ok b.
Proof. exact is_prime_total'. Qed.
Lemma c49_is_prime_small : forall n_bits n, n <= 1229 -> exists b, (forall fuel, is_prime n_bits fuel n = Ok b) /\ (b = true <-> prime n).
Proof.
  intros nb n H. exists (existsb (Z.eqb n) smallprimes). split.
  - intros fuel. unfold is_prime, smallprimes_last. now replace (n <=? 1229) with true by lia.
  - rewrite existsb_in, small_spec. split; [tauto|auto].
Qed.
Lemma c49_fermat_little_test : forall p a, prime p -> ~ (p | a) -> fermat_little_test p a = Ok 1.
Proof.
  intros p a Hp A. assert (P := prime_ge_2 p Hp). unfold fermat_little_test, py_pow3. replace (p =? 0) with false by lia.
  replace (p - 1 <? 0) with false by lia. cbn [bind]. rewrite Zpow_mod_correct by lia.
  rewrite (cong_range p (a ^ (p - 1)) 1); [reflexivity| |lia]. apply fermat_z; [auto|]. intros E. apply A. apply Z.mod_divide; lia.
Qed.
Lemma rabin_miller_round fuel n a : 1 <= a <= n - 1 -> (Z.to_nat n <= fuel)%nat ->
  exists (s r : Z) (b : bool), rabin_miller fuel n a = Ok (if b then 1 else 0) /\ mr_round fuel n s r a = Ok b /\
    0 <= s /\ 0 < r /\ n - 1 = 2 ^ s * r /\ (Z.to_nat s <= fuel)%nat /\ r mod 2 = 1.
Proof.
  intros H F. destruct (split2_total n fuel) as (s & r & E & A & B & C & D & G); [lia|exact F|].
  destruct (mr_round_total fuel n s r a) as (b & Eb); [lia|lia|exact B|].
  exists s, r, b. split; [|tauto]. unfold rabin_miller. replace ((1 <=? a) && (a <=? n - 1)) with true by lia. cbn [py_assert bind]. rewrite E. cbn [bind].
  unfold mr_round in Eb. unfold modular_exp in Eb. replace (r <? 0) with false in Eb by lia. destruct (py_pow3 a r n) as [y|]; cbn [bind] in *; [|congruence].
  destruct (negb (y =? 1) && negb (y =? n - 1)); [|injection Eb as <-; reflexivity].
  destruct (mr_loop fuel 1 s y n) as [[y'|]|]; cbn [bind] in *; try (injection Eb as <-; reflexivity). congruence.
Qed.
Lemma c49_rabin_miller : forall p a, prime p -> 1 <= a <= p - 1 -> exists fuel0, forall fuel, (fuel0 <= fuel)%nat -> rabin_miller fuel p a = Ok 1.
Proof.
  intros p a Hp A. exists (Z.to_nat p). intros f L. destruct (rabin_miller_round f p a A L) as (s & r & b & E1 & E2 & E3 & E4 & E5 & E6 & E7).
  rewrite E1. destruct (Z.eq_dec p 2) as [->|N].
  - assert (a = 1) by lia. subst a. unfold mr_round in E2. rewrite modexp_ok in E2 by lia. rewrite Z.pow_1_l in E2 by lia.
    injection E2 as <-. reflexivity.
  - assert (Op := odd_of_prime p Hp ltac:(lia)). rewrite (mr_round_prime p Hp Op) in E2; auto; [|rewrite Z.mod_small; lia].
    injection E2 as <-. reflexivity.
Qed.

(** ** C57 *)
Lemma prime_above n : exists q, prime q /\ n < q.
Proof.
  set (k := Z.to_nat n). set (F := fold_right Z.mul 1 (map Z.of_nat (seq 1 k))).
  assert (D : forall q, 1 <= q <= n -> (q | F)).
  { intros q Q. unfold F. assert (I : In q (map Z.of_nat (seq 1 k))). { apply in_map_iff. exists (Z.to_nat q). split; [lia|]. apply in_seq. lia. }
    revert I. generalize (map Z.of_nat (seq 1 k)). induction l as [|x l IH]; intros I; [destruct I|]. cbn [fold_right].
    destruct I as [->|I]; [apply Z.divide_factor_l|]. apply Z.divide_mul_r, IH, I. }
  assert (P : 1 <= F). { unfold F. assert (A : Forall (fun x => 1 <= x) (map Z.of_nat (seq 1 k))).
    { apply Forall_forall. intros x I. apply in_map_iff in I as (y & <- & I). apply in_seq in I. lia. }
    clear D. clearbody F. revert A. generalize (map Z.of_nat (seq 1 k)). clear. intros l A. induction A; cbn [fold_right]; nia. }
  destruct (prime_divisor (F + 1)) as (q & Q & DQ); [lia|]. exists q. split; [exact Q|]. destruct (Z_lt_le_dec n q) as [|L]; [assumption|exfalso].
  assert (Q2 := prime_ge_2 q Q). assert (X := D q ltac:(lia)). assert (Y : (q | 1)). { replace 1 with (F + 1 - F) by ring. now apply Z.divide_sub_r. }
  apply Z.divide_1_r in Y. lia.
Qed.
Lemma next_loop nb k : forall x q, prime q -> x mod 2 = 1 -> x <= q -> 2 < q -> (Z.to_nat (q - x) <= k)%nat ->
  exists f0 r, (forall f, (f0 <= f)%nat -> next_prime_loop nb f x = Ok r) /\ x <= r <= q /\ r mod 2 = 1 /\
    (exists f1, forall f, (f1 <= f)%nat -> is_prime nb f r = Ok true) /\ (forall q', prime q' -> 2 < q' -> x <= q' -> r <= q').
Proof.
  induction k as [k IH] using lt_wf_ind. intros x q Hq Ox L Q3 K.
  destruct (is_prime_total' nb x) as (f0 & b & E). destruct b.
  - exists (Datatypes.S f0), x. split; [|split; [lia|split; [exact Ox|split; [eauto|auto]]]].
    intros f Lf. destruct f as [|f]; [lia|]. cbn [next_prime_loop]. rewrite E by lia. reflexivity.
  - assert (NX : ~ prime x). { intros P. destruct (c49_is_prime nb x P) as (f1 & E1). specialize (E (f0 + f1)%nat ltac:(lia)). rewrite E1 in E by lia. discriminate. }
    assert (Oq := odd_of_prime q Hq Q3). assert (x <> q) by congruence. assert (x + 2 <= q) by lia.
    destruct (IH (Z.to_nat (q - (x + 2))) ltac:(lia) (x + 2) q Hq ltac:(lia) ltac:(lia) Q3 ltac:(lia)) as (f1 & r & E1 & R & Or & T & M).
    exists (Datatypes.S (f0 + f1)), r. split; [|split; [lia|split; [exact Or|split; [exact T|]]]].
    + intros f Lf. destruct f as [|f]; [lia|]. cbn [next_prime_loop]. rewrite E by lia. cbn [bind]. apply E1. lia.
    + intros q' P' Q' L'. assert (O' := odd_of_prime q' P' Q'). apply M; auto. assert (x <> q') by congruence. lia.
Qed.
Lemma lor1 x : Z.lor x 1 = x + (1 - x mod 2).
Proof.
  assert (L := lor_disjoint_add (x / 2) 1 1). change (2 ^ 1) with 2 in L. specialize (L ltac:(lia) ltac:(lia)).
  assert (X : x mod 2 = 0 \/ x mod 2 = 1) by lia. destruct X as [X|X].
  - replace x with (x / 2 * 2) at 1 by lia. rewrite L. lia.
  - replace x with (x / 2 * 2 + 1) at 1 by lia. rewrite <- L, <- Z.lor_assoc, Z.lor_diag, L. lia.
Qed.
Lemma c57_next_prime : forall n_bits n, exists fuel0 r, (forall fuel, (fuel0 <= fuel)%nat -> next_prime n_bits fuel n = Ok r) /\
  n < r /\ (forall q, prime q -> n < q -> r <= q) /\
  (exists fuel1, forall fuel, (fuel1 <= fuel)%nat -> is_prime n_bits fuel r = Ok true) /\ (r <= 1229 -> prime r).
Proof.
  intros nb n. assert (SM : forall r, (exists f1, forall f, (f1 <= f)%nat -> is_prime nb f r = Ok true) -> r <= 1229 -> prime r).
  { intros r (f1 & E) R. destruct (c49_is_prime_small nb r R) as (b & B & I). apply I. specialize (B f1). rewrite E in B by lia. congruence. }
  destruct (n <? 2) eqn:E2.
  { exists 0%nat, 2. split; [intros; unfold next_prime; now rewrite E2|]. split; [lia|]. split; [intros q Q _; apply prime_ge_2 in Q; lia|].
    assert (T := c49_is_prime nb 2 prime_2). split; [exact T|apply SM; exact T]. }
  destruct (prime_above n) as (q & Q & Lq). assert (Oq := odd_of_prime q Q ltac:(lia)). assert (L1 := lor1 (n + 1)).
  destruct (next_loop nb _ (Z.lor (n + 1) 1) q Q ltac:(lia) ltac:(lia) ltac:(lia) (le_n _)) as (f0 & r & E & R & Or & T & M).
  exists f0, r. split; [intros f L; unfold next_prime; rewrite E2; now apply E|]. split; [lia|]. split; [|split; [exact T|apply SM; exact T]].
  intros q' P' L'. assert (O' := odd_of_prime q' P' ltac:(lia)). apply M; auto; lia.
Qed.
