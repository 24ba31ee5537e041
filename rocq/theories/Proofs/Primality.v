(** Miller-Rabin: termination, and primes are accepted. *)
From Coq Require Import Znumtheory Zpow_facts Setoid Morphisms.
From Verif Require Import Proofs.Tac Model.NumberTheory Spec.NumberSpec Proofs.Jacobi Proofs.Cong Proofs.Sqrt Proofs.NTBasic Proofs.PrimeCert Proofs.Legendre.
Local Open Scope Z_scope.

Lemma pow2_gt n : Z.of_nat n < 2 ^ Z.of_nat n. Proof. apply Z.pow_gt_lin_r; lia. Qed.
Lemma fermat_z p a : prime p -> a mod p <> 0 -> cong p (a ^ (p - 1)) 1.
Proof.
  intros Hp Ha. assert (P := prime_ge_2 p Hp). destruct (Z.eq_dec p 2) as [->|P2].
  { split. change (2 - 1) with 1. rewrite Z.pow_1_r. assert (a mod 2 = 1) by lia. rewrite H. reflexivity. }
  assert (Op : p mod 2 = 1).
  { destruct (Z.eq_dec (p mod 2) 0) as [E|E]; [|lia]. apply Z.mod_divide in E; [|lia]. exfalso. apply prime_divisors in E; auto. lia. }
  replace (p - 1) with (p / 2 + p / 2) by lia. rewrite Z.pow_add_r by lia. rewrite !(euler_eqm p Hp Op a).
  destruct (lz_cases p a) as [E|[E|E]]; rewrite E; try reflexivity. apply lz_zero in E. contradiction.
Qed.

(** squaring *)
Lemma mr_square y n : 0 < n -> modular_exp y 2 n = Ok (y ^ 2 mod n).
Proof. intros. apply modexp_ok; lia. Qed.

(** the loop stops after at most s - j rounds *)
Lemma mr_loop_total fuel : forall j s y n, 0 < n -> (Z.to_nat (s - j) <= fuel)%nat -> exists r, mr_loop fuel j s y n = Ok r.
Proof.
  induction fuel as [|f IH]; intros j s y n Hn F; cbn [mr_loop]; destruct ((j <=? s - 1) && negb (y =? n - 1)) eqn:E; try (eexists; reflexivity).
  - apply andb_true_iff in E as (E & _). lia.
  - apply andb_true_iff in E as (E & _). rewrite mr_square by auto. cbn [bind]. destruct (y ^ 2 mod n =? 1); [eexists; reflexivity|].
    apply IH; [auto|lia].
Qed.
Lemma mr_round_total fuel n s r a : 0 < n -> 0 <= r -> (Z.to_nat s <= fuel)%nat -> exists b, mr_round fuel n s r a = Ok b.
Proof.
  intros Hn Hr F. unfold mr_round. rewrite modexp_ok by auto. cbn [bind]. destruct (negb _ && negb _); [|eexists; reflexivity].
  destruct (mr_loop_total fuel 1 s (a ^ r mod n) n Hn) as (o & E); [lia|]. rewrite E. cbn [bind]. destruct o; eexists; reflexivity.
Qed.
Lemma mr_rounds_total fuel n s r l : 0 < n -> 0 <= r -> (Z.to_nat s <= fuel)%nat -> exists b, mr_rounds fuel n s r l = Ok b.
Proof.
  intros Hn Hr F. induction l as [|a l (b & IH)]; cbn [mr_rounds]; [eexists; reflexivity|].
  destruct (mr_round_total fuel n s r a Hn Hr F) as (b' & E). rewrite E. cbn [bind]. destruct b'; eauto.
Qed.
Lemma split2_total n fuel : 2 <= n -> (Z.to_nat n <= fuel)%nat ->
  exists s r, split2 fuel 0 (n - 1) = Ok (s, r) /\ 0 <= s /\ (Z.to_nat s <= fuel)%nat /\ 0 < r /\ r mod 2 = 1 /\ n - 1 = 2 ^ s * r.
Proof.
  intros Hn F. destruct (split2_spec fuel 0 (n - 1)) as (k & r & E1 & E2 & E3); [lia| |lia|].
  { assert (X := pow2_gt fuel). lia. }
  exists (0 + Z.of_nat k), r. split; [exact E1|]. rewrite Z.add_0_l. assert (X := pow2_gt k).
  assert (0 < r) by (clear - E2 Hn X; nia). split; [lia|]. split; [|auto]. assert (2 ^ Z.of_nat k <= n - 1) by (clear - E2 X H; nia). lia.
Qed.
Lemma is_prime_total n_bits n fuel : (Z.to_nat n <= fuel)%nat -> (steps n <= fuel)%nat -> exists b, is_prime n_bits fuel n = Ok b.
Proof.
  intros F S. unfold is_prime. destruct (n <=? smallprimes_last) eqn:E; [eexists; reflexivity|]. unfold smallprimes_last in E.
  rewrite gcd_two by (auto; lia). cbn [bind]. destruct (negb _); [eexists; reflexivity|].
  destruct (split2_total n fuel) as (s & r & -> & A & B & C & D & G); [lia|exact F|]. cbn [bind].
  apply mr_rounds_total; lia.
Qed.

Section P.
Context (p : Z) (Hp : prime p) (Op : p mod 2 = 1).
Local Notation "a == b" := (cong p a b) (at level 70).
Lemma mr_loop_prime fuel : forall j s y, 0 < j <= s -> (Z.to_nat (s - j) <= fuel)%nat -> 0 <= y < p -> y <> 1 ->
  y ^ (2 ^ (s - j + 1)) == 1 -> mr_loop fuel j s y p = Ok (Some (p - 1)).
Proof.
  assert (P := p3 p Hp Op). assert (LAST : forall y, 0 <= y < p -> y ^ 2 == 1 -> y = 1 \/ y = p - 1).
  { intros y Hy E. rewrite Z.pow_2_r in E. destruct (sqrt1 p Hp Op y E) as [D|D].
    - left. apply (cong_eq p); [lia|lia|exact D].
    - right. apply (cong_eq p); [lia|lia|]. rewrite D. apply cong_divide; [lia|]. exists (-1). ring. }
  induction fuel as [|f IH]; intros j s y Hj F Hy N E; cbn [mr_loop].
  - assert (j = s) by lia. subst j. replace (s - s + 1) with 1 in E by lia. change (2 ^ 1) with 2 in E. destruct (LAST y Hy E) as [|Y]; [contradiction|].
    rewrite Y. replace (s <=? s - 1) with false by lia. reflexivity.
  - destruct (y =? p - 1) eqn:Y; [rewrite andb_false_r; apply Z.eqb_eq in Y; now rewrite Y|]. apply Z.eqb_neq in Y. cbn [negb].
    destruct (j <=? s - 1) eqn:J; cbn [andb].
    + rewrite mr_square by lia. cbn [bind]. destruct (y ^ 2 mod p =? 1) eqn:Y2.
      * apply Z.eqb_eq in Y2. exfalso. destruct (LAST y Hy); [|contradiction|contradiction]. split. rewrite Y2, Z.mod_small; lia.
      * apply Z.eqb_neq in Y2. apply IH; [lia|lia|apply Z.mod_pos_bound; lia|exact Y2|].
        rewrite cong_mod, <- Z.pow_mul_r by (try apply Z.pow_nonneg; lia). rewrite <- Z.pow_succ_r by lia.
        replace (Z.succ (s - (j + 1) + 1)) with (s - j + 1) by lia. exact E.
    + exfalso. assert (j = s) by lia. subst j. replace (s - s + 1) with 1 in E by lia. change (2 ^ 1) with 2 in E. destruct (LAST y Hy E); contradiction.
Qed.
Lemma mr_round_prime fuel s r a : 0 <= s -> 0 < r -> p - 1 = 2 ^ s * r -> (Z.to_nat s <= fuel)%nat -> a mod p <> 0 -> mr_round fuel p s r a = Ok true.
Proof.
  intros Hs Hr E F A. assert (P := p3 p Hp Op). unfold mr_round. rewrite modexp_ok by lia. cbn [bind].
  destruct (a ^ r mod p =? 1) eqn:Y1; [reflexivity|]. destruct (a ^ r mod p =? p - 1) eqn:Y2; [reflexivity|]. cbn [negb andb].
  apply Z.eqb_neq in Y1. assert (S1 : 0 < s). { destruct (Z.eq_dec s 0) as [->|]; [|lia]. change (2 ^ 0) with 1 in E.
    exfalso. apply Y1. replace r with (p - 1) by lia. apply (cong_range p _ 1); [|lia]. now apply fermat_z. }
  rewrite mr_loop_prime; [cbn [bind]; now rewrite Z.eqb_refl|lia|lia|apply Z.mod_pos_bound; lia|exact Y1|].
  rewrite cong_mod, <- Z.pow_mul_r by (try apply Z.pow_nonneg; lia). replace (s - 1 + 1) with s by lia.
  replace (r * 2 ^ s) with (p - 1) by lia. now apply fermat_z.
Qed.
End P.

Lemma odd_of_prime p : prime p -> 2 < p -> p mod 2 = 1.
Proof.
  intros Hp H. destruct (Z.eq_dec (p mod 2) 0) as [E|E]; [|lia]. apply Z.mod_divide in E; [|lia]. exfalso. apply prime_divisors in E; auto. lia.
Qed.

(** ** trial division *)
Definition trial_primes : list Z := [2; 3; 5; 7; 11; 13; 17; 19; 23; 29; 31; 37; 41; 43; 47; 53; 59; 61; 67; 71].
Definition trial (n : Z) : bool := (1 <? n) && forallb (fun d => negb (n mod d =? 0) || (n <=? d)) trial_primes.
Lemma trial_primes_in q : prime q -> q < 72 -> In q trial_primes.
Proof.
  intros Q L. assert (Q2 := prime_ge_2 q Q).
  assert (F : forallb (fun k => let q := Z.of_nat k in existsb (Z.eqb q) trial_primes || existsb (fun d => (q mod d =? 0) && (d <? q)) [2; 3; 5; 7]) (seq 2 70) = true) by (vm_compute; reflexivity).
  rewrite forallb_forall in F. specialize (F (Z.to_nat q)). cbv zeta in F. rewrite Z2Nat.id in F by lia. assert (I : In (Z.to_nat q) (seq 2 70)) by (apply in_seq; lia).
  specialize (F I). apply orb_true_iff in F as [F|F].
  - apply existsb_exists in F as (x & X & E). apply Z.eqb_eq in E. now subst x.
  - apply existsb_exists in F as (d & D & E). apply andb_true_iff in E as (E1 & E2). apply Z.eqb_eq in E1. apply Z.mod_divide in E1; [|cbn [In] in D; lia].
    apply prime_divisors in E1; [|exact Q]. cbn [In] in D. lia.
Qed.
Lemma trial_spec n : n < 72 * 72 -> (trial n = true <-> prime n).
Proof.
  intros B. unfold trial. rewrite andb_true_iff, forallb_forall. split.
  - intros (H & F). apply Z.ltb_lt in H. destruct (prime_dec n) as [P|P]; [exact P|exfalso].
    apply small_divisor in P as (q & Q & D & S); [|exact H]. assert (Q2 := prime_ge_2 q Q).
    specialize (F q). apply Zdivide_mod in D. rewrite D in F.
    assert (I : In q trial_primes) by (apply trial_primes_in; [exact Q|nia]). specialize (F I). change (negb (0 =? 0)) with false in F. cbn [orb] in F. nia.
  - intros P. assert (P2 := prime_ge_2 n P). split; [lia|]. intros d I. assert (D2 : 2 <= d) by (clear - I; unfold trial_primes in I; cbn [In] in I; lia).
    destruct (n <=? d) eqn:L; [apply orb_true_r|]. rewrite orb_false_r. apply negb_true_iff, Z.eqb_neq. intros E.
    apply Zmod_divide in E; [|lia]. apply prime_divisors in E; auto. lia.
Qed.
