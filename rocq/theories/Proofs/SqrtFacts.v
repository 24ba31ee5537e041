(** C45-C48: square roots modulo a prime *)
From Coq Require Import Znumtheory Zpow_facts Setoid Morphisms.
From Verif Require Import Proofs.Tac Model.NumberTheory Spec.NumberSpec Proofs.Legendre Proofs.Jacobi Proofs.Cong Proofs.Sqrt Proofs.NTRange Proofs.Cipolla Proofs.PrimeCert Proofs.Pocklington.
Local Open Scope Z_scope.

Lemma pow2_gt n : Z.of_nat n < 2 ^ Z.of_nat n. Proof. apply Z.pow_gt_lin_r; lia. Qed.

Section P.
Context (p : Z) (Hp : prime p) (Op : p mod 2 = 1).
Local Notation "a == b" := (cong p a b) (at level 70).
Lemma jacobi_prime a fuel : (Z.to_nat p <= fuel)%nat -> jacobi fuel a p = Ok (lz p a).
Proof.
  intros F. assert (P := p3 p Hp Op). rewrite (jacobi_spec fuel a p [p]); [cbn; f_equal; lia|lia|exact Op|lia| |cbn; lia].
  constructor; [split; auto|constructor].
Qed.
Lemma lz_pos_nz a : lz p a = 1 -> a mod p <> 0. Proof. intros H E. rewrite lz_0 in H; [discriminate|exact E]. Qed.
Lemma square_lz a : square_mod a p <-> lz p a = 0 \/ lz p a = 1.
Proof.
  split.
  - intros S. destruct (Z.eq_dec (a mod p) 0) as [E|E]; [left; now apply lz_0|right; now apply (lz_square Hp Op)].
  - intros [E|E]; [|apply (lz_square Hp Op); auto using lz_pos_nz]. apply lz_zero in E; auto. exists 0.
    replace (0 * 0 - a) with (- a) by ring. apply Z.mod_opp_l_z; [|exact E]. assert (H := p3 p Hp Op). lia.
Qed.
Lemma nonsquare_lz a : ~ square_mod a p <-> lz p a = -1.
Proof. rewrite square_lz. destruct (lz_cases p a) as [E|[E|E]]; rewrite E; intuition lia. Qed.
Lemma cong_square r a : r * r == a <-> (r * r - a) mod p = 0.
Proof.
  assert (H := p3 p Hp Op). rewrite cong_divide by lia. split; [apply Z.mod_divide; lia|apply Z.mod_divide; lia].
Qed.
Lemma lz_sq x : lz p (x * x) <> -1.
Proof. rewrite (lz_mul Hp Op). destruct (lz_cases p x) as [E|[E|E]]; rewrite E; discriminate. Qed.
Lemma lz_cong x y : x == y -> lz p x = lz p y.
Proof. intros [E]. now apply (lz_mod Hp). Qed.

(** the search for a non-residue of the form b^2 - 4a succeeds *)
Lemma search_exists a : p mod 4 = 1 -> lz p a = 1 -> exists b, 2 <= b < p /\ lz p (b * b - 4 * a) = -1.
Proof.
  intros P4 A. assert (P := p3 p Hp Op).
  destruct (existsb (fun b => lz p (b * b - 4 * a) =? -1) (map Z.of_nat (seq 2 (Z.to_nat p - 2)))) eqn:E.
  { apply existsb_exists in E as (b & I & E). apply in_map_iff in I as (n & <- & I). apply in_seq in I. exists (Z.of_nat n). lia. }
  exfalso. assert (F0 : forall b, 2 <= b < p -> lz p (b * b - 4 * a) <> -1).
  { intros b Hb X. apply not_true_iff_false in E. apply E. apply existsb_exists. exists b. split; [|lia].
    apply in_map_iff. exists (Z.to_nat b). split; [lia|]. apply in_seq. lia. }
  assert (F : forall b, lz p (b * b - 4 * a) <> -1).
  { intros b. assert (C : b mod p == b) by apply cong_mod. assert (B := Z.mod_pos_bound b p ltac:(lia)).
    destruct (Z.eq_dec (b mod p) 0) as [E0|E0].
    - rewrite (lz_cong (b * b - 4 * a) (-1 * (2 * 2 * a))).
      + rewrite !(lz_mul Hp Op), (lz_neg1 Hp Op), A, P4. destruct (lz_cases p 2) as [E2|[E2|E2]]; rewrite E2; discriminate.
      + rewrite <- C, E0. apply cong_refl_eq. ring.
    - destruct (Z.eq_dec (b mod p) 1) as [E1|E1].
      + rewrite (lz_cong (b * b - 4 * a) ((p - 1) * (p - 1) - 4 * a)); [apply F0; lia|].
        rewrite <- C, E1. apply cong_divide; [lia|]. exists (2 - p). ring.
      + rewrite (lz_cong (b * b - 4 * a) ((b mod p) * (b mod p) - 4 * a)); [apply F0; lia|]. now rewrite C. }
  assert (S : forall k : nat, exists x, x * x == - (4 * a) * Z.of_nat k).
  { induction k as [|k (x & IH)]; [exists 0; apply cong_refl_eq; lia|].
    assert (Q : square_mod (x * x - 4 * a) p). { apply square_lz. specialize (F x). destruct (lz_cases p (x * x - 4 * a)) as [X|[X|X]]; auto. contradiction. }
    destruct Q as (y & Q). exists y. apply cong_square in Q. rewrite Q, IH. apply cong_refl_eq. lia. }
  destruct (nonresidue_exists p Hp Op) as (n & Hn & N).
  assert (R : rel_prime p (- (4 * a))).
  { apply prime_rel_prime; auto. intros D. apply (Z.divide_opp_r p (4 * a)) in D. apply prime_mult in D as [D|D]; auto.
    - change 4 with (2 * 2) in D. assert (D2 : (p | 2)) by (apply prime_mult in D as [D|D]; auto). apply Z.divide_pos_le in D2; [|lia].
      assert (p <> 2) by (intros E2; rewrite E2 in Op; discriminate). lia.
    - apply (lz_pos_nz a A). now apply Z.mod_divide; [lia|]. }
  apply rel_prime_bezout in R as [u v B]. destruct (S (Z.to_nat ((n * v) mod p))) as (x & X).
  rewrite Z2Nat.id in X by (apply Z.mod_pos_bound; lia). apply (lz_sq x). rewrite (lz_cong _ n); [exact N|].
  rewrite X. cmod. apply cong_divide; [lia|]. exists (- n * u). transitivity (- (4 * a) * (n * v) - n * 1); [ring|]. rewrite <- B. ring.
Qed.
Lemma root_search_spec a (A : lz p a = 1) : 3 < p -> p mod 4 = 1 -> forall k b fuel, (Z.to_nat p <= fuel)%nat ->
  (exists i, (i < k)%nat /\ lz p ((b + Z.of_nat i) * (b + Z.of_nat i) - 4 * a) = -1) ->
  exists r, root_search fuel k b a p = Ok r /\ 0 <= r < p /\ r * r == a.
Proof.
  intros P P4. induction k as [|k IH]; intros b fuel F (i & Hi & E); [lia|]. cbn [root_search]. rewrite jacobi_prime by exact F. cbn [bind].
  destruct (lz p (b * b - 4 * a) =? -1) eqn:J.
  - apply Z.eqb_eq in J. destruct (@cipolla p Hp Op a b fuel P A J) as (r & R & C).
    { assert (X := pow2_gt fuel). lia. }
    rewrite R. cbn [bind]. unfold polynomial_exp_mod, py_assert in R.
    replace ((p + 1) / 2 <? p) with true in R by lia. replace ((p + 1) / 2 =? 0) with false in R by lia. replace ((p + 1) / 2 mod 2 =? 1) with true in R by lia.
    cbn [bind] in R. apply exp_loop_shape in R as (RR & RL); [|lia|reflexivity|reflexivity|reflexivity|constructor; [lia|constructor; [lia|constructor]]].
    destruct r as [|c0 [|c1 [|]]]; try discriminate RL. destruct (C c0 c1 eq_refl) as (C1 & C0).
    inversion_clear RR. inversion_clear H0. rewrite Z.mod_small in C1 by assumption. subst c1. cbn [Z.eqb py_assert bind].
    exists c0. split; [reflexivity|]. split; [assumption|]. now split.
  - apply (IH (b + 1)); [exact F|]. destruct i as [|i].
    + rewrite Z.add_0_r in E. lia.
    + exists i. split; [lia|]. rewrite <- E. f_equal. replace (b + Z.of_nat (S i)) with (b + 1 + Z.of_nat i) by lia. reflexivity.
Qed.
End P.

(** ** C45 *)
Lemma c45_square_root : forall p a maxlist, prime p -> 0 <= a < p -> p mod 8 <> 1 \/ p - 2 <= maxlist ->
  exists fuel0, forall fuel, (fuel0 <= fuel)%nat ->
  (square_mod a p -> exists r, square_root_mod_prime maxlist fuel a p = Ok r /\ 0 <= r < p /\ (r * r - a) mod p = 0) /\
  (~ square_mod a p -> square_root_mod_prime maxlist fuel a p = Raise SquareRootError).
Proof.
  intros p a maxlist Hp Ha HM. exists (Z.to_nat p). intros fuel F. assert (P := prime_ge_2 p Hp).
  unfold square_root_mod_prime, py_assert. replace ((0 <=? a) && (a <? p)) with true by lia. replace (1 <? p) with true by lia. cbn [bind].
  destruct (a =? 0) eqn:A0.
  { apply Z.eqb_eq in A0. subst a. split; [|intros S; exfalso; apply S; exists 0; apply Z.mod_0_l; lia].
    intros _. exists 0. split; [reflexivity|]. split; [lia|apply Z.mod_0_l; lia]. }
  apply Z.eqb_neq in A0. destruct (p =? 2) eqn:P2.
  { apply Z.eqb_eq in P2. assert (a = 1) by lia. subst a p. split; [|intros S; exfalso; apply S; exists 1; reflexivity].
    intros _. exists 1. split; [reflexivity|]. split; [lia|reflexivity]. }
  apply Z.eqb_neq in P2. assert (Op : p mod 2 = 1).
  { destruct (Z.eq_dec (p mod 2) 0) as [E|E]; [|lia]. apply Z.mod_divide in E; [|lia]. exfalso.
    apply prime_divisors in E; auto. lia. }
  rewrite jacobi_prime by auto. cbn [bind]. split; intros S.
  2:{ apply nonsquare_lz in S; auto. rewrite S. reflexivity. }
  assert (A : lz p a = 1). { apply (lz_square Hp Op); auto. rewrite Z.mod_small; lia. }
  rewrite A. change (1 =? -1) with false. cbn beta iota.
  assert (PM : p mod 8 = 1 \/ p mod 8 = 3 \/ p mod 8 = 5 \/ p mod 8 = 7) by lia.
  destruct (p mod 4 =? 3) eqn:P4.
  { apply Z.eqb_eq in P4. rewrite modexp_ok by lia. eexists. split; [reflexivity|]. split; [apply Z.mod_pos_bound; lia|].
    apply cong_square; auto. cmod. now apply root_3mod4. }
  destruct (p mod 8 =? 5) eqn:P8.
  { apply Z.eqb_eq in P8. rewrite modexp_ok by lia. cbn [bind].
    destruct (root_5mod8 p Hp Op a P8 A) as [(D & R)|(D & R)].
    - rewrite (cong_range p _ _ D) by lia. change (1 =? 1) with true. cbn beta iota. rewrite modexp_ok by lia.
      eexists. split; [reflexivity|]. split; [apply Z.mod_pos_bound; lia|]. apply cong_square; auto. now cmod.
    - assert (D' : cong p (a ^ ((p - 1) / 4)) (p - 1)) by (rewrite D, <- (cong_period p (-1) 1); apply cong_refl_eq; lia).
      rewrite (cong_range p _ _ D') by lia. replace (p - 1 =? 1) with false by lia. rewrite Z.eqb_refl. rewrite modexp_ok by lia. cbn [bind].
      eexists. split; [reflexivity|]. split; [apply Z.mod_pos_bound; lia|]. apply cong_square; auto. now cmod. }
  assert (P1 : p mod 8 = 1) by lia. replace (maxlist <? p - 2) with false by lia.
  destruct (search_exists p Hp Op a) as (b & Hb & E); [lia|exact A|].
  destruct (root_search_spec p Hp Op a A) with (k := Z.to_nat (p - 2)) (b := 2) (fuel := fuel) as (r & R & RR & RS); [lia|lia|exact F| |].
  - exists (Z.to_nat (b - 2)). split; [lia|]. rewrite Z2Nat.id by lia. rewrite <- E. f_equal. ring.
  - exists r. split; [exact R|]. split; [exact RR|]. now apply cong_square.
Qed.

(** ** C46 *)
Lemma c46_overflow : forall p a maxlist, prime p -> p mod 8 = 1 -> maxlist < p - 2 -> 0 < a < p -> square_mod a p ->
  exists fuel0, forall fuel, (fuel0 <= fuel)%nat -> square_root_mod_prime maxlist fuel a p = Raise OverflowError.
Proof.
  intros p a maxlist Hp P8 HM Ha S. exists (Z.to_nat p). intros fuel F. assert (Op : p mod 2 = 1) by lia.
  unfold square_root_mod_prime, py_assert. replace ((0 <=? a) && (a <? p)) with true by lia. replace (1 <? p) with true by lia. cbn [bind].
  replace (a =? 0) with false by lia. replace (p =? 2) with false by lia. rewrite jacobi_prime by auto. cbn [bind].
  assert (A : lz p a = 1). { apply (lz_square Hp Op); auto. rewrite Z.mod_small; lia. }
  rewrite A. change (1 =? -1) with false. cbn beta iota. replace (p mod 4 =? 3) with false by lia. replace (p mod 8 =? 5) with false by lia.
  replace (maxlist <? p - 2) with true by lia. reflexivity.
Qed.

(** the field of secp224r1, ecc/curves.py:106 *)
Definition p224 : Z := 0xffffffffffffffffffffffffffffffff000000000000000000000001.
(** every prime divisor is 1 modulo 2^96; two such factors would be too large *)
Lemma p224_power : Zpow_mod 22 (2 ^ 95 * (2 ^ 128 - 1)) p224 = p224 - 1. Proof. vm_compute. reflexivity. Qed.
Lemma p224_prime : prime p224.
Proof.
  assert (E1 : (p224 - 1) / 2 = 2 ^ 95 * (2 ^ 128 - 1)) by (vm_compute; reflexivity). assert (E2 : p224 - 1 = 2 ^ 95 * (2 ^ 128 - 1) * 2) by (vm_compute; reflexivity).
  assert (S : 22 ^ ((p224 - 1) / 2) mod p224 = p224 - 1). { rewrite E1, <- Zpow_mod_correct by discriminate. exact p224_power. }
  assert (S2 : 22 ^ (p224 - 1) mod p224 = 1).
  { rewrite E2, Z.pow_mul_r by (vm_compute; discriminate). rewrite <- E1, Zpower_mod, S by reflexivity. vm_compute. reflexivity. }
  assert (D : forall q, prime q -> (q | p224) -> exists x, 1 <= x /\ q = x * 2 ^ 96 + 1).
  { intros q Q DQ. destruct (@pock_step p224 q 22 2 96) as [x X]; [exact Q|exact DQ|apply prime_2|apply Nat.ltb_lt; reflexivity|reflexivity| |exact S2|rewrite S; vm_compute; reflexivity|]; [clear S S2|clear S S2].
    - change (2 ^ Z.of_nat 96) with (2 ^ 96). apply Z.mod_divide; [discriminate|reflexivity].
    - change (2 ^ Z.of_nat 96) with 79228162514264337593543950336 in X. exists x. assert (Q2 := prime_ge_2 q Q). change (2 ^ 96) with 79228162514264337593543950336. clear - X Q2. lia. }
  destruct (prime_dec p224) as [P|P]; [exact P|exfalso]. apply small_divisor in P as (q & Q & DQ & L); [|reflexivity].
  destruct (D q Q DQ) as (x & X & EX). destruct DQ as [m M].
  assert (Y : exists y, 1 <= y /\ m = y * 2 ^ 96 + 1).
  { assert (M1 : 1 < m). { assert (Q2 := prime_ge_2 q Q). clear - M L Q2. nia. }
    assert (C : m mod 2 ^ 96 = 1). { change 1 with (p224 mod 2 ^ 96). rewrite M, EX. rewrite Z.mul_add_distr_l, Z.mul_1_r, Z.mul_assoc, Z.add_comm, Z.mod_add by discriminate. reflexivity. }
    exists (m / 2 ^ 96). assert (E := Z.div_mod m (2 ^ 96) ltac:(discriminate)). rewrite C in E. change (2 ^ 96) with 79228162514264337593543950336 in *. clear - E M1. lia. }
  destruct Y as (y & Y & EY). rewrite EX, EY in M. clear - M X Y. change (2 ^ 96) with 79228162514264337593543950336 in M. unfold p224 in M.
  assert (T : 340282366920938463463374607431768211455 = x * y * 79228162514264337593543950336 + x + y) by lia.
  assert (U : x * y <= 4294967296) by nia. assert (V : x <= 4294967296) by nia. assert (W : y <= 4294967296) by nia.
  assert (Z1 : x * y <= 4294967295 \/ x * y = 4294967296) by lia. destruct Z1 as [Z1|Z1]; [|rewrite Z1 in T; lia]. nia.
Qed.
Lemma c46_p224_refuted : exists p a, p = 0xffffffffffffffffffffffffffffffff000000000000000000000001 /\ prime p /\ 0 <= a < p /\ square_mod a p /\
  forall maxlist, maxlist <= 2 ^ 64 -> exists fuel0, forall fuel, (fuel0 <= fuel)%nat -> square_root_mod_prime maxlist fuel a p = Raise OverflowError.
Proof.
  exists p224, 4. split; [reflexivity|]. split; [apply p224_prime|]. split; [now vm_compute|]. assert (S : square_mod 4 p224) by now exists 2.
  split; [exact S|]. intros maxlist H. apply c46_overflow; [apply p224_prime|reflexivity| |now vm_compute|exact S].
  eapply Z.le_lt_trans; [exact H|]. reflexivity.
Qed.

(** ** C47 *)
Lemma c47_modular_sqrt : forall p a, prime p -> p mod 2 = 1 ->
  exists fuel0, forall fuel, (fuel0 <= fuel)%nat ->
  exists r, modular_sqrt fuel a p = Ok r /\ 0 <= r < p /\ (square_mod a p -> (r * r - a) mod p = 0) /\ (~ square_mod a p -> r = 0).
Proof.
  intros p a Hp Op. exists (Z.to_nat p). intros fuel F. assert (P := p3 p Hp Op). unfold modular_sqrt.
  rewrite legendre_symbol_ok by auto. cbn [bind].
  destruct (lz p a =? 1) eqn:A; cbn [negb].
  2:{ exists 0. split; [reflexivity|]. split; [lia|]. split; [|auto]. intros S. apply square_lz in S as [S|S]; auto; [|lia].
      apply lz_zero in S. replace (0 * 0 - a) with (- a) by ring. apply Z.mod_opp_l_z; [lia|exact S]. }
  apply Z.eqb_eq in A. assert (NZ := lz_pos_nz p a A). replace (a =? 0) with false by (symmetry; apply Z.eqb_neq; intros ->; apply NZ; apply Z.mod_0_l; lia).
  replace (p =? 2) with false by (clear - Op P; lia).
  assert (S : square_mod a p) by (apply square_lz; auto).
  enough (exists r, (if p mod 4 =? 3 then py_pow3 a ((p + 1) / 4) p
    else do es <- split2 fuel 0 (p - 1);
         let '(e, s) := es in
         do n <- find_nonresidue fuel 2 p; do x <- py_pow3 a ((s + 1) / 2) p; do b <- py_pow3 a s p; do g <- py_pow3 n s p; tonelli fuel x b g e p) = Ok r /\
    0 <= r < p /\ cong p (r * r) a) as (r & R1 & R2 & R3).
  { exists r. split; [exact R1|]. split; [exact R2|]. split; [intros _; now apply cong_square|tauto]. }
  destruct (p mod 4 =? 3) eqn:P4.
  { apply Z.eqb_eq in P4. rewrite pow3_ok by (clear - P; lia). eexists. split; [reflexivity|]. split; [apply Z.mod_pos_bound; clear - P; lia|].
    cmod. now apply root_3mod4. }
  destruct (split2_spec fuel 0 (p - 1)) as (k & s & E1 & E2 & E3); [lia| |lia|].
  { assert (X := pow2_gt fuel). lia. }
  rewrite E1. cbn [bind]. rewrite Z.add_0_l.
  destruct (nonresidue_exists p Hp Op) as (n0 & Hn0 & N0).
  destruct (find_spec p Hp Op (Z.to_nat (n0 - 2)) 2 fuel) as (n & N1 & N2); [lia| |].
  { exists (Z.to_nat (n0 - 2)). split; [lia|]. rewrite Z2Nat.id by lia. rewrite <- N0. f_equal. ring. }
  rewrite N1. cbn [bind]. destruct k as [|k]; [cbn [Z.of_nat Z.pow] in E2; exfalso; clear - E2 E3 Op; lia|].
  rewrite Nat2Z.inj_succ, Z.pow_succ_r in E2 by lia.
  assert (Hs : 0 <= s) by (assert (0 < 2 ^ Z.of_nat k) by (apply Z.pow_pos_nonneg; lia); clear - E2 P H; nia).
  assert (Hh : p / 2 = s * 2 ^ Z.of_nat k) by (symmetry; apply Z.div_unique with 1; [lia|]; clear - E2; lia).
  rewrite !pow3_ok by (clear - Hs P; lia). cbn [bind].
  assert (R : Z.of_nat (Datatypes.S k) - 1 = Z.of_nat k) by lia. assert (K : 0 <= 2 ^ Z.of_nat k) by (apply Z.pow_nonneg; lia).
  apply (tonelli_spec p Hp Op a).
  - assert (X : Z.of_nat (Datatypes.S k) < 2 ^ Z.of_nat (Datatypes.S k)) by apply pow2_gt. assert (Y : 2 ^ Z.of_nat (Datatypes.S k) = 2 * 2 ^ Z.of_nat k) by (rewrite Nat2Z.inj_succ, Z.pow_succ_r; lia).
    assert (S1 : 1 <= s) by (clear - Hs E3; lia). clear - X Y S1 E2 F K P. nia.
  - lia.
  - apply Z.mod_pos_bound. lia.
  - apply Z.mod_pos_bound. lia.
  - cmod. rewrite <- Z.pow_add_r by lia. apply cong_refl_eq. rewrite <- Z.pow_succ_r by lia. f_equal. lia.
  - cmod. rewrite R, <- Z.pow_mul_r, <- Hh by assumption. rewrite euler_eqm, N2 by auto. reflexivity.
  - cmod. rewrite R, <- Z.pow_mul_r, <- Hh by assumption. rewrite euler_eqm, A by auto. reflexivity.
Qed.
Lemma c47_even_prime_refuted : exists p a r, prime p /\ square_mod a p /\ (forall fuel, modular_sqrt fuel a p = Ok r) /\ (r * r - a) mod p <> 0.
Proof. exists 2, 1, 0. split; [apply prime_2|]. split; [now exists 1|]. split; [reflexivity|discriminate]. Qed.
Lemma c47_two : forall fuel a, modular_sqrt fuel a 2 = Ok 0.
Proof. intros fuel a. unfold modular_sqrt, legendre_symbol. reflexivity. Qed.

(** ** C48 *)
Lemma c48_legendre : forall p a, prime p -> p mod 2 = 1 -> exists s, legendre_symbol a p = Ok s /\ legendre a p s.
Proof. intros p a Hp Op. exists (lz p a). split; [now apply legendre_symbol_ok|now apply (lz_legendre Hp Op)]. Qed.
Lemma c48_two_refuted : exists a s, legendre_symbol a 2 = Ok s /\ square_mod a 2 /\ s = -1.
Proof. exists 1, (-1). split; [reflexivity|]. split; [now exists 1|reflexivity]. Qed.
