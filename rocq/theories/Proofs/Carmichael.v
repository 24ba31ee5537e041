(** The exponent of the group of units. *)
From Coq Require Import Znumtheory Zpow_facts Setoid Morphisms Sorted.
From Verif Require Import Proofs.Tac Model.NumberTheory Spec.NumberSpec Proofs.Jacobi Proofs.Cong Proofs.Sqrt Proofs.NTBasic Proofs.PrimeCert Proofs.Legendre Proofs.Primality Proofs.PrimeFacts Proofs.UnitRoots Proofs.RabinMiller Proofs.Factor.
Local Open Scope Z_scope.

(** (1 + x)^n up to the cube of x *)
Lemma binomial3 x n : 0 <= n -> exists T w, 2 * T = n * (n - 1) /\ (1 + x) ^ n = 1 + n * x + T * (x * x) + x * x * x * w.
Proof.
  intros N. pattern n. apply natlike_ind; [exists 0, 0; split; [reflexivity|rewrite Z.pow_0_r; ring]| |exact N].
  intros y Y (T & w & ET & E). exists (T + y), (T + w + x * w). split; [nia|]. rewrite Z.pow_succ_r, E by lia. rewrite <- Z.add_1_r. ring.
Qed.
Lemma binomial2 x n : 0 <= n -> exists w, (1 + x) ^ n = 1 + n * x + x * x * w.
Proof. intros N. destruct (binomial3 x n N) as (T & w & _ & E). exists (T + x * w). rewrite E. ring. Qed.

(** p-adic valuation of (1 + p^j)^k - 1 *)
Definition good (p j : Z) : Prop := p mod 2 = 1 /\ 1 <= j \/ p = 2 /\ 2 <= j.
Lemma raise_p p j u : prime p -> good p j -> ~ (p | u) -> exists v, (1 + p ^ j * u) ^ p = 1 + p ^ (j + 1) * v /\ ~ (p | v).
Proof.
  intros Hp G NU. assert (P2 := prime_ge_2 p Hp). destruct (binomial3 (p ^ j * u) p) as (T & w & ET & E); [lia|]. set (x := p ^ j * u) in *.
  assert (J1 : 1 <= j) by (unfold good in G; lia). assert (PJ : p ^ j = p ^ (j - 1) * p) by (rewrite Z.mul_comm, <- Z.pow_succ_r by lia; f_equal; lia).
  assert (PJ1 : p ^ (j + 1) = p ^ j * p) by (rewrite Z.pow_add_r, Z.pow_1_r by lia; reflexivity).
  (* T x^2 + w x^3 = p^(j+1) p c *)
  assert (C : exists c, T * (x * x) + x * x * x * w = p ^ (j + 1) * (p * c)).
  { unfold x. rewrite PJ1. destruct G as [(O & _)|(-> & J2)].
    - assert (HP : p - 1 = 2 * ((p - 1) / 2)) by (clear - O; lia). assert (ET' : T = p * ((p - 1) / 2)). { set (h := (p - 1) / 2) in *. rewrite HP in ET. clear - ET. nia. } exists (((p - 1) / 2) * p ^ (j - 1) * u * u + p ^ (j - 1) * p ^ (j - 1) * u * u * u * w). rewrite ET', PJ. ring.
    - assert (T = 1) by lia. subst T. assert (PJ' : 2 ^ (j - 1) = 2 ^ (j - 2) * 2) by (rewrite Z.mul_comm, <- Z.pow_succ_r by lia; f_equal; lia).
      exists (2 ^ (j - 2) * u * u + 2 ^ (j - 1) * 2 ^ (j - 1) * u * u * u * w). rewrite PJ, PJ'. ring. }
  destruct C as (c & C). exists (u + p * c). split.
  - rewrite E. rewrite <- Z.add_assoc, C. unfold x. rewrite PJ1. ring.
  - intros D. apply NU. replace u with (u + p * c - p * c) by ring. apply Z.divide_sub_r; [exact D|apply Z.divide_factor_l].
Qed.
Lemma raise_pi p j : prime p -> good p j -> forall i, 0 <= i -> exists v, (1 + p ^ j) ^ (p ^ i) = 1 + p ^ (j + i) * v /\ ~ (p | v).
Proof.
  intros Hp G i I. assert (P2 := prime_ge_2 p Hp). pattern i. apply natlike_ind; [| |exact I].
  - exists 1. rewrite Z.pow_0_r, Z.pow_1_r, Z.add_0_r. split; [ring|]. intros D. apply Z.divide_1_r in D. lia.
  - intros y Y (v & E & NV). destruct (raise_p p (j + y) v Hp) as (v' & E' & NV'); [unfold good in *; lia|exact NV|].
    exists v'. split; [|exact NV']. rewrite Z.pow_succ_r, Z.mul_comm, Z.pow_mul_r by (try lia; apply Z.pow_nonneg; lia). rewrite E, E'. do 2 f_equal. f_equal. lia.
Qed.
Lemma p_part p k : 2 <= p -> 1 <= k -> exists i k', 0 <= i /\ k = p ^ i * k' /\ ~ (p | k').
Proof.
  intros P K. assert (X : forall n, 1 <= k -> (Z.to_nat k <= n)%nat -> exists i k', 0 <= i /\ k = p ^ i * k' /\ ~ (p | k')); [|apply (X (Z.to_nat k)); lia].
  clear K. intros n. revert k. induction n as [|n IH]; intros k K L; [lia|].
  destruct (Zdivide_dec p k) as [(q & Q)|D]; [|exists 0, k; split; [lia|]; split; [rewrite Z.pow_0_r; ring|exact D]].
  destruct (IH q) as (i & k' & I & E & ND); [nia|nia|]. exists (i + 1), k'. split; [lia|]. split; [|exact ND]. rewrite Q, E, Z.pow_add_r, Z.pow_1_r by lia. ring.
Qed.
Lemma pow_divides p a b : 2 <= p -> 0 <= a <= b -> (p ^ a | p ^ b).
Proof. intros P H. exists (p ^ (b - a)). rewrite <- Z.pow_add_r by lia. f_equal. lia. Qed.
Lemma order_1p p j e k : prime p -> good p j -> j <= e -> 1 <= k -> cong (p ^ e) ((1 + p ^ j) ^ k) 1 -> (p ^ (e - j) | k).
Proof.
  intros Hp G JE K C. assert (P2 := prime_ge_2 p Hp). assert (J1 : 1 <= j) by (unfold good in G; lia). destruct (p_part p k P2 K) as (i & k' & I & E & ND).
  destruct (Z_le_gt_dec (e - j) i) as [L|L]; [rewrite E; apply Z.divide_mul_l, pow_divides; lia|exfalso].
  destruct (raise_pi p j Hp G i I) as (v & EV & NV).
  assert (PI : 0 < p ^ i) by (apply Z.pow_pos_nonneg; lia). assert (K' : 0 <= k') by nia.
  rewrite E, Z.pow_mul_r, EV in C by lia. destruct (binomial2 (p ^ (j + i) * v) k' K') as (w & EW). rewrite EW in C.
  assert (PE : 0 < p ^ e) by (apply Z.pow_pos_nonneg; lia). apply cong_divide in C; [|lia]. destruct C as (q & Q).
  assert (PJI : 0 < p ^ (j + i)) by (apply Z.pow_pos_nonneg; lia).
  assert (PS : p ^ e = p ^ (j + i) * (p * p ^ (e - j - i - 1))) by (rewrite <- Z.pow_succ_r, <- Z.pow_add_r by lia; f_equal; lia).
  assert (PS2 : p ^ (j + i) = p * p ^ (j + i - 1)) by (rewrite <- Z.pow_succ_r by lia; f_equal; lia).
  assert (X : k' * v = p * (q * p ^ (e - j - i - 1) - p ^ (j + i - 1) * v * v * w)).
  { apply (Z.mul_reg_l _ _ (p ^ (j + i))); [lia|]. rewrite PS in Q. rewrite PS2 in Q at 3. rewrite <- PS2 in Q || idtac.
    transitivity (q * (p ^ (j + i) * (p * p ^ (e - j - i - 1))) - p ^ (j + i) * v * (p ^ (j + i) * v) * w); [|rewrite PS2; ring]. lia. }
  assert (D : (p | k' * v)) by (rewrite X; apply Z.divide_factor_l). apply prime_mult in D as [D|D]; auto.
Qed.
Lemma two_exponent m i : m mod 2 = 1 -> 1 <= i -> cong (2 ^ (i + 2)) (m ^ (2 ^ i)) 1.
Proof.
  intros M I. replace i with (Z.of_nat (Datatypes.S (Z.to_nat (i - 1)))) by lia. generalize (Z.to_nat (i - 1)). clear I i. intros i. induction i as [|i IH].
  - change (2 ^ (Z.of_nat 1 + 2)) with 8. change (2 ^ Z.of_nat 1) with 2. rewrite Z.pow_2_r. split. rewrite Z.mul_mod by lia.
    destruct (mod8 m M) as [H|[H|[H|H]]]; rewrite H; reflexivity.
  - rewrite (Nat2Z.inj_succ (Datatypes.S i)). set (k := Z.of_nat (Datatypes.S i)) in *. assert (K : 1 <= k) by lia. assert (PK : 0 < 2 ^ (k + 2)) by (apply Z.pow_pos_nonneg; lia).
    apply cong_divide in IH; [|lia]. destruct IH as (q & Q). replace (Z.succ k + 2) with (k + 2 + 1) by lia. rewrite (Z.pow_add_r 2 (k + 2)), Z.pow_1_r by lia.
    apply cong_divide; [lia|]. replace (2 ^ Z.succ k) with (2 ^ k * 2) by (rewrite Z.pow_succ_r by lia; ring). rewrite Z.pow_mul_r, Z.pow_2_r by (try apply Z.pow_nonneg; lia). assert (PK2 : 2 ^ (k + 2) = 2 * 2 ^ (k + 1)) by (rewrite <- Z.pow_succ_r by lia; f_equal; lia).
    exists (q * q * 2 ^ (k + 1) + q). replace (m ^ 2 ^ k) with (1 + q * 2 ^ (k + 2)) by lia. rewrite PK2. ring.
Qed.
Lemma gcd_pow p e m : prime p -> 1 <= e -> (Z.gcd m (p ^ e) = 1 <-> ~ (p | m)).
Proof.
  intros Hp E. assert (P2 := prime_ge_2 p Hp). split.
  - intros G D. assert (X : (p | Z.gcd m (p ^ e))). { apply Z.gcd_greatest; [exact D|]. apply Z.divide_trans with (p ^ 1); [rewrite Z.pow_1_r; reflexivity|apply pow_divides; lia]. }
    rewrite G in X. apply Z.divide_1_r in X. lia.
  - intros D. apply Zgcd_1_rel_prime. apply rel_prime_sym. apply rel_prime_Zpower_l || apply rel_prime_sym, rel_prime_Zpower_r; [lia|]. try apply rel_prime_sym. now apply prime_rel_prime.
Qed.
Lemma mod_gcd m n : 0 < n -> Z.gcd (m mod n) n = Z.gcd m n.
Proof. intros N. rewrite Z.gcd_mod by lia. apply Z.gcd_comm. Qed.
Lemma euler_any n m : 0 < n -> Z.gcd m n = 1 -> cong n (m ^ totient n) 1.
Proof.
  intros N G. rewrite <- (cong_mod n m). split. apply euler_totient; [apply Z.mod_pos_bound; lia|lia|]. now rewrite mod_gcd.
Qed.
Lemma totient_pp p e : prime p -> 1 <= e -> totient (p ^ e) = (p - 1) * p ^ (e - 1).
Proof.
  intros Hp E. rewrite <- (Z.mul_1_r (p ^ e)). rewrite (totient_pfactor_mul Hp); [rewrite totient_1; ring|lia|lia|].
  intros D. apply Z.divide_1_r in D. apply prime_ge_2 in Hp. lia.
Qed.
Lemma exponent_multiple n d k : 0 <= d -> 0 <= k -> (d | k) -> (forall m, Z.gcd m n = 1 -> cong n (m ^ d) 1) -> is_exponent n k.
Proof.
  intros D K (q & Q) H m M. apply uncong. destruct (Z.eq_dec k 0) as [->|K0]; [now rewrite Z.pow_0_r|].
  assert (0 <= q) by nia. rewrite Q, Z.mul_comm, Z.pow_mul_r, (H m M), Z.pow_1_l by lia. reflexivity.
Qed.
Lemma cp_pos p e : prime p -> 1 <= e -> 1 <= carmichael_of_ppower (p, e).
Proof.
  intros Hp E. apply prime_ge_2 in Hp. unfold carmichael_of_ppower. destruct ((p =? 2) && (2 <? e)) eqn:C.
  - assert (0 < 2 ^ (e - 2)) by (apply Z.pow_pos_nonneg; lia). lia.
  - assert (0 < p ^ (e - 1)) by (apply Z.pow_pos_nonneg; lia). nia.
Qed.
Lemma pp_exponent p e k : prime p -> 1 <= e -> 1 <= k -> (is_exponent (p ^ e) k <-> (carmichael_of_ppower (p, e) | k)).
Proof.
  intros Hp E K. assert (P2 := prime_ge_2 p Hp). assert (PE : 0 < p ^ e) by (apply Z.pow_pos_nonneg; lia). assert (CP := cp_pos p e Hp E).
  unfold carmichael_of_ppower in *. destruct ((p =? 2) && (2 <? e)) eqn:C.
  - assert (p = 2) by lia. subst p. split.
    + intros H. apply (order_1p 2 2 e k); [exact prime_2|right; lia|lia|lia|]. split. apply H. apply (gcd_pow 2 e); [exact prime_2|lia|]. intros (x & X). change (2 ^ 2) with 4 in X. lia.
    + intros D. apply (exponent_multiple _ (2 ^ (e - 2))); [lia|lia|exact D|]. intros m M. apply (gcd_pow 2 e) in M; [|exact prime_2|lia].
      replace e with (e - 2 + 2) at 1 by ring. apply two_exponent; [|lia]. assert (m mod 2 <> 0); [|lia]. intros X. apply M. apply Z.mod_divide; [lia|exact X].
  - split.
    + intros H.
      assert (D1 : (p - 1 | k)).
      { destruct (primitive_root Hp) as (g & G & PG). apply PG; [lia|]. apply uncong. apply (cong_sub (p ^ e)); [|lia|].
        - apply Z.divide_trans with (p ^ 1); [rewrite Z.pow_1_r; reflexivity|apply pow_divides; lia].
        - split. apply H. apply gcd_pow; auto. intros D. apply Z.divide_pos_le in D; lia. }
      assert (D2 : (p ^ (e - 1) | k)).
      { destruct (Z.eq_dec p 2) as [->|N2].
        - assert (EC : e = 1 \/ e = 2) by lia. destruct EC as [->| ->]; [apply Z.divide_1_l|].
          assert (X : 3 ^ k mod 2 ^ 2 = 1 mod 2 ^ 2) by (apply H; reflexivity). change (2 ^ 2) with 4 in X. change (2 ^ (2 - 1)) with 2.
          apply Z.mod_divide; [lia|]. destruct (Z.eq_dec (k mod 2) 0) as [|N]; [assumption|exfalso].
          assert (Y : cong 4 (3 ^ k) 3). { replace k with (2 * (k / 2) + 1) by lia. rewrite Z.pow_add_r, Z.pow_mul_r by lia. assert (Z9 : cong 4 (3 ^ 2) 1) by (split; reflexivity). rewrite Z9, Z.pow_1_l by lia. reflexivity. }
          destruct Y as [Y]. rewrite X in Y. discriminate.
        - apply (order_1p p 1 e k); auto; [left; split; [apply odd_of_prime; auto; lia|lia]|]. split. apply H. rewrite Z.pow_1_r. apply gcd_pow; auto.
          intros D. assert (Y : (p | 1)). { replace 1 with (1 + p - p) by ring. apply Z.divide_sub_r; [exact D|reflexivity]. } apply Z.divide_1_r in Y. lia. }
      destruct D2 as (q & Q). rewrite Q. apply Z.mul_divide_mono_r.
      apply (Z.gauss _ (p ^ (e - 1))); [rewrite Z.mul_comm, <- Q; exact D1|].
      destruct (Z.eq_dec e 1) as [->|]; [apply Z.gcd_1_r|]. apply gcd_pow; auto; [lia|]. intros D.
      assert (Y : (p | 1)). { replace 1 with (p - (p - 1)) by ring. apply Z.divide_sub_r; [reflexivity|exact D]. } apply Z.divide_1_r in Y. lia.
    + intros D. apply (exponent_multiple _ (totient (p ^ e))); [rewrite totient_pp by auto; lia|lia|now rewrite totient_pp by auto|].
      intros m M. apply euler_any; auto.
Qed.

(** ** products of prime powers *)
Lemma coprime_pp p e l : prime p -> 1 <= e -> Forall (fun x => prime (fst x) /\ 1 <= snd x) l -> ~ In p (map fst l) -> Z.gcd (p ^ e) (ppower_product l) = 1.
Proof. intros Hp E F NI. rewrite Z.gcd_comm. apply gcd_pow; auto. now apply not_divides_product. Qed.
Lemma exponent_mul a b k : 0 < a -> 0 < b -> Z.gcd a b = 1 -> (is_exponent (a * b) k <-> is_exponent a k /\ is_exponent b k).
Proof.
  intros A B G.
  assert (LIFT : forall a b k, 0 < a -> 0 < b -> Z.gcd a b = 1 -> is_exponent (a * b) k -> is_exponent a k).
  { clear. intros a b k A B G H m M. destruct (crt2 a b m 1 G) as (x & X1 & X2). apply uncong. rewrite <- X1. apply (cong_sub (a * b)); [apply Z.divide_factor_l|nia|].
    split. apply H. assert (GA : Z.gcd x a = 1) by (rewrite <- mod_gcd, (uncong X1), mod_gcd by lia; exact M).
    assert (GB : Z.gcd x b = 1) by (rewrite <- mod_gcd, (uncong X2), mod_gcd by lia; apply Z.gcd_1_l).
    apply Zgcd_1_rel_prime. apply rel_prime_mult; now apply Zgcd_1_rel_prime. }
  split.
  - intros H. split; [now apply (LIFT a b)|]. apply (LIFT b a); auto; [now rewrite Z.gcd_comm|now rewrite Z.mul_comm].
  - intros (HA & HB) m M. apply uncong. apply cong_prod; auto; try lia; split; [apply HA|apply HB].
    + apply Z.divide_1_r_nonneg; [apply Z.gcd_nonneg|]. rewrite <- M. apply Z.gcd_greatest; [apply Z.gcd_divide_l|]. apply Z.divide_mul_l, Z.gcd_divide_r.
    + apply Z.divide_1_r_nonneg; [apply Z.gcd_nonneg|]. rewrite <- M. apply Z.gcd_greatest; [apply Z.gcd_divide_l|]. apply Z.divide_mul_r, Z.gcd_divide_r.
Qed.
Lemma product_exponent l k : Forall (fun x => prime (fst x) /\ 1 <= snd x) l -> StronglySorted Z.lt (map fst l) -> 1 <= k ->
  (is_exponent (ppower_product l) k <-> Forall (fun x => (carmichael_of_ppower x | k)) l).
Proof.
  intros F S K. revert S. induction F as [|(p, e) l (Hp & He) F IH]; intros S.
  - rewrite ppower_nil. split; [constructor|]. intros _ m _. now rewrite !Z.mod_1_r.
  - cbn [map fst] in S. assert (NI := ssorted_notin _ _ S). inversion S as [|? ? S' _]; subst. cbn [fst snd] in *. rewrite ppower_cons, Forall_cons_iff.
    rewrite exponent_mul; [|apply Z.pow_pos_nonneg; apply prime_ge_2 in Hp; lia|now apply ppower_pos|now apply coprime_pp]. rewrite (pp_exponent p e k) by auto. rewrite (IH S'). reflexivity.
Qed.

(** ** the loop of carmichael_of_factorized *)
Lemma car_fold fuel t : forall r, fold_left (fun acc f => do result <- acc; lcm fuel [result; carmichael_of_ppower f]) t r =
  fold_left (fun acc y => do a <- acc; lcm2 fuel a y) (map carmichael_of_ppower t) r.
Proof. induction t as [|f t IH]; intros r; cbn [fold_left map]; [reflexivity|]. rewrite IH. reflexivity. Qed.
Lemma car_spec l : Forall (fun x => prime (fst x) /\ 1 <= snd x) l -> exists fuel0 v, 1 <= v /\
  (forall fuel, (fuel0 <= fuel)%nat -> carmichael_of_factorized fuel l = Ok v) /\ forall k, (v | k) <-> Forall (fun x => (carmichael_of_ppower x | k)) l.
Proof.
  intros F. destruct F as [|(p, e) l (Hp & He) F].
  { exists 0%nat, 1. split; [lia|]. split; [reflexivity|]. intros k. split; [constructor|intros _; apply Z.divide_1_l]. }
  cbn [fst snd] in *. set (x := carmichael_of_ppower (p, e)). set (t := map carmichael_of_ppower l).
  assert (PT : Forall (fun y => 0 < y) t). { apply Forall_map. eapply Forall_impl; [|exact F]. intros (q, d) (A & B). cbn [fst snd] in *. assert (C := cp_pos q d A B). lia. }
  assert (PX : 0 < x) by (assert (C := cp_pos p e Hp He); unfold x; lia).
  exists (steps (x * fold_right Z.mul 1 t)), (fold_left Z.lcm t x). split; [clearbody x t|split].
  - assert (C : 0 <= fold_left Z.lcm t x). { clear - PX. assert (X : 0 <= x) by lia. clear PX. revert x X. induction t as [|y t IH]; intros x X; cbn [fold_left]; [exact X|]. apply IH. apply Z.lcm_nonneg. }
    assert (N : fold_left Z.lcm t x <> 0); [|lia]. intros E. assert (D : (fold_left Z.lcm t x | x * fold_right Z.mul 1 t)).
    { apply fold_lcm_least. split; [apply Z.divide_factor_l|]. clear. apply Forall_forall. intros y Y. apply Z.divide_mul_r. induction t as [|z t IH]; [destruct Y|]. cbn [fold_right].
      destruct Y as [->|Y]; [apply Z.divide_factor_l|]. now apply Z.divide_mul_r, IH. }
    rewrite E in D. apply Z.divide_0_l in D. assert (0 < fold_right Z.mul 1 t); [|nia]. clear - PT. induction PT; cbn [fold_right]; nia.
  - intros fuel L. cbn [carmichael_of_factorized]. rewrite car_fold. now apply lcm_fold.
  - intros k. rewrite fold_lcm_least, Forall_cons_iff. unfold t. rewrite Forall_map. reflexivity.
Qed.
Lemma c54_carmichael : forall n_bits n, 1 <= n -> is_prime_exact n_bits n -> exists fuel0 v,
  (forall fuel, (fuel0 <= fuel)%nat -> carmichael n_bits fuel n = Ok v) /\ least_exponent n v /\ forall k, 1 <= k -> (is_exponent n k <-> (v | k)).
Proof.
  intros nb n N EX.
  assert (X : exists fuel0 l, (forall fuel, (fuel0 <= fuel)%nat -> factorization nb fuel n = Ok l) /\ prime_factors n l).
  { destruct (Z.eq_dec n 1) as [->|]; [|apply c52_exact; auto; lia]. exists 0%nat, []. split; [reflexivity|]. split; [reflexivity|]. split; constructor. }
  destruct X as (f0 & l & E & P & S & F). destruct (car_spec l F) as (f1 & v & V & EV & DV). exists (f0 + f1)%nat, v.
  assert (IFF : forall k, 1 <= k -> (is_exponent n k <-> (v | k))). { intros k K. rewrite <- P, product_exponent, DV by auto. reflexivity. }
  split; [|split; [|exact IFF]].
  - intros fuel L. unfold carmichael. rewrite E by lia. cbn [bind]. apply EV. lia.
  - split; [exact V|]. split; [apply IFF; [lia|reflexivity]|]. intros j J H. apply IFF in H; [|exact J]. apply Z.divide_pos_le in H; lia.
Qed.
Lemma c54_small : forall n_bits n, 1 <= n < 1231 * 1231 -> exists fuel0 v,
  (forall fuel, (fuel0 <= fuel)%nat -> carmichael n_bits fuel n = Ok v) /\ least_exponent n v /\ forall k, 1 <= k -> (is_exponent n k <-> (v | k)).
Proof. intros nb n N. apply c54_carmichael; [lia|]. intros q D Q _. apply Z.divide_pos_le in D; lia. Qed.
Lemma c54_factorized : forall l, Forall (fun x => prime (fst x) /\ 1 <= snd x) l -> StronglySorted Z.lt (map fst l) -> exists fuel0 v,
  (forall fuel, (fuel0 <= fuel)%nat -> carmichael_of_factorized fuel l = Ok v) /\ least_exponent (ppower_product l) v.
Proof.
  intros l F S. destruct (car_spec l F) as (f1 & v & V & EV & DV). exists f1, v. split; [exact EV|].
  assert (IFF : forall k, 1 <= k -> (is_exponent (ppower_product l) k <-> (v | k))). { intros k K. rewrite product_exponent, DV by auto. reflexivity. }
  split; [exact V|]. split; [apply IFF; [lia|reflexivity]|]. intros j J H. apply IFF in H; [|exact J]. apply Z.divide_pos_le in H; lia.
Qed.
