(** Primality tests, prime tables and next_prime (C49-C51, C57, C58). *)
From Coq Require Import ZArith Znumtheory List Bool Sorted Lia.
From Verif Require Import Model.Py Model.PrimeTable Model.NumberTheory Spec.NumberSpec Proofs.PrimeFacts Proofs.RabinMiller Proofs.Pseudoprime.
Import ListNotations.
Local Open Scope Z_scope.

(** C49 *)
Theorem C49_is_prime : forall n_bits p, prime p -> exists fuel0, forall fuel, (fuel0 <= fuel)%nat -> is_prime n_bits fuel p = Ok true.
Proof. exact c49_is_prime. Qed.
Print Assumptions C49_is_prime.

Theorem C49_is_prime_defined : forall n_bits n, exists fuel0 b, forall fuel, (fuel0 <= fuel)%nat -> is_prime n_bits fuel n = Ok b.
Proof. exact c49_is_prime_defined. Qed.
Print Assumptions C49_is_prime_defined.

Theorem C49_is_prime_small : forall n_bits n, n <= 1229 -> exists b, (forall fuel, is_prime n_bits fuel n = Ok b) /\ (b = true <-> prime n).
Proof. exact c49_is_prime_small. Qed.
Print Assumptions C49_is_prime_small.

Theorem C49_fermat_little_test : forall p a, prime p -> ~ (p | a) -> fermat_little_test p a = Ok 1.
Proof. exact c49_fermat_little_test. Qed.
Print Assumptions C49_fermat_little_test.

Theorem C49_rabin_miller : forall p a, prime p -> 1 <= a <= p - 1 -> exists fuel0, forall fuel, (fuel0 <= fuel)%nat -> rabin_miller fuel p a = Ok 1.
Proof. exact c49_rabin_miller. Qed.
Print Assumptions C49_rabin_miller.


(** a prime beyond the table, a composite, bases at both ends of the range *)
Example C49_example : is_prime (fun _ => 21) 2000 1299709 = Ok true /\ is_prime (fun _ => 21) 2000 1299711 = Ok false /\ is_prime (fun _ => 0) 0 1229 = Ok true /\
  is_prime (fun _ => 0) 0 1227 = Ok false /\ rabin_miller 2000 1009 1008 = Ok 1 /\ rabin_miller 2000 1009 2 = Ok 1 /\ fermat_little_test 1009 (-5) = Ok 1 /\ fermat_little_test 15 2 = Ok 0.
Proof. vm_compute. auto 20. Qed.

(** C50 *)
Theorem C50_is_prime_refuted : exists n, 2 ^ 255 <= n < 2 ^ 256 /\ ~ prime n /\
  forall n_bits, 250 <= n_bits n < 300 -> exists fuel0, forall fuel, (fuel0 <= fuel)%nat -> is_prime n_bits fuel n = Ok true.
Proof. exact c50_is_prime_refuted. Qed.
Print Assumptions C50_is_prime_refuted.

Theorem C50_criterion : forall n_bits n, 1229 < n -> exists fuel0 b, (forall fuel, (fuel0 <= fuel)%nat -> is_prime n_bits fuel n = Ok b) /\
  (b = true <-> Z.gcd n 2310 = 1 /\ forall q, prime q -> q <= witness_limit (n_bits n) -> strong_probable_prime n q).
Proof. exact c50_criterion. Qed.
Print Assumptions C50_criterion.


(** 1387 = 19 * 73 has no factor up to 11 and is rejected by the witness 2; 2047 = 23 * 89
    passes for 2 but not for 3 *)
Example C50_example : is_prime (fun _ => 11) 50 2047 = Ok false /\ rabin_miller 50 2047 2 = Ok 1 /\ rabin_miller 50 2047 3 = Ok 0 /\ Z.gcd 2047 2310 = 1 /\ witness_limit 11 = 173.
Proof. vm_compute. auto 20. Qed.

(** C51 *)
Theorem C51_strong_test : forall n a, 2 < n -> n mod 2 = 1 -> 1 <= a <= n - 1 -> exists fuel0 v,
  (forall fuel, (fuel0 <= fuel)%nat -> rabin_miller fuel n a = Ok v) /\ (v = 0 \/ v = 1) /\ (v = 1 <-> strong_probable_prime n a).
Proof. exact c51_strong_test. Qed.
Print Assumptions C51_strong_test.

Theorem C51_quarter : forall n, 1 < n -> n mod 2 = 1 -> ~ prime n -> exists fuel0, forall fuel, (fuel0 <= fuel)%nat ->
  4 * Z.of_nat (length (filter (fun a => match rabin_miller fuel n a with Ok v => v =? 1 | _ => false end) (zrange n))) <= n - 1.
Proof. exact c51_quarter. Qed.
Print Assumptions C51_quarter.


(** 49 = 7 * 7: of the 48 bases only 6 are accepted; 9: the bound is attained *)
Example C51_example : length (filter (fun a => match rabin_miller 60 49 a with Ok v => v =? 1 | _ => false end) (zrange 49)) = 6%nat /\
  length (filter (fun a => match rabin_miller 60 9 a with Ok v => v =? 1 | _ => false end) (zrange 9)) = 2%nat /\ length (zrange 9) = 8%nat.
Proof. vm_compute. auto. Qed.

(** C57 *)
Theorem C57_next_prime : forall n_bits n, exists fuel0 r, (forall fuel, (fuel0 <= fuel)%nat -> next_prime n_bits fuel n = Ok r) /\
  n < r /\ (forall q, prime q -> n < q -> r <= q) /\
  (exists fuel1, forall fuel, (fuel1 <= fuel)%nat -> is_prime n_bits fuel r = Ok true) /\ (r <= 1229 -> prime r).
Proof. exact c57_next_prime. Qed.
Print Assumptions C57_next_prime.


Example C57_example : next_prime (fun _ => 11) 100 1229 = Ok 1231 /\ next_prime (fun _ => 11) 100 113 = Ok 127 /\ next_prime (fun _ => 0) 100 (-7) = Ok 2 /\ next_prime (fun _ => 0) 100 2 = Ok 3.
Proof. vm_compute. auto. Qed.

(** C58 *)
Theorem C58_smallprimes : (forall n, In n smallprimes <-> prime n /\ n <= 1229) /\ StronglySorted Z.lt smallprimes.
Proof. exact c58_smallprimes. Qed.
Print Assumptions C58_smallprimes.

Theorem C58_primes_to_5k : (forall n, In n primes_to_5k <-> prime n /\ n < 5000) /\ StronglySorted Z.lt primes_to_5k.
Proof. exact c58_primes_to_5k. Qed.
Print Assumptions C58_primes_to_5k.


Example C58_example : length smallprimes = 201%nat /\ length primes_to_5k = 669%nat /\ In 1223 smallprimes /\ ~ In 1225 smallprimes /\ In 4999 primes_to_5k.
Proof.
  split; [reflexivity|]. split; [reflexivity|]. repeat split.
  - apply (existsb_in 1223). vm_compute. reflexivity.
  - rewrite <- (existsb_in 1225). vm_compute. discriminate.
  - apply (existsb_in 4999). vm_compute. reflexivity.
Qed.
