(** Factorisation, Euler's and Carmichael's functions, orders (C52-C56).

    [is_prime_exact n_bits n] (Proofs/Factor.v) says that is_prime accepts no composite divisor
    of n that is at least 1231 squared; it is void below that bound. *)
From Coq Require Import ZArith Znumtheory List Bool Sorted Lia.
From Verif Require Import Model.Py Model.NumberTheory Spec.NumberSpec Proofs.Factor Proofs.Carmichael Proofs.OrderFacts.
Import ListNotations.
Local Open Scope Z_scope.

(** C52 *)
Theorem C52_factorization : forall n_bits n, 2 <= n -> exists fuel0 l,
  (forall fuel, (fuel0 <= fuel)%nat -> factorization n_bits fuel n = Ok l) /\
  ppower_product l = n /\ StronglySorted Z.lt (map fst l) /\ Forall (fun x => 1 <= snd x) l /\
  Forall (fun x => prime (fst x) \/ 1231 * 1231 <= fst x /\ snd x = 1 /\ exists fuel1, forall fuel, (fuel1 <= fuel)%nat -> is_prime n_bits fuel (fst x) = Ok true) l.
Proof. exact c52_factorization. Qed.
Print Assumptions C52_factorization.

Theorem C52_exact : forall n_bits n, 2 <= n -> is_prime_exact n_bits n -> exists fuel0 l,
  (forall fuel, (fuel0 <= fuel)%nat -> factorization n_bits fuel n = Ok l) /\ prime_factors n l.
Proof. exact c52_exact. Qed.
Print Assumptions C52_exact.

Theorem C52_small : forall n_bits n, 2 <= n < 1231 * 1231 -> exists fuel0 l,
  (forall fuel, (fuel0 <= fuel)%nat -> factorization n_bits fuel n = Ok l) /\ prime_factors n l.
Proof. exact c52_small. Qed.
Print Assumptions C52_small.

Theorem C52_prime_factors_refuted : exists n, 2 <= n /\ ~ prime n /\ forall n_bits, 250 <= n_bits n < 300 ->
  exists fuel0, forall fuel, (fuel0 <= fuel)%nat -> factorization n_bits fuel n = Ok [(n, 1)].
Proof. exact c52_prime_factors_refuted. Qed.
Print Assumptions C52_prime_factors_refuted.


(** repeated small factors; a large prime cofactor; a product of two primes beyond the table *)
Example C52_example : factorization (fun _ => 20) 2000 720720 = Ok [(2, 4); (3, 2); (5, 1); (7, 1); (11, 1); (13, 1)] /\
  factorization (fun _ => 20) 3000 (4 * 1231) = Ok [(2, 2); (1231, 1)] /\ factorization (fun _ => 21) 3000 (1231 * 1237) = Ok [(1231, 1); (1237, 1)] /\
  factorization (fun _ => 21) 3000 (1231 * 1231) = Ok [(1231, 2)].
Proof. vm_compute. auto. Qed.

(** C53 *)
Theorem C53_phi : forall n_bits n, 1 <= n -> is_prime_exact n_bits n -> exists fuel0, forall fuel, (fuel0 <= fuel)%nat -> phi n_bits fuel n = Ok (totient n).
Proof. exact c53_phi. Qed.
Print Assumptions C53_phi.

Theorem C53_small : forall n_bits n, 1 <= n < 1231 * 1231 -> exists fuel0, forall fuel, (fuel0 <= fuel)%nat -> phi n_bits fuel n = Ok (totient n).
Proof. exact c53_small. Qed.
Print Assumptions C53_small.

Theorem C53_refuted : exists n, 1 <= n /\ forall n_bits, 250 <= n_bits n < 300 ->
  exists fuel0 v, (forall fuel, (fuel0 <= fuel)%nat -> phi n_bits fuel n = Ok v) /\ v <> totient n.
Proof. exact c53_refuted. Qed.
Print Assumptions C53_refuted.


Example C53_example : phi (fun _ => 20) 2000 36 = Ok 12 /\ totient 36 = 12 /\ phi (fun _ => 20) 2000 1000 = Ok 400 /\ totient 1000 = 400 /\ phi (fun _ => 0) 0 1 = Ok 1 /\ totient 1 = 1.
Proof. vm_compute. auto 10. Qed.

(** C54 *)
Theorem C54_carmichael : forall n_bits n, 1 <= n -> is_prime_exact n_bits n -> exists fuel0 v,
  (forall fuel, (fuel0 <= fuel)%nat -> carmichael n_bits fuel n = Ok v) /\ least_exponent n v /\ forall k, 1 <= k -> (is_exponent n k <-> (v | k)).
Proof. exact c54_carmichael. Qed.
Print Assumptions C54_carmichael.

Theorem C54_small : forall n_bits n, 1 <= n < 1231 * 1231 -> exists fuel0 v,
  (forall fuel, (fuel0 <= fuel)%nat -> carmichael n_bits fuel n = Ok v) /\ least_exponent n v /\ forall k, 1 <= k -> (is_exponent n k <-> (v | k)).
Proof. exact c54_small. Qed.
Print Assumptions C54_small.

Theorem C54_factorized : forall l, Forall (fun x => prime (fst x) /\ 1 <= snd x) l -> StronglySorted Z.lt (map fst l) -> exists fuel0 v,
  (forall fuel, (fuel0 <= fuel)%nat -> carmichael_of_factorized fuel l = Ok v) /\ least_exponent (ppower_product l) v.
Proof. exact c54_factorized. Qed.
Print Assumptions C54_factorized.


(** 8: exponent 2 although phi is 4; 561 = 3 * 11 * 17 is a Carmichael number *)
Example C54_example : carmichael (fun _ => 20) 2000 8 = Ok 2 /\ carmichael (fun _ => 20) 2000 561 = Ok 80 /\ carmichael (fun _ => 20) 2000 1 = Ok 1 /\
  carmichael_of_factorized 100 [(2, 4); (3, 2); (5, 1)] = Ok 12 /\ ppower_product [(2, 4); (3, 2); (5, 1)] = 720.
Proof. vm_compute. auto. Qed.

(** C55 *)
Theorem C55_order : forall x m, 2 <= m -> 0 <= x -> Z.gcd x m = 1 -> (x = 1 \/ x mod m <> 1) ->
  exists fuel0 k, (forall fuel, (fuel0 <= fuel)%nat -> order_mod fuel x m = Ok k) /\ is_order x m k.
Proof. exact c55_order. Qed.
Print Assumptions C55_order.

Theorem C55_unreduced : forall x m, 2 <= m -> 1 < x -> x mod m = 1 ->
  exists fuel0, forall fuel, (fuel0 <= fuel)%nat -> order_mod fuel x m = Ok 2.
Proof. exact c55_unreduced. Qed.
Print Assumptions C55_unreduced.

Theorem C55_order_refuted : exists x m, 2 <= m /\ 0 <= x /\ Z.gcd x m = 1 /\ exists fuel0, forall fuel, (fuel0 <= fuel)%nat ->
  exists k, order_mod fuel x m = Ok k /\ ~ is_order x m k.
Proof. exact c55_order_refuted. Qed.
Print Assumptions C55_order_refuted.

Theorem C55_refused : forall x m, 2 <= m -> x < 0 \/ Z.gcd x m <> 1 -> exists fuel0, forall fuel, (fuel0 <= fuel)%nat -> order_mod fuel x m = Raise AssertionError.
Proof. exact c55_refused. Qed.
Print Assumptions C55_refused.

Theorem C55_trivial_modulus : forall x m fuel, m <= 1 -> order_mod fuel x m = Ok 0.
Proof. exact c55_trivial_modulus. Qed.
Print Assumptions C55_trivial_modulus.


Example C55_example : order_mod 100 2 11 = Ok 10 /\ order_mod 100 10 7 = Ok 6 /\ order_mod 100 8 7 = Ok 2 /\ order_mod 100 6 9 = Raise AssertionError /\ order_mod 100 (-2) 9 = Raise AssertionError.
Proof. vm_compute. auto. Qed.

(** C56 *)
Theorem C56_largest : forall a b, 1 <= a -> 0 <= b -> exists fuel0 r,
  (forall fuel, (fuel0 <= fuel)%nat -> largest_factor_relatively_prime fuel a b = Ok r) /\ largest_coprime_divisor a b r.
Proof. exact c56_largest. Qed.
Print Assumptions C56_largest.

Theorem C56_zero_diverges : forall b fuel, 2 <= b -> largest_factor_relatively_prime fuel 0 b = Raise OutOfFuel.
Proof. exact c56_zero_diverges. Qed.
Print Assumptions C56_zero_diverges.

Theorem C56_zero_refuted : exists a b, 0 <= a /\ 0 <= b /\ forall fuel r, largest_factor_relatively_prime fuel a b <> Ok r.
Proof. exact c56_zero_refuted. Qed.
Print Assumptions C56_zero_refuted.

Theorem C56_kinda_order : forall x m, 1 <= x -> 2 <= m -> exists fuel0 f k, (forall fuel, (fuel0 <= fuel)%nat -> kinda_order_mod fuel x m = Ok k) /\
  largest_coprime_divisor m x f /\ (f = 1 -> k = 0) /\ (1 < f -> x = 1 \/ x mod f <> 1 -> is_order x f k) /\ (1 < f -> 1 < x -> x mod f = 1 -> k = 2).
Proof. exact c56_kinda_order. Qed.
Print Assumptions C56_kinda_order.


Example C56_example : largest_factor_relatively_prime 100 360 6 = Ok 5 /\ largest_factor_relatively_prime 100 360 7 = Ok 360 /\ kinda_order_mod 100 6 360 = Ok 2 /\ kinda_order_mod 100 2 88 = Ok 10.
Proof. vm_compute. auto. Qed.
