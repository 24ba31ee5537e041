(** Square roots modulo a prime and Legendre symbols (C45-C48). *)
From Coq Require Import ZArith Znumtheory List Bool Lia.
From Verif Require Import Model.Py Model.NumberTheory Spec.NumberSpec Proofs.SqrtFacts.
Import ListNotations.
Local Open Scope Z_scope.

(** C45 *)
Theorem C45_square_root : forall p a maxlist, prime p -> 0 <= a < p -> p mod 8 <> 1 \/ p - 2 <= maxlist ->
  exists fuel0, forall fuel, (fuel0 <= fuel)%nat ->
  (square_mod a p -> exists r, square_root_mod_prime maxlist fuel a p = Ok r /\ 0 <= r < p /\ (r * r - a) mod p = 0) /\
  (~ square_mod a p -> square_root_mod_prime maxlist fuel a p = Raise SquareRootError).
Proof. exact c45_square_root. Qed.
Print Assumptions C45_square_root.


(** one case for each branch: p = 3 mod 4, p = 5 mod 8 (both), p = 1 mod 8 and non-squares *)
Example C45_example : square_root_mod_prime 0 100 2 23 = Ok 18 /\ square_root_mod_prime 0 100 3 13 = Ok 9 /\ square_root_mod_prime 0 100 4 13 = Ok 11 /\
  square_root_mod_prime 1000 100 10 41 = Ok 16 /\ square_root_mod_prime 1000 100 3 17 = Raise SquareRootError /\
  (18 * 18 - 2) mod 23 = 0 /\ (9 * 9 - 3) mod 13 = 0 /\ (11 * 11 - 4) mod 13 = 0 /\ (16 * 16 - 10) mod 41 = 0.
Proof. vm_compute. auto 20. Qed.

(** C46 *)
Theorem C46_overflow : forall p a maxlist, prime p -> p mod 8 = 1 -> maxlist < p - 2 -> 0 < a < p -> square_mod a p ->
  exists fuel0, forall fuel, (fuel0 <= fuel)%nat -> square_root_mod_prime maxlist fuel a p = Raise OverflowError.
Proof. exact c46_overflow. Qed.
Print Assumptions C46_overflow.

Theorem C46_p224_refuted : exists p a, p = 0xffffffffffffffffffffffffffffffff000000000000000000000001 /\ prime p /\ 0 <= a < p /\ square_mod a p /\
  forall maxlist, maxlist <= 2 ^ 64 -> exists fuel0, forall fuel, (fuel0 <= fuel)%nat -> square_root_mod_prime maxlist fuel a p = Raise OverflowError.
Proof. exact c46_p224_refuted. Qed.
Print Assumptions C46_p224_refuted.


Example C46_example : square_root_mod_prime 10 100 2 17 = Raise OverflowError /\ (6 * 6 - 2) mod 17 = 0.
Proof. vm_compute. auto. Qed.

(** C47 *)
Theorem C47_modular_sqrt : forall p a, prime p -> p mod 2 = 1 ->
  exists fuel0, forall fuel, (fuel0 <= fuel)%nat ->
  exists r, modular_sqrt fuel a p = Ok r /\ 0 <= r < p /\ (square_mod a p -> (r * r - a) mod p = 0) /\ (~ square_mod a p -> r = 0).
Proof. exact c47_modular_sqrt. Qed.
Print Assumptions C47_modular_sqrt.

Theorem C47_even_prime_refuted : exists p a r, prime p /\ square_mod a p /\ (forall fuel, modular_sqrt fuel a p = Ok r) /\ (r * r - a) mod p <> 0.
Proof. exact c47_even_prime_refuted. Qed.
Print Assumptions C47_even_prime_refuted.

(** for the prime 2 the value is always 0 *)
Theorem C47_two : forall fuel a, modular_sqrt fuel a 2 = Ok 0.
Proof. exact c47_two. Qed.
Print Assumptions C47_two.


Example C47_example : modular_sqrt 100 (-31) 41 = Ok 16 /\ (16 * 16 - -31) mod 41 = 0 /\ modular_sqrt 100 6 97 = Ok 54 /\ (54 * 54 - 6) mod 97 = 0 /\
  modular_sqrt 100 5 97 = Ok 0.
Proof. vm_compute. auto 10. Qed.

(** C48 *)
Theorem C48_legendre : forall p a, prime p -> p mod 2 = 1 -> exists s, legendre_symbol a p = Ok s /\ legendre a p s.
Proof. exact c48_legendre. Qed.
Print Assumptions C48_legendre.

Theorem C48_two_refuted : exists a s, legendre_symbol a 2 = Ok s /\ square_mod a 2 /\ s = -1.
Proof. exact c48_two_refuted. Qed.
Print Assumptions C48_two_refuted.


Example C48_example : legendre_symbol 6 97 = Ok 1 /\ legendre_symbol (-92) 97 = Ok (-1) /\ legendre_symbol 194 97 = Ok 0.
Proof. vm_compute. auto. Qed.
