(** Laws of the Jacobi symbol and of orders (C99) *)
From Coq Require Import ZArith List Lia Bool.
From Verif Require Import Model.Py Model.NumberTheory Spec.NumberSpec Proofs.Factor Proofs.NumberLaws.
Import ListNotations.
Local Open Scope Z_scope.

(** C99: jacobi is multiplicative in both arguments *)
Theorem C99_multiplicative : forall a b n, 3 <= n -> n mod 2 = 1 -> exists fuel0, forall fuel, (fuel0 <= fuel)%nat ->
  exists s t, jacobi fuel a n = Ok s /\ jacobi fuel b n = Ok t /\ jacobi fuel (a * b) n = Ok (s * t).
Proof. exact c99_multiplicative. Qed.
Print Assumptions C99_multiplicative.

Example C99_multiplicative_example : jacobi 50 2 21 = Ok (-1) /\ jacobi 50 (-5) 21 = Ok 1 /\ jacobi 50 (-10) 21 = Ok (-1).
Proof. repeat split; vm_compute; reflexivity. Qed.

Theorem C99_modulus : forall a m n, 3 <= m -> 3 <= n -> m mod 2 = 1 -> n mod 2 = 1 -> exists fuel0, forall fuel, (fuel0 <= fuel)%nat ->
  exists s t, jacobi fuel a m = Ok s /\ jacobi fuel a n = Ok t /\ jacobi fuel a (m * n) = Ok (s * t).
Proof. exact c99_modulus. Qed.
Print Assumptions C99_modulus.

Example C99_modulus_example : jacobi 50 2 3 = Ok (-1) /\ jacobi 50 2 7 = Ok 1 /\ jacobi 50 2 21 = Ok (-1).
Proof. repeat split; vm_compute; reflexivity. Qed.

Theorem C99_periodic : forall a b n, 3 <= n -> n mod 2 = 1 -> (n | a - b) -> exists fuel0, forall fuel, (fuel0 <= fuel)%nat -> jacobi fuel a n = jacobi fuel b n.
Proof. exact c99_periodic. Qed.
Print Assumptions C99_periodic.

Example C99_periodic_example : jacobi 50 (2 - 3 * 21) 21 = Ok (-1) /\ jacobi 50 2 21 = Ok (-1).
Proof. repeat split; vm_compute; reflexivity. Qed.

(** 0 exactly for arguments with a common factor *)
Theorem C99_coprime : forall a n, 3 <= n -> n mod 2 = 1 -> exists fuel0 s, (forall fuel, (fuel0 <= fuel)%nat -> jacobi fuel a n = Ok s) /\
  (s = 0 \/ s = 1 \/ s = -1) /\ (s = 0 <-> Z.gcd a n <> 1).
Proof. exact c99_coprime. Qed.
Print Assumptions C99_coprime.

Example C99_coprime_example : jacobi 50 14 21 = Ok 0 /\ jacobi 50 0 21 = Ok 0 /\ jacobi 50 20 21 = Ok 1.
Proof. repeat split; vm_compute; reflexivity. Qed.

(** the law of quadratic reciprocity and its supplements *)
Theorem C99_reciprocity : forall m n, 3 <= m -> 3 <= n -> m mod 2 = 1 -> n mod 2 = 1 -> exists fuel0, forall fuel, (fuel0 <= fuel)%nat ->
  exists s, jacobi fuel n m = Ok s /\ jacobi fuel m n = Ok (if (m mod 4 =? 3) && (n mod 4 =? 3) then - s else s).
Proof. exact c99_reciprocity. Qed.
Print Assumptions C99_reciprocity.

Example C99_reciprocity_example : jacobi 50 15 19 = Ok (-1) /\ jacobi 50 19 15 = Ok 1 /\ jacobi 50 15 17 = Ok 1 /\ jacobi 50 17 15 = Ok 1.
Proof. repeat split; vm_compute; reflexivity. Qed.

Theorem C99_supplements : forall n, 3 <= n -> n mod 2 = 1 -> exists fuel0, forall fuel, (fuel0 <= fuel)%nat ->
  jacobi fuel (-1) n = Ok (if n mod 4 =? 3 then -1 else 1) /\ jacobi fuel 2 n = Ok (if (n mod 8 =? 1) || (n mod 8 =? 7) then 1 else -1).
Proof. exact c99_supplements. Qed.
Print Assumptions C99_supplements.

Example C99_supplements_example : jacobi 50 (-1) 15 = Ok (-1) /\ jacobi 50 2 15 = Ok 1 /\ jacobi 50 (-1) 21 = Ok 1 /\ jacobi 50 2 21 = Ok (-1).
Proof. repeat split; vm_compute; reflexivity. Qed.

(** the order of x divides the value of carmichael, which divides the value of phi *)
Theorem C99_orders : forall n_bits x m, 2 <= m -> is_prime_exact n_bits m -> 0 <= x -> Z.gcd x m = 1 -> x = 1 \/ x mod m <> 1 ->
  exists fuel0 k v f, (forall fuel, (fuel0 <= fuel)%nat -> order_mod fuel x m = Ok k /\ carmichael n_bits fuel m = Ok v /\ phi n_bits fuel m = Ok f) /\ (k | v) /\ (v | f).
Proof. exact c99_orders. Qed.
Print Assumptions C99_orders.

Theorem C99_orders_small : forall n_bits x m, 2 <= m < 1231 * 1231 -> 0 <= x -> Z.gcd x m = 1 -> x = 1 \/ x mod m <> 1 ->
  exists fuel0 k v f, (forall fuel, (fuel0 <= fuel)%nat -> order_mod fuel x m = Ok k /\ carmichael n_bits fuel m = Ok v /\ phi n_bits fuel m = Ok f) /\ (k | v) /\ (v | f).
Proof. exact c99_orders_small. Qed.
Print Assumptions C99_orders_small.

Example C99_orders_example : order_mod 300 2 105 = Ok 12 /\ order_mod 300 4 105 = Ok 6 /\ carmichael (fun _ => 7) 300 105 = Ok 12 /\ phi (fun _ => 7) 300 105 = Ok 48.
Proof. repeat split; vm_compute; reflexivity. Qed.
