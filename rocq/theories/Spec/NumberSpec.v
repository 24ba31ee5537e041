(** Mathematical notions for the number-theory properties, stated on [Z] without
    reference to the code. *)
From Coq Require Import ZArith List Znumtheory Sorted.
Import ListNotations.
Local Open Scope Z_scope.

(** value of a polynomial given by its coefficients of increasing powers *)
Fixpoint peval (l : list Z) (x : Z) : Z :=
  match l with [] => 0 | c :: t => c + x * peval t x end.
(** integer polynomials r and e are congruent modulo (f, p): r = e + q f + p h.  Equality of
    integer polynomials is equality of their values at all integers. *)
Definition poly_congruent (f : list Z) (p : Z) (r : list Z) (e : Z -> Z) : Prop :=
  exists q h, forall x, peval r x = e x + peval q x * peval f x + p * peval h x.

(** squares modulo n *)
Definition square_mod (a n : Z) : Prop := exists x, (x * x - a) mod n = 0.
(** [legendre a p s]: s is the Legendre symbol of a at the odd prime p *)
Inductive legendre (a p : Z) : Z -> Prop :=
| leg_zero : a mod p = 0 -> legendre a p 0
| leg_one : a mod p <> 0 -> square_mod a p -> legendre a p 1
| leg_minus : a mod p <> 0 -> ~ square_mod a p -> legendre a p (-1).
Definition product (l : list Z) : Z := fold_right Z.mul 1 l.
(** [jacobi_symbol a n s]: s is the product of the Legendre symbols over a factorisation of n
    into primes *)
Definition jacobi_symbol (a n s : Z) : Prop :=
  exists ps ls, Forall prime ps /\ product ps = n /\ Forall2 (legendre a) ps ls /\ product ls = s.
(** k is the multiplicative order of x modulo m *)
Definition is_order (x m k : Z) : Prop :=
  1 <= k /\ x ^ k mod m = 1 mod m /\ forall j, 1 <= j < k -> x ^ j mod m <> 1 mod m.
(** number of 1 <= k <= n coprime to n *)
Definition totient (n : Z) : Z :=
  Z.of_nat (length (filter (fun k => Z.gcd (Z.of_nat k) n =? 1) (seq 1 (Z.to_nat n)))).
(** n is a strong probable prime to base a *)
Definition strong_probable_prime (n a : Z) : Prop :=
  exists s r, 0 <= s /\ 0 < r /\ r mod 2 = 1 /\ n - 1 = 2 ^ s * r /\
    (a ^ r mod n = 1 mod n \/ exists i, 0 <= i < s /\ a ^ (2 ^ i * r) mod n = (-1) mod n).
(** the number with the given list of factors and exponents *)
Definition ppower_product (l : list (Z * Z)) : Z := fold_right (fun f acc => fst f ^ snd f * acc) 1 l.
(** lambda is the exponent of the group of units modulo n: the least positive k with
    m^k = 1 modulo n for every m coprime to n *)
Definition is_exponent (n k : Z) : Prop := forall m, Z.gcd m n = 1 -> m ^ k mod n = 1 mod n.
Definition least_exponent (n k : Z) : Prop :=
  1 <= k /\ is_exponent n k /\ forall j, 1 <= j -> is_exponent n j -> k <= j.
(** the integers 1 .. n-1 *)
Definition zrange (n : Z) : list Z := map Z.of_nat (seq 1 (Z.to_nat (n - 1))).
(** the prime factorisation of n *)
Definition prime_factors (n : Z) (l : list (Z * Z)) : Prop :=
  ppower_product l = n /\ StronglySorted Z.lt (map fst l) /\ Forall (fun x => prime (fst x) /\ 1 <= snd x) l.
(** r is the largest divisor of a coprime to b *)
Definition largest_coprime_divisor (a b r : Z) : Prop := 0 < r /\ (r | a) /\ Z.gcd r b = 1 /\ forall c, (c | a) -> Z.gcd c b = 1 -> (c | r).
(** the largest prime witness used for a number of the given bit length: the 40th, 27th, 18th,
    ... prime (number of rounds from Menezes et al., Table 4.4) *)
Definition witness_limit (bits : Z) : Z :=
  if bits <? 100 then 173 else if bits <? 150 then 103 else if bits <? 200 then 61 else if bits <? 250 then 47 else
  if bits <? 300 then 37 else if bits <? 350 then 23 else if bits <? 400 then 19 else if bits <? 450 then 17 else
  if bits <? 550 then 13 else if bits <? 650 then 11 else if bits <? 850 then 7 else if bits <? 1300 then 5 else 3.
