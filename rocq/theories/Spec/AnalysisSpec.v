(** Boolean functions of [n] variables, their Walsh transform, affine functions
    and orbits of permutations; independent of the program. *)
From Coq Require Import ZArith List Bool.
Import ListNotations.
Local Open Scope Z_scope.

(** the inner product over GF(2) of the low [n] bits of [a] and [b] *)
Fixpoint dot (n : nat) (a b : Z) : bool :=
  match n with
  | O => false
  | S n' => xorb (dot n' a b) (Z.testbit a (Z.of_nat n') && Z.testbit b (Z.of_nat n'))
  end.

(** the sum of [f x] over [0 <= x < N] *)
Definition sum_below (N : nat) (f : Z -> Z) : Z :=
  fold_right Z.add 0 (map (fun k => f (Z.of_nat k)) (seq 0 N)).

(** the number of [x] with [0 <= x < N] for which [p x] *)
Definition count_below (N : nat) (p : Z -> bool) : Z :=
  Z.of_nat (length (filter (fun k => p (Z.of_nat k)) (seq 0 N))).

(** a truth table of a function of [n] variables *)
Definition truth_table (n : nat) (t : list Z) : Prop :=
  length t = (2 ^ n)%nat /\ Forall (fun v => v = 0 \/ v = 1) t.

Definition value (t : list Z) (x : Z) : bool := nth (Z.to_nat x) t 0 =? 1.

Definition sign (b : bool) : Z := if b then -1 else 1.

(** agreements minus disagreements of the table with [w . x] *)
Definition correlation (n : nat) (t : list Z) (w : Z) : Z :=
  count_below (2 ^ n) (fun x => Bool.eqb (value t x) (dot n w x))
  - count_below (2 ^ n) (fun x => negb (Bool.eqb (value t x) (dot n w x))).

(** the affine function [c + w . x] *)
Definition affine (n : nat) (c : bool) (w x : Z) : bool := xorb c (dot n w x).

(** Hamming distance of the table to a function *)
Definition distance (n : nat) (t : list Z) (g : Z -> bool) : Z :=
  count_below (2 ^ n) (fun x => negb (Bool.eqb (value t x) (g x))).

(** [d] is the smallest distance of the table to an affine function *)
Definition affine_distance (n : nat) (t : list Z) (d : Z) : Prop :=
  (exists c w, 0 <= w < 2 ^ Z.of_nat n /\ distance n t (affine n c w) = d) /\
  (forall c w, 0 <= w < 2 ^ Z.of_nat n -> d <= distance n t (affine n c w)).

(** the table of the component function [c . S(x)] of an S-box [s] with [n]-bit
    inputs *)
Definition component (n : nat) (s : list Z) (c : Z) : list Z :=
  map (fun v => if dot n c v then 1 else 0) s.

(** [lo] and [hi] are the least and the greatest nonlinearity (distance to the
    affine functions) of the components of [s] with a non-zero mask *)
Definition nonlinearity_range (n : nat) (s : list Z) (lo hi : Z) : Prop :=
  (exists c, 0 < c < 2 ^ Z.of_nat n /\ affine_distance n (component n s c) lo) /\
  (exists c, 0 < c < 2 ^ Z.of_nat n /\ affine_distance n (component n s c) hi) /\
  (forall c d, 0 < c < 2 ^ Z.of_nat n -> affine_distance n (component n s c) d -> lo <= d <= hi).

(** [l] lists a permutation of [0 .. length l - 1] *)
Definition is_permutation (l : list Z) : Prop :=
  NoDup l /\ Forall (fun v => 0 <= v < Z.of_nat (length l)) l.

(** the [k]-th image of [x] *)
Fixpoint image (l : list Z) (k : nat) (x : Z) : Z :=
  match k with O => x | S k' => nth (Z.to_nat (image l k' x)) l 0 end.

(** [c] is the orbit of [x], in orbit order starting with [x] *)
Definition orbit_of (l : list Z) (x : Z) (c : list Z) : Prop :=
  c <> [] /\ image l (length c) x = x /\
  (forall k, (0 < k < length c)%nat -> image l k x <> x) /\
  (forall k, (k < length c)%nat -> nth k c 0 = image l k x).
