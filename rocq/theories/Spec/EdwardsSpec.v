(** Twisted Edwards curves a x^2 + y^2 = 1 + d x^2 y^2 over the integers modulo p, textbook definitions. *)
From Coq Require Import ZArith.
Local Open Scope Z_scope.

Definition on_edwards (p a d x y : Z) : Prop := (a * x ^ 2 + y ^ 2 - (1 + d * x ^ 2 * y ^ 2)) mod p = 0.
(** the sum is defined where both denominators are invertible *)
Definition ed_defined (p d x1 y1 x2 y2 : Z) : Prop := (1 + d * x1 * x2 * y1 * y2) mod p <> 0 /\ (1 - d * x1 * x2 * y1 * y2) mod p <> 0.
Definition ed_sum (p a d x1 y1 x2 y2 x3 y3 : Z) : Prop :=
  0 <= x3 < p /\ 0 <= y3 < p /\
  (x3 * (1 + d * x1 * x2 * y1 * y2) - (x1 * y2 + y1 * x2)) mod p = 0 /\
  (y3 * (1 - d * x1 * x2 * y1 * y2) - (y1 * y2 - a * x1 * x2)) mod p = 0.
(** the k-fold sum of (x, y), starting from (0, 1) *)
Inductive ed_multiple (p a d x y : Z) : nat -> Z -> Z -> Prop :=
| edm_0 : ed_multiple p a d x y 0 0 1
| edm_S k x1 y1 x2 y2 : ed_multiple p a d x y k x1 y1 -> ed_defined p d x1 y1 x y -> ed_sum p a d x1 y1 x y x2 y2 -> ed_multiple p a d x y (S k) x2 y2.
(** n is the order of (x, y) *)
Definition ed_order (p a d x y n : Z) : Prop :=
  1 <= n /\ ed_multiple p a d x y (Z.to_nat n) 0 1 /\ forall k, 1 <= k < n -> ~ ed_multiple p a d x y (Z.to_nat k) 0 1.
