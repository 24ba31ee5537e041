(** Short Weierstrass curves y^2 = x^3 + a x + b over the integers modulo p, textbook
    definitions.  [None] is the point at infinity; coordinates are reduced. *)
From Coq Require Import ZArith List Znumtheory.
Import ListNotations.
Local Open Scope Z_scope.

Definition ecpoint := option (Z * Z).
Definition on_ec (p a b : Z) (P : ecpoint) : Prop :=
  match P with
  | None => True
  | Some (x, y) => 0 <= x < p /\ 0 <= y < p /\ (y * y - (x * x * x + a * x + b)) mod p = 0
  end.
Definition nonsingular (p a b : Z) : Prop := (4 * a ^ 3 + 27 * b ^ 2) mod p <> 0.
Definition ec_neg (p : Z) (P : ecpoint) : ecpoint :=
  match P with None => None | Some (x, y) => Some (x, (- y) mod p) end.
(** the third point on the line of slope l through (x1, y1), (x2, y2), reflected *)
Definition third_point (p l x1 y1 x2 x3 y3 : Z) : Prop :=
  0 <= x3 < p /\ 0 <= y3 < p /\ (x3 - (l * l - x1 - x2)) mod p = 0 /\ (y3 - (l * (x1 - x3) - y1)) mod p = 0.
(** [ec_sum p a P Q R]: P + Q = R *)
Inductive ec_sum (p a : Z) : ecpoint -> ecpoint -> ecpoint -> Prop :=
| sum_zero_l Q : ec_sum p a None Q Q
| sum_zero_r P : ec_sum p a P None P
| sum_opposite P : ec_sum p a P (ec_neg p P) None
| sum_chord x1 y1 x2 y2 l x3 y3 : x1 <> x2 -> (l * (x2 - x1) - (y2 - y1)) mod p = 0 -> third_point p l x1 y1 x2 x3 y3 ->
    ec_sum p a (Some (x1, y1)) (Some (x2, y2)) (Some (x3, y3))
| sum_tangent x y l x3 y3 : y <> 0 -> (l * (2 * y) - (3 * x * x + a)) mod p = 0 -> third_point p l x y x x3 y3 ->
    ec_sum p a (Some (x, y)) (Some (x, y)) (Some (x3, y3)).
(** the k-fold sum *)
Inductive ec_multiple (p a : Z) (P : ecpoint) : nat -> ecpoint -> Prop :=
| mult_0 : ec_multiple p a P 0 None
| mult_S k R R' : ec_multiple p a P k R -> ec_sum p a R P R' -> ec_multiple p a P (S k) R'.
Definition ec_zmultiple (p a : Z) (P : ecpoint) (k : Z) (R : ecpoint) : Prop :=
  if 0 <=? k then ec_multiple p a P (Z.to_nat k) R else ec_multiple p a (ec_neg p P) (Z.to_nat (- k)) R.
(** n is the order of P *)
Definition ec_order (p a : Z) (P : ecpoint) (n : Z) : Prop :=
  1 <= n /\ ec_multiple p a P (Z.to_nat n) None /\ forall k, 1 <= k < n -> ~ ec_multiple p a P (Z.to_nat k) None.
