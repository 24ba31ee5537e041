(** Montgomery curves B y^2 = x^3 + a x^2 + x over the integers modulo p, textbook definitions.
    B = 1 is the curve of the package; with the other B every x belongs to a point. *)
From Coq Require Import ZArith.
From Verif Require Import Spec.CurveSpec.
Local Open Scope Z_scope.

Definition on_mg (p a B : Z) (P : ecpoint) : Prop :=
  match P with
  | None => True
  | Some (x, y) => 0 <= x < p /\ 0 <= y < p /\ (B * y * y - (x * x * x + a * x * x + x)) mod p = 0
  end.
Definition mg_third (p a B l x1 y1 x2 x3 y3 : Z) : Prop :=
  0 <= x3 < p /\ 0 <= y3 < p /\ (x3 - (B * l * l - a - x1 - x2)) mod p = 0 /\ (y3 - (l * (x1 - x3) - y1)) mod p = 0.
Inductive mg_sum (p a B : Z) : ecpoint -> ecpoint -> ecpoint -> Prop :=
| mgs_zero_l Q : mg_sum p a B None Q Q
| mgs_zero_r P : mg_sum p a B P None P
| mgs_opposite P : mg_sum p a B P (ec_neg p P) None
| mgs_chord x1 y1 x2 y2 l x3 y3 : x1 <> x2 -> (l * (x2 - x1) - (y2 - y1)) mod p = 0 -> mg_third p a B l x1 y1 x2 x3 y3 ->
    mg_sum p a B (Some (x1, y1)) (Some (x2, y2)) (Some (x3, y3))
| mgs_tangent x y l x3 y3 : y <> 0 -> (l * (2 * B * y) - (3 * x * x + 2 * a * x + 1)) mod p = 0 -> mg_third p a B l x y x x3 y3 ->
    mg_sum p a B (Some (x, y)) (Some (x, y)) (Some (x3, y3)).
Inductive mg_multiple (p a B : Z) (P : ecpoint) : nat -> ecpoint -> Prop :=
| mgm_0 : mg_multiple p a B P 0 None
| mgm_S k R R' : mg_multiple p a B P k R -> mg_sum p a B R P R' -> mg_multiple p a B P (S k) R'.
(** the x-coordinate, 0 for the point at infinity *)
Definition x_coord (P : ecpoint) : Z := match P with None => 0 | Some (x, _) => x end.
(** n is the order of P *)
Definition mg_order (p a B : Z) (P : ecpoint) (n : Z) : Prop :=
  1 <= n /\ mg_multiple p a B P (Z.to_nat n) None /\ forall k, 1 <= k < n -> ~ mg_multiple p a B P (Z.to_nat k) None.
