(** Which element of the curve group a point object stands for. *)
From Coq Require Import ZArith Znumtheory.
From Verif Require Import Model.Ecc Spec.CurveSpec.
Local Open Scope Z_scope.

(** points whose x is reduced and which satisfy the curve equation; y may be any representative,
    as negate returns -y *)
Definition valid (c : curve) (P : point) : Prop :=
  match P with
  | Inf => True
  | Aff x y => 0 <= x < c_p c /\ (y * y - (x * x * x + c_a c * x + c_b c)) mod c_p c = 0
  end.
Definition denotes (c : curve) (P : point) : ecpoint :=
  match P with Inf => None | Aff x y => Some (x, y mod c_p c) end.
(** an elliptic curve over a prime field of characteristic above 3 *)
Definition elliptic (c : curve) : Prop := prime (c_p c) /\ 3 < c_p c /\ nonsingular (c_p c) (c_a c) (c_b c).
