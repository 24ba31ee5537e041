(** Comparison of Python strings (by octets), and shorter strings first *)
From Coq Require Import ZArith List.
Import ListNotations.
Local Open Scope Z_scope.

Inductive str_lt : list Z -> list Z -> Prop :=
| lt_end y t : str_lt [] (y :: t)
| lt_here x y s t : x < y -> str_lt (x :: s) (y :: t)
| lt_later x s t : str_lt s t -> str_lt (x :: s) (x :: t).
Definition shortlex (s t : list Z) : Prop := (length s < length t)%nat \/ (length s = length t /\ str_lt s t).
