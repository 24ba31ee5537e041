(** Decimal numerals as octets *)
From Coq Require Import ZArith List.
From Verif Require Import Spec.EncodingSpec.
Import ListNotations.
Local Open Scope Z_scope.

Definition digit (c : Z) : Prop := 48 <= c <= 57.
(** s is the shortest numeral of the natural number n *)
Definition numeral (n : Z) (s : list Z) : Prop :=
  Forall digit s /\ s <> [] /\ be_value 10 (map (fun c => c - 48) s) = n /\ (s = [48] \/ hd 48 s <> 48).
Definition decimal (z : Z) (s : list Z) : Prop :=
  (0 <= z /\ numeral z s) \/ (z < 0 /\ exists t, s = 45 :: t /\ numeral (- z) t).
