(** Properties of the digits of pi (fmath/pi.py). *)
From Coq Require Import ZArith List Bool Reals.
From Verif Require Import Model.Py Model.Pi Proofs.PiFacts.
Import ListNotations.
Local Open Scope Z_scope.

(** C79 *)
Theorem C79_digits : forall d, 1 <= d <= 50000 -> exists n m, pi (Some d) = Ok (n, m) /\ 0 < m /\ Z.gcd n m = 1 /\
  exists z, (IZR z <= PI * IZR (10 ^ d) < IZR z + 1)%R /\ n * 10 ^ d = z * m.
Proof. exact c79_digits. Qed.
Print Assumptions C79_digits.

Theorem C79_truncation : forall d e n m n' m', 1 <= d <= e -> e <= 50000 -> pi (Some d) = Ok (n, m) -> pi (Some e) = Ok (n', m') ->
  n * 10 ^ d = n' * 10 ^ d / m' * m.
Proof. exact c79_truncation. Qed.
Print Assumptions C79_truncation.

Theorem C79_default : pi None = pi (Some 50000) /\ pi (Some 0) = pi (Some 50000).
Proof. exact c79_default. Qed.
Print Assumptions C79_default.

Theorem C79_zero_refuted : exists n m, pi (Some 0) = Ok (n, m) /\ 0 < m /\ n <> 3 * m /\ 31 * m <= 10 * n.
Proof. exact c79_zero_refuted. Qed.
Print Assumptions C79_zero_refuted.

Theorem C79_large : forall d, 50000 < d -> pi (Some d) = Raise AssertionError.
Proof. exact c79_large. Qed.
Print Assumptions C79_large.

Theorem C79_negative : forall d, d < 0 ->
  pi (Some d) = Raise (if (d <=? -3) && (-50001 <=? d) then TypeError else ValueError).
Proof. exact c79_negative. Qed.
Print Assumptions C79_negative.


Example C79_example : pi (Some 6) = Ok (392699, 125000) /\ pi (Some 2) = Ok (157, 50) /\ pi (Some (-1)) = Raise ValueError /\ 392699 * 10 ^ 2 / 125000 = 314.
Proof. repeat split; vm_compute; reflexivity. Qed.
