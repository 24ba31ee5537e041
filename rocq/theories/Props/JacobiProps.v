(** The Jacobi symbol (C44). *)
From Coq Require Import ZArith Znumtheory List Bool Lia.
From Verif Require Import Model.Py Model.NumberTheory Spec.NumberSpec Proofs.Jacobi.
Import ListNotations.
Local Open Scope Z_scope.

(** C44 *)
Theorem C44_jacobi : forall a n, 3 <= n -> n mod 2 = 1 -> exists fuel0 s,
  (forall fuel, (fuel0 <= fuel)%nat -> jacobi fuel a n = Ok s) /\
  jacobi_symbol a n s /\ (forall s', jacobi_symbol a n s' -> s' = s) /\ (prime n -> legendre a n s).
Proof. exact c44_jacobi. Qed.
Print Assumptions C44_jacobi.

Theorem C44_bad_arguments : forall a n fuel, n < 3 \/ n mod 2 <> 1 -> jacobi (S fuel) a n = Raise AssertionError.
Proof. exact c44_bad_arguments. Qed.
Print Assumptions C44_bad_arguments.


Example C44_example : jacobi 100 1001 9907 = Ok (-1) /\ jacobi 100 (-5) 21 = Ok 1 /\ jacobi 100 19 45 = Ok 1 /\ jacobi 100 35 45 = Ok 0.
Proof. vm_compute. auto. Qed.
