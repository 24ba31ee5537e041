(** Nonlinearity of Boolean functions (C100) *)
From Coq Require Import ZArith List Lia Bool.
From Verif Require Import Model.Py Model.Analysis Spec.AnalysisSpec Proofs.BooleanFacts.
Import ListNotations.
Local Open Scope Z_scope.

(** C100: nonLinearity is 0 exactly for the affine functions *)
Theorem C100_affine : forall n t, (1 <= n)%nat -> truth_table n t ->
  (nonLinearity_x2 t = Ok 0 <-> exists c w, 0 <= w < 2 ^ Z.of_nat n /\ forall x, 0 <= x < 2 ^ Z.of_nat n -> value t x = affine n c w x).
Proof. exact c100_affine. Qed.
Print Assumptions C100_affine.

(** x0 + x1 + 1, and x0 x1 *)
Example C100_affine_example : nonLinearity_x2 [1; 0; 0; 1] = Ok 0 /\ nonLinearity_x2 [0; 0; 0; 1] = Ok 2.
Proof. repeat split; vm_compute; reflexivity. Qed.

(** the first Walsh coefficient counts the ones of the table *)
Theorem C100_balanced : forall n t l, truth_table n t -> walshTransform t = Ok l ->
  nth 0 l 0 = 2 ^ Z.of_nat n - 2 * count_below (2 ^ n) (value t).
Proof. exact c100_balanced. Qed.
Print Assumptions C100_balanced.

Example C100_balanced_example : walshTransform [0; 0; 0; 1] = Ok [2; 2; 2; -2] /\ walshTransform [0; 1; 1; 0] = Ok [0; 0; 0; 4].
Proof. repeat split; vm_compute; reflexivity. Qed.

(** adding an affine function, or a constant to the argument, leaves nonLinearity unchanged *)
Theorem C100_add_affine : forall n t t' c w, (1 <= n)%nat -> truth_table n t -> truth_table n t' -> 0 <= w < 2 ^ Z.of_nat n ->
  (forall x, 0 <= x < 2 ^ Z.of_nat n -> value t' x = xorb (value t x) (affine n c w x)) -> nonLinearity_x2 t' = nonLinearity_x2 t.
Proof. exact c100_add_affine. Qed.
Print Assumptions C100_add_affine.

Example C100_add_affine_example : nonLinearity_x2 [0; 0; 0; 1; 0; 0; 1; 0] = Ok 4 /\ nonLinearity_x2 [1; 0; 1; 1; 1; 0; 0; 0] = Ok 4.
Proof. repeat split; vm_compute; reflexivity. Qed.

Theorem C100_shift : forall n t t' a, (1 <= n)%nat -> truth_table n t -> truth_table n t' -> 0 <= a < 2 ^ Z.of_nat n ->
  (forall x, 0 <= x < 2 ^ Z.of_nat n -> value t' x = value t (Z.lxor x a)) -> nonLinearity_x2 t' = nonLinearity_x2 t.
Proof. exact c100_shift. Qed.
Print Assumptions C100_shift.

Example C100_shift_example : nonLinearity_x2 [0; 0; 0; 1; 0; 0; 0; 0] = Ok 2 /\ nonLinearity_x2 [0; 1; 0; 0; 0; 0; 0; 0] = Ok 2.
Proof. repeat split; vm_compute; reflexivity. Qed.

(** every component of a bijective S-box is balanced *)
Theorem C100_permutation : forall n s c, is_permutation s -> length s = (2 ^ n)%nat -> 0 < c < 2 ^ Z.of_nat n ->
  exists l, walshTransform (component n s c) = Ok l /\ nth 0 l 1 = 0 /\ 2 * count_below (2 ^ n) (value (component n s c)) = 2 ^ Z.of_nat n.
Proof. exact c100_permutation. Qed.
Print Assumptions C100_permutation.

Example C100_permutation_example : component 2 [2; 0; 3; 1] 3 = [1; 0; 0; 1] /\ walshTransform [1; 0; 0; 1] = Ok [0; 0; 0; -4].
Proof. repeat split; vm_compute; reflexivity. Qed.
