(** Operands of different objects and the order operators (C91-C93).  All three are findings: what is proved is what the operators do instead. *)
From Coq Require Import ZArith Znumtheory List Bool Lia.
From Verif Require Import Model.Py Model.GaloisField Model.Ecc Model.Compare Proofs.CompareFacts.
Local Open Scope Z_scope.

(** C91: the result lies in the field of the left operand, the value of the right one is taken as an integer, and == ignores the field *)
Theorem C91_result : forall p q a b, 0 < p ->
  let x := Element p (a mod p) in let y := Element q (b mod q) in
  el_new p a = Ok x /\
  el_add x y = Ok (Element p ((a + b mod q) mod p)) /\ el_sub x y = Ok (Element p ((a - b mod q) mod p)) /\ el_mul x y = Ok (Element p ((a * (b mod q)) mod p)) /\
  (cmp_eq (el_cmp x y) = true <-> a mod p = b mod q).
Proof. exact c91_result. Qed.
Print Assumptions C91_result.

Example C91_result_example : el_add (Element 7 (10 mod 7)) (Element 11 (20 mod 11)) = Ok (Element 7 5) /\ el_mul (Element 7 3) (Element 11 9) = Ok (Element 7 6) /\ el_mul (Element 11 9) (Element 7 3) = Ok (Element 11 5).
Proof. repeat split. Qed.

Theorem C91_division : forall p q a b, prime p -> (b mod q) mod p <> 0 -> 0 < q -> exists fuel0, forall fuel, (fuel0 <= fuel)%nat ->
  exists z, el_div fuel (Element p (a mod p)) (Element q (b mod q)) = Ok (Element p z) /\ 0 <= z < p /\ (z * (b mod q)) mod p = a mod p.
Proof. exact c91_division. Qed.
Print Assumptions C91_division.

Example C91_division_example : (20 mod 11) mod 7 <> 0 /\ el_div 20 (Element 7 (10 mod 7)) (Element 11 (20 mod 11)) = Ok (Element 7 5) /\ (5 * (20 mod 11)) mod 7 = 10 mod 7.
Proof. repeat split. discriminate. Qed.

(** the sums taken in the two orders are the same element only if the fields are *)
Theorem C91_sides : forall p q a b x y, 0 < p -> 0 < q -> el_add (Element p a) (Element q b) = Ok x -> el_add (Element q b) (Element p a) = Ok y -> (x = y <-> p = q).
Proof. exact c91_sides. Qed.
Print Assumptions C91_sides.

Example C91_sides_example : el_add (Element 7 3) (Element 11 9) = Ok (Element 7 5) /\ el_add (Element 11 9) (Element 7 3) = Ok (Element 11 1).
Proof. repeat split. Qed.

(** == is no congruence across fields: for any two fields there are elements x == y and z == w with x + z != y + w, and x + w != w + x *)
Theorem C91_refuted : forall p q, 1 < p < q -> exists x y z w x' y', el_new p (p - 1) = Ok x /\ el_new q (p - 1) = Ok y /\ el_new p 1 = Ok z /\ el_new q 1 = Ok w /\
  cmp_eq (el_cmp x y) = true /\ cmp_eq (el_cmp z w) = true /\ el_add x z = Ok x' /\ el_add y w = Ok y' /\ cmp_eq (el_cmp x' y') = false /\
  el_add x w = Ok x' /\ el_add w x = Ok y'.
Proof. exact c91_refuted. Qed.
Print Assumptions C91_refuted.

Example C91_refuted_example : el_add (Element 7 6) (Element 11 1) = Ok (Element 7 0) /\ el_add (Element 11 1) (Element 7 6) = Ok (Element 11 7) /\ cmp_eq (el_cmp (Element 7 6) (Element 11 6)) = true.
Proof. repeat split. Qed.

(** C92: < is never true, >= always, > is != and <= is == *)
Theorem C92_elements : forall x y, cmp_lt (el_cmp x y) = false /\ cmp_ge (el_cmp x y) = true /\ cmp_gt (el_cmp x y) = negb (cmp_eq (el_cmp x y)) /\ cmp_le (el_cmp x y) = cmp_eq (el_cmp x y) /\ cmp_gt (el_cmp x y) = cmp_gt (el_cmp y x).
Proof. exact c92_elements. Qed.
Print Assumptions C92_elements.

Theorem C92_points : forall x y, cmp_lt (op_cmp x y) = false /\ cmp_ge (op_cmp x y) = true /\ cmp_gt (op_cmp x y) = negb (cmp_eq (op_cmp x y)) /\ cmp_le (op_cmp x y) = cmp_eq (op_cmp x y) /\ cmp_gt (op_cmp x y) = cmp_gt (op_cmp y x).
Proof. exact c92_points. Qed.
Print Assumptions C92_points.

Theorem C92_refuted : exists x y, el_p x = el_p y /\ cmp_gt (el_cmp x y) = true /\ cmp_gt (el_cmp y x) = true.
Proof. exact c92_refuted. Qed.
Print Assumptions C92_refuted.

Example C92_example : cmp_gt (op_cmp (OPoint 0 (Aff 3 10)) (OPoint 0 (Aff 9 7))) = true /\ cmp_gt (op_cmp (OPoint 0 (Aff 9 7)) (OPoint 0 (Aff 3 10))) = true /\ cmp_le (op_cmp (OPoint 0 Inf) (OPoint 0 Inf)) = true.
Proof. repeat split. Qed.

(** C93: within one curve object the operators are the methods of the curve; between two objects, even of the same class, nothing works and the identities differ *)
Theorem C93_same : forall fuel curves o P Q k, let c := curves o in
  op_add fuel curves (OPoint o P) (OPoint o Q) = (do R <- add_points fuel c P Q; Ok (OPoint o R)) /\
  op_sub fuel curves (OPoint o P) (OPoint o Q) = (do R <- sub_points fuel c P Q; Ok (OPoint o R)) /\
  op_mul fuel curves (OPoint o P) k = (do R <- scalar_multiple fuel c P k; Ok (OPoint o R)).
Proof. exact c93_same. Qed.
Print Assumptions C93_same.

Theorem C93_equality : forall P Q, cmp_eq (op_cmp P Q) = true <-> P = Q.
Proof. exact op_eq. Qed.
Print Assumptions C93_equality.

Theorem C93_refuted : forall fuel curves o o' P Q, o <> o' ->
  op_add fuel curves (OPoint o P) (OPoint o' Q) = Raise AssertionError /\ cmp_eq (op_cmp (OPoint o P) (OPoint o' Q)) = false /\
  op_add fuel curves (OPoint o P) (op_identity o') = Raise AssertionError /\ cmp_eq (op_cmp (op_identity o) (op_identity o')) = false /\
  (forall R, op_sub fuel curves (OPoint o P) (OPoint o' Q) <> Ok R).
Proof. exact c93_refuted. Qed.
Print Assumptions C93_refuted.

Example C93_example : let curves := fun _ : Z => Curve 23 1 1 7 in
  op_add 50 curves (OPoint 0 (Aff 3 10)) (OPoint 0 (Aff 9 7)) = Ok (OPoint 0 (Aff 17 20)) /\ op_add 50 curves (OPoint 0 (Aff 3 10)) (OPoint 1 (Aff 9 7)) = Raise AssertionError.
Proof. split; reflexivity. Qed.
