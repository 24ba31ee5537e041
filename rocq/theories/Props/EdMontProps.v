(** C87-C88: addition on Montgomery and twisted Edwards curves. *)
From Coq Require Import ZArith Znumtheory Lia.
From Verif Require Import Model.Py Model.NumberTheory Model.Ecc Spec.CurveSpec Spec.MontgomerySpec Spec.EdwardsSpec Proofs.MontAdd Proofs.EdwardsFacts.
Local Open Scope Z_scope.

(** C87 *)
Theorem C87_point : forall p a x y, 0 < p -> mg_point p a x y = if (y ^ 2 - (x ^ 3 + a * x ^ 2 + x)) mod p =? 0 then Ok (x, y) else Raise AssertionError.
Proof. exact c87_point. Qed.
Print Assumptions C87_point.

Theorem C87_add : forall p a identity x1 y1 x2 y2, prime p -> 3 < p -> mg_point p a x1 y1 = Ok (x1, y1) -> mg_point p a x2 y2 = Ok (x2, y2) -> (x1, y1) <> identity -> (x2, y2) <> identity ->
  exists fuel0, forall fuel, (fuel0 <= fuel)%nat ->
  ((x2 - x1) mod p <> 0 -> exists x3 y3, mg_add fuel p a identity (x1, y1) (x2, y2) = Ok (x3, y3) /\ on_mg p a 1 (Some (x3, y3)) /\
     mg_sum p a 1 (Some (x1 mod p, y1 mod p)) (Some (x2 mod p, y2 mod p)) (Some (x3, y3))) /\
  (x1 <> x2 -> (x2 - x1) mod p = 0 -> mg_add fuel p a identity (x1, y1) (x2, y2) = Raise AssertionError) /\
  (x1 = x2 -> y1 <> y2 -> y1 + y2 <> 0 -> mg_add fuel p a identity (x1, y1) (x2, y2) = Raise AssertionError) /\
  (x1 = x2 -> y1 = y2 -> mg_add fuel p a identity (x1, y1) (x2, y2) = mg_double fuel p a (x1, y1)).
Proof. exact c87_add. Qed.
Print Assumptions C87_add.

Theorem C87_double : forall p a x y, prime p -> 3 < p -> mg_point p a x y = Ok (x, y) -> exists fuel0, forall fuel, (fuel0 <= fuel)%nat ->
  (y mod p <> 0 -> exists x3 y3, mg_double fuel p a (x, y) = Ok (x3, y3) /\ on_mg p a 1 (Some (x3, y3)) /\
     mg_sum p a 1 (Some (x mod p, y mod p)) (Some (x mod p, y mod p)) (Some (x3, y3))) /\
  (y mod p = 0 -> mg_double fuel p a (x, y) = Raise AssertionError).
Proof. exact c87_double. Qed.
Print Assumptions C87_double.

Theorem C87_identity : forall fuel p a identity P, mg_add fuel p a identity P identity = Ok P /\ mg_add fuel p a identity identity P = Ok P.
Proof. exact c87_identity. Qed.
Print Assumptions C87_identity.

(** y^2 = x^3 + 3 x^2 + x modulo 23; the coordinates need not be reduced *)
Example C87_add_example : mg_point 23 3 4 1 = Ok (4, 1) /\ mg_point 23 3 16 21 = Ok (16, 21) /\ mg_add 100 23 3 (0, -1) (4, 1) (4, 1) = Ok (16, 21) /\
  mg_add 100 23 3 (0, -1) (4, 1) (16 + 23, 21) = mg_add 100 23 3 (0, -1) (4, 1) (16, 21) /\ mg_add 100 23 3 (0, -1) (4, 1) (4 + 23, 1) = Raise AssertionError /\
  mg_add 100 23 3 (0, -1) (4, 1) (4, 22) = Raise AssertionError /\ mg_add 100 23 3 (0, -1) (0, 0) (0, 0) = Raise AssertionError.
Proof. vm_compute. repeat split. Qed.

Theorem C87_scalar : forall p a identity P k, prime p -> 3 < p -> (a * a - 4) mod p <> 0 -> ~ on_mg p a 1 (Some identity) -> on_mg p a 1 (Some P) -> 0 < k ->
  exists fuel0 depth0, forall fuel depth, (fuel0 <= fuel)%nat -> (depth0 <= depth)%nat ->
  (exists Q, mg_scalar_multiple fuel p a depth identity P k = Ok Q /\ on_mg p a 1 (Some Q) /\ mg_multiple p a 1 (Some P) (Z.to_nat k) (Some Q)) \/
  (mg_scalar_multiple fuel p a depth identity P k = Raise AssertionError /\ exists j, 1 <= j <= k /\ mg_multiple p a 1 (Some P) (Z.to_nat j) None).
Proof. exact c87_scalar. Qed.
Print Assumptions C87_scalar.

Theorem C87_order_refuted : forall p a identity P n, prime p -> 3 < p -> (a * a - 4) mod p <> 0 -> ~ on_mg p a 1 (Some identity) -> on_mg p a 1 (Some P) -> 0 < n -> mg_multiple p a 1 (Some P) (Z.to_nat n) None ->
  exists fuel0 depth0, forall fuel depth, (fuel0 <= fuel)%nat -> (depth0 <= depth)%nat -> mg_scalar_multiple fuel p a depth identity P n = Raise AssertionError.
Proof. exact c87_order_refuted. Qed.
Print Assumptions C87_order_refuted.

(** the recursion does not end *)
Theorem C87_negative_refuted : forall fuel p a identity P k depth, k < 0 -> mg_scalar_multiple fuel p a depth identity P k = Raise OutOfFuel.
Proof. exact c87_negative_refuted. Qed.
Print Assumptions C87_negative_refuted.

(** the point (0, 0) has order two *)
Example C87_scalar_example : (3 * 3 - 4) mod 23 <> 0 /\ ~ on_mg 23 3 1 (Some (0, -1)) /\ on_mg 23 3 1 (Some (4, 1)) /\ on_mg 23 3 1 (Some (0, 0)) /\ mg_multiple 23 3 1 (Some (0, 0)) 2 None /\
  mg_scalar_multiple 100 23 3 100 (0, -1) (4, 1) 2 = Ok (16, 21) /\ mg_scalar_multiple 100 23 3 100 (0, -1) (0, 0) 1 = Ok (0, 0) /\ mg_scalar_multiple 100 23 3 100 (0, -1) (0, 0) 2 = Raise AssertionError.
Proof.
  split; [vm_compute; discriminate|]. split; [intros (_ & H & _); lia|]. split; [repeat split; reflexivity || lia|]. split; [repeat split; reflexivity || lia|].
  split; [|vm_compute; auto]. apply mgm_S with (Some (0, 0)); [apply mgm_S with None; constructor|]. exact (mgs_opposite 23 3 1 (Some (0, 0))).
Qed.

(** C88 *)
(** the test has y in the place of y^2 *)
Theorem C88_point : forall p a d x y, 0 < p -> te_point p a d x y = if (a * x ^ 2 + y - (1 + d * x ^ 2 * y ^ 2)) mod p =? 0 then Ok (x, y) else Raise AssertionError.
Proof. exact c88_point. Qed.
Print Assumptions C88_point.

(** of the points of the curve only (0, 1) and those with y = 0 are accepted *)
Theorem C88_accepted_refuted : forall p a d x y, prime p -> (a - d) mod p <> 0 -> on_edwards p a d x y ->
  (te_point p a d x y = Ok (x, y) <-> (x mod p = 0 /\ y mod p = 1) \/ (y mod p = 0 /\ (a * x ^ 2) mod p = 1)) /\
  (~ ((x mod p = 0 /\ y mod p = 1) \/ (y mod p = 0 /\ (a * x ^ 2) mod p = 1)) -> te_point p a d x y = Raise AssertionError).
Proof. exact c88_accepted_refuted. Qed.
Print Assumptions C88_accepted_refuted.

(** x^2 + y^2 = 1 + 2 x^2 y^2 modulo 13 *)
Example C88_accepted_example : (1 - 2) mod 13 <> 0 /\ on_edwards 13 1 2 4 4 /\ te_point 13 1 2 4 4 = Raise AssertionError /\ on_edwards 13 1 2 1 0 /\ te_point 13 1 2 1 0 = Ok (1, 0).
Proof. repeat split; discriminate || reflexivity. Qed.

(** the sum is the textbook one, followed by the test *)
Theorem C88_add : forall p a d x1 y1 x2 y2, prime p -> exists fuel0, forall fuel, (fuel0 <= fuel)%nat ->
  (ed_defined p d x1 y1 x2 y2 -> exists x3 y3, ed_sum p a d x1 y1 x2 y2 x3 y3 /\ te_add fuel p a d (x1, y1) (x2, y2) = te_point p a d x3 y3) /\
  (~ ed_defined p d x1 y1 x2 y2 -> te_add fuel p a d (x1, y1) (x2, y2) = Raise AssertionError) /\
  te_double fuel p a d (x1, y1) = te_add fuel p a d (x1, y1) (x1, y1).
Proof. exact c88_add. Qed.
Print Assumptions C88_add.

(** the textbook sum stays on the curve and is unique *)
Theorem C88_sum : forall p a d x1 y1 x2 y2, prime p -> on_edwards p a d x1 y1 -> on_edwards p a d x2 y2 -> ed_defined p d x1 y1 x2 y2 ->
  exists x3 y3, ed_sum p a d x1 y1 x2 y2 x3 y3 /\ on_edwards p a d x3 y3 /\ forall x y, ed_sum p a d x1 y1 x2 y2 x y -> x = x3 /\ y = y3.
Proof. exact c88_sum. Qed.
Print Assumptions C88_sum.

(** a is a square and d is not: every sum is defined *)
Theorem C88_complete : forall p a d s x1 y1 x2 y2, prime p -> 2 < p -> (s ^ 2 - a) mod p = 0 -> (forall r, (r ^ 2 - d) mod p <> 0) -> on_edwards p a d x1 y1 -> on_edwards p a d x2 y2 ->
  ed_defined p d x1 y1 x2 y2.
Proof. exact c88_complete. Qed.
Print Assumptions C88_complete.

Example C88_complete_example : (1 ^ 2 - 1) mod 13 = 0 /\ (forall r, (r ^ 2 - 2) mod 13 <> 0) /\ on_edwards 13 1 2 4 4 /\ on_edwards 13 1 2 9 4.
Proof.
  split; [reflexivity|]. split; [|split; reflexivity]. intros r E. rewrite Zminus_mod, <- (Zmod_mod (r ^ 2)), Z.pow_2_r, Z.mul_mod in E by discriminate.
  assert (R : 0 <= r mod 13 < 13) by (apply Z.mod_pos_bound; lia). revert R E. generalize (r mod 13). clear r. intros r R.
  assert (A : r = 0 \/ r = 1 \/ r = 2 \/ r = 3 \/ r = 4 \/ r = 5 \/ r = 6 \/ r = 7 \/ r = 8 \/ r = 9 \/ r = 10 \/ r = 11 \/ r = 12) by lia.
  repeat destruct A as [->|A]; try discriminate. subst r. discriminate.
Qed.
Example C88_add_example : on_edwards 13 1 2 4 4 /\ on_edwards 13 1 2 1 0 /\ ed_defined 13 2 4 4 1 0 /\ ed_sum 13 1 2 4 4 1 0 4 9 /\ on_edwards 13 1 2 4 9 /\
  te_add 100 13 1 2 (4, 4) (1, 0) = Raise AssertionError /\ te_add 100 13 1 2 (0, 1) (1, 0) = Ok (1, 0).
Proof. repeat split; discriminate || reflexivity || lia. Qed.

(** twice an accepted point with y = 0 is (0, -1), which is not accepted *)
Theorem C88_double_refuted : forall p a d x, prime p -> 2 < p -> (a * x ^ 2) mod p = 1 -> exists fuel0, forall fuel, (fuel0 <= fuel)%nat ->
  te_point p a d x 0 = Ok (x, 0) /\ te_double fuel p a d (x, 0) = Raise AssertionError /\ ed_sum p a d x 0 x 0 0 (p - 1).
Proof. exact c88_double_refuted. Qed.
Print Assumptions C88_double_refuted.

Example C88_double_example : (1 * 1 ^ 2) mod 13 = 1 /\ te_double 100 13 1 2 (1, 0) = Raise AssertionError.
Proof. split; reflexivity. Qed.
