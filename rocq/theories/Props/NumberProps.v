(** GF(p) arithmetic and elementary number theory (C38-C43). *)
From Coq Require Import ZArith Znumtheory List Bool Lia.
From Verif Require Import Model.Py Model.NumberTheory Model.GaloisField Spec.NumberSpec Proofs.NTFacts1.
Import ListNotations.
Local Open Scope Z_scope.

(** C38 *)
Theorem C38_arithmetic : forall p a b, 0 < p -> forall o, o = Elt (b mod p) \/ o = Int b ->
  gf p a = Ok (a mod p) /\ 0 <= a mod p < p /\
  e_add p (a mod p) o = Ok ((a + b) mod p) /\ e_radd p (a mod p) o = Ok ((b + a) mod p) /\
  e_sub p (a mod p) o = Ok ((a - b) mod p) /\ e_rsub p (a mod p) o = Ok ((b - a) mod p) /\
  e_mul p (a mod p) o = Ok ((a * b) mod p) /\ e_rmul p (a mod p) o = Ok ((b * a) mod p) /\
  e_neg p (a mod p) = Ok ((- a) mod p).
Proof. exact c38_arithmetic. Qed.
Print Assumptions C38_arithmetic.

Example C38_example : e_add 7 ((-3) mod 7) (Int 12) = Ok 2 /\ e_rsub 7 ((-3) mod 7) (Int (-12)) = Ok 5 /\
  e_mul 7 (10 mod 7) (Elt (12 mod 7)) = Ok 1 /\ (10 * 12) mod 7 = 1.
Proof. vm_compute. auto. Qed.
Theorem C38_power : forall p a e, 0 < p -> 0 <= e ->
  e_xor p (a mod p) (Int e) = Ok (a ^ e mod p) /\ e_rxor p (e mod p) (Int a) = Ok (a ^ (e mod p) mod p).
Proof. exact c38_power. Qed.
Print Assumptions C38_power.

Example C38_power_example : e_xor 7 (10 mod 7) (Int 100) = Ok 4 /\ e_rxor 7 (9 mod 7) (Int (-3)) = Ok 2.
Proof. vm_compute. auto. Qed.
Theorem C38_equality : forall p a b, 0 < p -> (e_eq (a mod p) (Elt (b mod p)) = true <-> a mod p = b mod p).
Proof. exact c38_equality. Qed.
Print Assumptions C38_equality.

Example C38_equality_example : e_eq (10 mod 7) (Elt ((-4) mod 7)) = true.
Proof. reflexivity. Qed.
Theorem C38_int_equality_refuted : exists p a b, prime p /\ a mod p = b mod p /\ e_eq (a mod p) (Int b) = false.
Proof. exact c38_int_equality_refuted. Qed.
Print Assumptions C38_int_equality_refuted.

Theorem C38_is_element_raises : forall x, gf_is_element x = Raise NameError.
Proof. exact c38_is_element_raises. Qed.
Print Assumptions C38_is_element_raises.


(** C39 *)
Theorem C39_division : forall p a o, prime p -> 0 <= to_int o -> to_int o mod p <> 0 ->
  exists fuel0, forall fuel, (fuel0 <= fuel)%nat ->
  exists q, e_div fuel p (a mod p) o = Ok q /\ 0 <= q < p /\ e_mul p q o = Ok (a mod p).
Proof. exact c39_division. Qed.
Print Assumptions C39_division.

Example C39_division_example : e_div 20 23 5 (Int 100) = Ok 15 /\ e_mul 23 15 (Int 100) = Ok 5 /\
  e_div 20 23 10 (Elt 8) = Ok 7 /\ e_mul 23 7 (Elt 8) = Ok 10.
Proof. vm_compute. auto. Qed.
Theorem C39_int_divided_by_element : forall p a b, prime p -> b mod p <> 0 ->
  exists fuel0, forall fuel, (fuel0 <= fuel)%nat -> exists q, e_rdiv fuel p (b mod p) (Int a) = Ok q /\ 0 <= q < p /\ e_mul p q (Elt (b mod p)) = Ok (a mod p).
Proof. exact c39_int_divided_by_element. Qed.
Print Assumptions C39_int_divided_by_element.

Example C39_rdiv_example : e_rdiv 20 23 (100 mod 23) (Int (-5)) = Ok 8 /\ e_mul 23 8 (Elt 8) = Ok ((-5) mod 23).
Proof. vm_compute. auto. Qed.
Theorem C39_zero_raises : forall p a o, prime p -> to_int o mod p = 0 ->
  exists fuel0, forall fuel, (fuel0 <= fuel)%nat -> e_div fuel p (a mod p) o = Raise GenericException.
Proof. exact c39_zero_raises. Qed.
Print Assumptions C39_zero_raises.

Example C39_zero_example : e_div 20 23 5 (Int 46) = Raise GenericException.
Proof. reflexivity. Qed.
Theorem C39_negative_refuted : forall p a b, prime p -> b < 0 ->
  exists fuel0, forall fuel, (fuel0 <= fuel)%nat -> e_div fuel p (a mod p) (Int b) = Raise GenericException.
Proof. exact c39_negative_refuted. Qed.
Print Assumptions C39_negative_refuted.

Example C39_negative_example : e_div 20 23 5 (Int (-1)) = Raise GenericException.
Proof. reflexivity. Qed.

(** C40 *)
Theorem C40_inverse : forall a m, 2 <= m -> exists fuel0, forall fuel, (fuel0 <= fuel)%nat ->
  (Z.gcd a m = 1 -> exists x, NumberTheory.inverse_mod fuel a m = Ok x /\ 1 <= x <= m - 1 /\ (a * x) mod m = 1 /\
     forall y, 1 <= y <= m - 1 -> (a * y) mod m = 1 -> y = x) /\
  (Z.gcd a m <> 1 -> NumberTheory.inverse_mod fuel a m = Raise AssertionError).
Proof. exact c40_inverse. Qed.
Print Assumptions C40_inverse.


Example C40_example : NumberTheory.inverse_mod 50 (-17) 3120 = Ok 367 /\ (-17 * 367) mod 3120 = 1 /\
  NumberTheory.inverse_mod 50 (-18) 3120 = Raise AssertionError.
Proof. vm_compute. auto. Qed.

(** C41 *)
Theorem C41_gcd2 : forall a b, exists fuel0, forall fuel, (fuel0 <= fuel)%nat ->
  exists g, gcd2 fuel a b = Ok g /\ (g = Z.gcd a b \/ g = - Z.gcd a b) /\ (0 <= a -> 0 <= b -> g = Z.gcd a b).
Proof. exact c41_gcd2. Qed.
Print Assumptions C41_gcd2.

Example C41_gcd2_example : gcd2 20 12 (-18) = Ok 6 /\ gcd2 20 (-12) 18 = Ok (-6) /\ Z.gcd 12 (-18) = 6.
Proof. vm_compute. auto. Qed.
Theorem C41_gcd : forall l, l <> [] -> Forall (fun y => 0 <= y) l ->
  exists fuel0 g, (forall fuel, (fuel0 <= fuel)%nat -> gcd fuel l = Ok g /\ gcd_list fuel l = Ok g) /\
    0 <= g /\ forall d, (d | g) <-> Forall (fun y => (d | y)) l.
Proof. exact c41_gcd. Qed.
Print Assumptions C41_gcd.

Example C41_gcd_example : gcd 20 [84; 0; 126; 70] = Ok 14.
Proof. reflexivity. Qed.
Theorem C41_lcm : forall l, l <> [] -> Forall (fun y => 0 < y) l ->
  exists fuel0 g, (forall fuel, (fuel0 <= fuel)%nat -> lcm fuel l = Ok g /\ lcm_list fuel l = Ok g) /\
    0 < g /\ forall m, (g | m) <-> Forall (fun y => (y | m)) l.
Proof. exact c41_lcm. Qed.
Print Assumptions C41_lcm.

Example C41_lcm_example : lcm 20 [12; 18; 5; 4] = Ok 180.
Proof. reflexivity. Qed.
Theorem C41_lcm_zeros_refuted : exists l, l <> [] /\ Forall (fun y => 0 <= y) l /\
  forall fuel, lcm fuel l = Raise ZeroDivisionError.
Proof. exact c41_lcm_zeros_refuted. Qed.
Print Assumptions C41_lcm_zeros_refuted.


(** C42 *)
Theorem C42_modular_exp : forall b e m, 0 <= e -> 0 < m -> modular_exp b e m = Ok (b ^ e mod m).
Proof. exact c42_modular_exp. Qed.
Print Assumptions C42_modular_exp.

Theorem C42_negative : forall b e m, e < 0 -> modular_exp b e m = Raise NegativeExponentError.
Proof. exact c42_negative. Qed.
Print Assumptions C42_negative.


Example C42_example : modular_exp (-7) 560 561 = Ok 1 /\ modular_exp 2 (-1) 7 = Raise NegativeExponentError.
Proof. vm_compute. auto. Qed.

(** C43 *)
Theorem C43_multiply : forall m1 m2 f p, p <> 0 -> (2 <= length f)%nat -> nth (length f - 1) f 0 = 1 ->
  exists r, polynomial_multiply_mod m1 m2 f p = Ok r /\ (length r < length f)%nat /\
    poly_congruent f p r (fun x => peval m1 x * peval m2 x).
Proof. exact c43_multiply. Qed.
Print Assumptions C43_multiply.

Example C43_multiply_example : polynomial_multiply_mod [1; 2; 3] [4; 5] [6; 0; 2; 1] 7 = Ok [5; 6; 6] /\
  nth 3 [6; 0; 2; 1] 0 = 1 /\
  poly_congruent [6; 0; 2; 1] 7 [5; 6; 6] (fun x => peval [1; 2; 3] x * peval [4; 5] x).
Proof. split; [reflexivity|]. split; [reflexivity|]. exists [-15], [13; -1; 2]. intros x. cbn [peval]. ring. Qed.
Theorem C43_power : forall base e f p, 0 <= e < p -> (2 <= length f)%nat -> nth (length f - 1) f 0 = 1 ->
  exists fuel0, forall fuel, (fuel0 <= fuel)%nat ->
  exists r, polynomial_exp_mod fuel base e f p = Ok r /\ ((length base < length f)%nat \/ e <> 1 -> (length r < length f)%nat) /\
    poly_congruent f p r (fun x => peval base x ^ e).
Proof. exact c43_power. Qed.
Print Assumptions C43_power.

Example C43_power_example : polynomial_exp_mod 10 [1; 1] 3 [6; 0; 1] 7 = Ok [4; 4].
Proof. reflexivity. Qed.
Theorem C43_unreduced_base_refuted : exists base f p, (2 <= length f)%nat /\ nth (length f - 1) f 0 = 1 /\ 1 < p /\
  forall fuel, polynomial_exp_mod fuel base 1 f p = Ok base /\ (length f <= length base)%nat.
Proof. exact c43_unreduced_base_refuted. Qed.
Print Assumptions C43_unreduced_base_refuted.

Theorem C43_bad_modulus : forall m1 m2 f p, p <> 0 -> f <> [] -> (nth (length f - 1) f 0 <> 1 \/ length f = 1%nat) ->
  polynomial_multiply_mod m1 m2 f p = Raise AssertionError.
Proof. exact c43_bad_modulus. Qed.
Print Assumptions C43_bad_modulus.

Example C43_bad_modulus_example : polynomial_multiply_mod [1; 2] [3; 4] [1; 1; 2] 7 = Raise AssertionError /\
  polynomial_multiply_mod [1; 2] [3; 4] [1] 7 = Raise AssertionError.
Proof. split; reflexivity. Qed.
