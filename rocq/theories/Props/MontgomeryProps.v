(** Edwards and Montgomery curves: C68-C70. *)
From Coq Require Import ZArith Znumtheory List Bool Lia.
From Verif Require Import Model.Py Model.NumberTheory Model.Ecc Spec.CurveSpec Spec.MontgomerySpec Proofs.NTBasic Proofs.CurveFacts Proofs.MontFacts.
Import ListNotations.
Local Open Scope Z_scope.

(** C68 *)
Theorem C68_refuted : forall p a d, 2 < p -> exists fuel0, forall fuel, (fuel0 <= fuel)%nat -> te_init fuel p a d = Raise AssertionError.
Proof. exact c68_refuted. Qed.
Print Assumptions C68_refuted.

Theorem C68_equation_refuted : forall p a d, 2 < p -> (a * 0 ^ 2 + (-1) ^ 2 - (1 + d * 0 ^ 2 * (-1) ^ 2)) mod p = 0 /\ te_point p a d 0 (-1) = Raise AssertionError.
Proof. exact c68_equation_refuted. Qed.
Print Assumptions C68_equation_refuted.

Theorem C68_scalar_refuted : forall identity P k, k <> 0 -> te_scalar_multiple identity P k = Raise AttributeError.
Proof. exact c68_scalar_refuted. Qed.
Print Assumptions C68_scalar_refuted.


(** Ed25519's parameters *)
Example C68_example : te_init 40 (2 ^ 255 - 19) (-1) 5 = Raise AssertionError /\ te_point 23 (-1) 5 0 1 = Ok (0, 1).
Proof. split; vm_compute; reflexivity. Qed.

(** C69 *)
Theorem C69_refuted : forall p a, 1 < p -> exists fuel0, forall fuel, (fuel0 <= fuel)%nat -> mg_init fuel p a = Raise AssertionError.
Proof. exact c69_refuted. Qed.
Print Assumptions C69_refuted.

Theorem C69_methods_refuted : forall P k x, mg_negate P = Raise NameError /\ montgomery_ladder2 k x = Raise NameError.
Proof. exact c69_methods_refuted. Qed.
Print Assumptions C69_methods_refuted.

Theorem C69_opposite_refuted : forall fuel p a x y, x <> 0 -> y <> 0 -> mg_add fuel p a (0, -1) (x, y) (x, - y) = Ok (x, y).
Proof. exact c69_opposite_refuted. Qed.
Print Assumptions C69_opposite_refuted.


Example C69_example : mg_init 40 (2 ^ 255 - 19) 486662 = Raise AssertionError /\ mg_point 23 3 4 1 = Ok (4, 1) /\ mg_add 50 23 3 (0, -1) (4, 1) (4, -1) = Ok (4, 1).
Proof. repeat split; vm_compute; reflexivity. Qed.

(** C70 *)
Theorem C70_cswap : forall x y, cswap x y 0 = (x, y) /\ cswap x y 1 = (y, x).
Proof. exact c70_cswap. Qed.
Print Assumptions C70_cswap.

Theorem C70_ladder : forall p a B x y k, prime p -> 3 < p -> (a * a - 4) mod p <> 0 -> B mod p <> 0 -> on_mg p a B (Some (x mod p, y)) ->
  exists R, mg_multiple p a B (Some (x mod p, y)) (Z.to_nat (k mod 2 ^ 255)) R /\ on_mg p a B R /\
    (forall R', mg_multiple p a B (Some (x mod p, y)) (Z.to_nat (k mod 2 ^ 255)) R' -> R' = R) /\ montgomery_ladder p a k x = x_coord R.
Proof. exact c70_ladder. Qed.
Print Assumptions C70_ladder.

(** 2 (4, 1) = (16, 21) on y^2 = x^3 + 3 x^2 + x modulo 23 *)
Example C70_ladder_example : montgomery_ladder 23 3 2 4 = 16 /\ montgomery_ladder 23 3 (2 + 2 ^ 255) 27 = 16.
Proof.
  assert (O : on_mg 23 3 1 (Some (4, 1))) by (repeat split; reflexivity || lia).
  assert (S1 : mg_multiple 23 3 1 (Some (4, 1)) 2 (Some (16, 21))).
  { apply mgm_S with (Some (4, 1)); [apply mgm_S with None; constructor|]. apply mgs_tangent with (l := 2); [lia|reflexivity|]. repeat split; reflexivity || lia. }
  assert (K : forall k x, k mod 2 ^ 255 = 2 -> x mod 23 = 4 -> montgomery_ladder 23 3 k x = 16).
  { intros k x E X. destruct (c70_ladder 23 3 1 x 1 k p23) as (R & _ & _ & U & E').
    - lia.
    - vm_compute. discriminate.
    - vm_compute. discriminate.
    - rewrite X. exact O.
    - rewrite E, X in U. rewrite E'. rewrite <- (U _ S1). reflexivity. }
  split; apply K; vm_compute; reflexivity.
Qed.
Theorem C70_every_x : forall p a x, prime p -> exists B y, B mod p <> 0 /\ on_mg p a B (Some (x mod p, y)).
Proof. exact c70_every_x. Qed.
Print Assumptions C70_every_x.

Example C70_twist_example : on_mg 23 3 5 (Some (1, 1)) /\ forall y, 0 <= y < 23 -> ~ on_mg 23 3 1 (Some (1, y)).
Proof.
  split; [repeat split; reflexivity || lia|]. intros y Y (_ & _ & E). assert (A : forallb (fun y => negb ((1 * y * y - (1 * 1 * 1 + 3 * 1 * 1 + 1)) mod 23 =? 0)) (map Z.of_nat (seq 0 23)) = true) by reflexivity.
  rewrite forallb_forall in A. specialize (A y). rewrite E in A. discriminate A. apply in_map_iff. exists (Z.to_nat y). split; [lia|]. apply in_seq. lia.
Qed.
Theorem C70_unreduced : forall a x k n, 0 <= k < 2 ^ 200 -> (n <= 55)%nat ->
  exists z3, fold_left (ladder_step a x k) (firstn n (rev (map Z.of_nat (seq 0 255)))) (1, 0, x, 1) = (1, 0, x ^ 2 ^ Z.of_nat n, z3).
Proof. exact c70_unreduced. Qed.
Print Assumptions C70_unreduced.

(** the integer held after 55 rounds has more than 10^16 binary digits *)
Example C70_unreduced_example : forall a k, 0 <= k < 2 ^ 200 -> exists z3,
  fold_left (ladder_step a 9 k) (firstn 55 (rev (map Z.of_nat (seq 0 255)))) (1, 0, 9, 1) = (1, 0, 9 ^ 36028797018963968, z3).
Proof. intros a k K. exact (c70_unreduced a 9 k 55 K (le_n _)). Qed.
