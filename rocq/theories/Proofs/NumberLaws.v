(** Laws of the Jacobi symbol and of orders modulo n, for the functions of the package (C99) *)
From Coq Require Import Znumtheory ZArith Lia List Bool.
From Verif Require Import Proofs.Tac Proofs.Cong Proofs.Legendre Proofs.Jacobi Proofs.Sqrt Proofs.Carmichael Proofs.Factor Proofs.UnitRoots Proofs.OrderFacts.
From Verif Require Import Model.Py Model.NumberTheory Spec.NumberSpec.
Import ListNotations.
Local Open Scope Z_scope.

Lemma odd_list n : 1 <= n -> n mod 2 = 1 -> exists ps, Forall odd_prime ps /\ product ps = n.
Proof. intros N O. destruct (factors n N) as (ps & F & P). exists ps. split; [|exact P]. apply odd_factors; [exact F|now rewrite P]. Qed.
Lemma product_app l l' : product (l ++ l') = product l * product l'.
Proof. induction l as [|x l IH]; [cbn [app]; change (product []) with 1; ring|]. cbn [app]. rewrite !product_cons, IH. ring. Qed.
Lemma jz_app l l' a : jz (l ++ l') a = jz l a * jz l' a.
Proof. unfold jz. now rewrite map_app, product_app. Qed.
Lemma jz_cases ps a : jz ps a = 0 \/ jz ps a = 1 \/ jz ps a = -1.
Proof. induction ps as [|p ps IH]; [auto|]. rewrite jz_cons. destruct (lz_cases p a) as [->|[->| ->]], IH as [->|[->| ->]]; auto. Qed.
Lemma jz_zero ps a : Forall odd_prime ps -> (jz ps a = 0 <-> Z.gcd a (product ps) <> 1).
Proof.
  induction 1 as [|p ps [Hp Op] F IH]; [cbn; rewrite Z.gcd_1_r; lia|]. rewrite jz_cons, product_cons. pose proof (prime_ge_2 p Hp).
  rewrite Z.mul_eq_0, IH. clear IH. split.
  - intros [E|E] G; apply Zgcd_1_rel_prime in G.
    + apply lz_zero in E. apply Z.mod_divide in E; [|lia]. destruct G as [_ _ G]. specialize (G p E (Z.divide_factor_l _ _)). apply Z.divide_1_r in G. lia.
    + apply E. apply Zgcd_1_rel_prime. apply rel_prime_sym. apply rel_prime_div with (p * product ps); [now apply rel_prime_sym|apply Z.divide_factor_r].
  - intros N. destruct (Z.eq_dec (lz p a) 0) as [E|E]; [now left|right]. intros G. apply N. apply Zgcd_1_rel_prime. apply rel_prime_mult; [|now apply Zgcd_1_rel_prime].
    apply rel_prime_sym. apply prime_rel_prime; [exact Hp|]. intros D. apply E. apply lz_0. apply Z.mod_divide; [lia|exact D].
Qed.
Lemma jz_neg1 ps : Forall odd_prime ps -> jz ps (-1) = if product ps mod 4 =? 3 then -1 else 1.
Proof.
  induction 1 as [|p ps [Hp Op] F IH]; [reflexivity|]. rewrite jz_cons, product_cons, IH, (lz_neg1 Hp Op), Zmult_mod.
  destruct (mod4 p Op) as [-> | ->], (mod4 _ (product_odd _ F)) as [-> | ->]; reflexivity.
Qed.
Lemma jac a n : 3 <= n -> n mod 2 = 1 -> forall ps, Forall odd_prime ps -> product ps = n -> forall fuel, (Z.to_nat n <= fuel)%nat -> jacobi fuel a n = Ok (jz ps a).
Proof. intros N O ps F P fuel L. apply jacobi_spec; auto. lia. Qed.

Lemma c99_multiplicative : forall a b n, 3 <= n -> n mod 2 = 1 -> exists fuel0, forall fuel, (fuel0 <= fuel)%nat ->
  exists s t, jacobi fuel a n = Ok s /\ jacobi fuel b n = Ok t /\ jacobi fuel (a * b) n = Ok (s * t).
Proof.
  intros a b n N O. destruct (odd_list n ltac:(lia) O) as (ps & F & P). exists (Z.to_nat n). intros fuel L. exists (jz ps a), (jz ps b).
  rewrite <- jz_mul by exact F. repeat split; now apply jac.
Qed.
Lemma c99_modulus : forall a m n, 3 <= m -> 3 <= n -> m mod 2 = 1 -> n mod 2 = 1 -> exists fuel0, forall fuel, (fuel0 <= fuel)%nat ->
  exists s t, jacobi fuel a m = Ok s /\ jacobi fuel a n = Ok t /\ jacobi fuel a (m * n) = Ok (s * t).
Proof.
  intros a m n M N O O'. destruct (odd_list m ltac:(lia) O) as (ps & F & P). destruct (odd_list n ltac:(lia) O') as (qs & F' & P').
  exists (Z.to_nat (m * n)). intros fuel L. exists (jz ps a), (jz qs a). rewrite <- jz_app. split; [apply jac; auto; nia|]. split; [apply jac; auto; nia|].
  apply jac; [nia|now apply mul_odd| |now rewrite product_app, P, P'|exact L]. now apply Forall_app.
Qed.
Lemma c99_periodic : forall a b n, 3 <= n -> n mod 2 = 1 -> (n | a - b) -> exists fuel0, forall fuel, (fuel0 <= fuel)%nat -> jacobi fuel a n = jacobi fuel b n.
Proof.
  intros a b n N O D. destruct (odd_list n ltac:(lia) O) as (ps & F & P). exists (Z.to_nat n). intros fuel L.
  rewrite (jac a n N O ps F P fuel L), (jac b n N O ps F P fuel L). f_equal. apply jz_mod; [exact F|now rewrite P].
Qed.
Lemma c99_coprime : forall a n, 3 <= n -> n mod 2 = 1 -> exists fuel0 s, (forall fuel, (fuel0 <= fuel)%nat -> jacobi fuel a n = Ok s) /\
  (s = 0 \/ s = 1 \/ s = -1) /\ (s = 0 <-> Z.gcd a n <> 1).
Proof.
  intros a n N O. destruct (odd_list n ltac:(lia) O) as (ps & F & P). exists (Z.to_nat n), (jz ps a). split; [intros; now apply jac|].
  split; [apply jz_cases|]. rewrite <- P. now apply jz_zero.
Qed.
Lemma c99_reciprocity : forall m n, 3 <= m -> 3 <= n -> m mod 2 = 1 -> n mod 2 = 1 -> exists fuel0, forall fuel, (fuel0 <= fuel)%nat ->
  exists s, jacobi fuel n m = Ok s /\ jacobi fuel m n = Ok (if (m mod 4 =? 3) && (n mod 4 =? 3) then - s else s).
Proof.
  intros m n M N O O'. destruct (odd_list m ltac:(lia) O) as (ps & F & P). destruct (odd_list n ltac:(lia) O') as (qs & F' & P').
  exists (Z.to_nat (m + n)). intros fuel L. exists (jz ps n). split; [apply jac; auto; lia|]. rewrite (jac m n N O' qs F' P' fuel) by lia. f_equal.
  rewrite <- P at 1. rewrite (jz_rec ps qs F F'), P, P'. unfold sg. destruct (_ && _); ring.
Qed.
Lemma c99_supplements : forall n, 3 <= n -> n mod 2 = 1 -> exists fuel0, forall fuel, (fuel0 <= fuel)%nat ->
  jacobi fuel (-1) n = Ok (if n mod 4 =? 3 then -1 else 1) /\ jacobi fuel 2 n = Ok (if (n mod 8 =? 1) || (n mod 8 =? 7) then 1 else -1).
Proof.
  intros n N O. destruct (odd_list n ltac:(lia) O) as (ps & F & P). exists (Z.to_nat n). intros fuel L.
  rewrite (jac _ n N O ps F P fuel L), (jac 2 n N O ps F P fuel L), jz_neg1, jz_2, P by exact F. now split.
Qed.
(** orders *)
Lemma order_divides x m k j : 2 <= m -> is_order x m k -> 0 <= j -> x ^ j mod m = 1 mod m -> (k | j).
Proof.
  intros M (K & E & L) J EJ. apply Z.mod_divide; [lia|]. pose proof (Z.mod_pos_bound j k ltac:(lia)).
  destruct (Z.eq_dec (j mod k) 0) as [|N]; [assumption|]. exfalso. apply (L (j mod k)); [lia|].
  assert (C : cong m (x ^ k) 1) by (split; exact E). assert (CJ : cong m (x ^ j) 1) by (split; exact EJ).
  assert (Q : 0 <= j / k) by (apply Z.div_pos; lia).
  enough (CR : cong m (x ^ (j mod k)) 1) by (destruct CR as [CR]; exact CR).
  rewrite (Z.div_mod j k) in CJ by lia. rewrite Z.pow_add_r, Z.pow_mul_r in CJ by (try apply Z.mul_nonneg_nonneg; lia).
  rewrite C, Z.pow_1_l, Z.mul_1_l in CJ by lia. exact CJ.
Qed.
Lemma orders_from n_bits x m : 2 <= m -> 0 <= x -> Z.gcd x m = 1 -> x = 1 \/ x mod m <> 1 ->
  (exists fuel0, forall fuel, (fuel0 <= fuel)%nat -> phi n_bits fuel m = Ok (totient m)) ->
  (exists fuel0 v, (forall fuel, (fuel0 <= fuel)%nat -> carmichael n_bits fuel m = Ok v) /\ least_exponent m v /\ forall k, 1 <= k -> (is_exponent m k <-> (v | k))) ->
  exists fuel0 k v f, (forall fuel, (fuel0 <= fuel)%nat -> order_mod fuel x m = Ok k /\ carmichael n_bits fuel m = Ok v /\ phi n_bits fuel m = Ok f) /\ (k | v) /\ (v | f).
Proof.
  intros M X G U (f1 & F1) (f2 & v & F2 & (V & EV & _) & W). destruct (c55_order x m M X G U) as (f3 & k & F3 & O).
  exists (f1 + f2 + f3)%nat, k, v, (totient m). split; [intros; split; [apply F3; lia|split; [apply F2; lia|apply F1; lia]]|]. split.
  - apply (order_divides x m k v M O); [lia|]. now apply EV.
  - apply W; [pose proof (totient_pos (n := m) ltac:(lia)); lia|]. intros y Y. destruct (euler_any m y ltac:(lia) Y) as [E]. exact E.
Qed.
Lemma c99_orders : forall n_bits x m, 2 <= m -> is_prime_exact n_bits m -> 0 <= x -> Z.gcd x m = 1 -> x = 1 \/ x mod m <> 1 ->
  exists fuel0 k v f, (forall fuel, (fuel0 <= fuel)%nat -> order_mod fuel x m = Ok k /\ carmichael n_bits fuel m = Ok v /\ phi n_bits fuel m = Ok f) /\ (k | v) /\ (v | f).
Proof. intros n_bits x m M E X G U. apply orders_from; auto; [apply c53_phi; auto; lia|apply c54_carmichael; auto; lia]. Qed.
Lemma c99_orders_small : forall n_bits x m, 2 <= m < 1231 * 1231 -> 0 <= x -> Z.gcd x m = 1 -> x = 1 \/ x mod m <> 1 ->
  exists fuel0 k v f, (forall fuel, (fuel0 <= fuel)%nat -> order_mod fuel x m = Ok k /\ carmichael n_bits fuel m = Ok v /\ phi n_bits fuel m = Ok f) /\ (k | v) /\ (v | f).
Proof. intros n_bits x m M X G U. apply orders_from; auto; [lia|apply c53_small; lia|apply c54_small; lia]. Qed.
