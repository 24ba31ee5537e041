(** order_mod, largest_factor_relatively_prime and kinda_order_mod. *)
From Coq Require Import Znumtheory Zpow_facts Setoid Morphisms.
From Verif Require Import Proofs.Tac Model.NumberTheory Spec.NumberSpec Proofs.Cong Proofs.Sqrt Proofs.NTBasic Proofs.PrimeCert Proofs.Primality Proofs.PrimeFacts Proofs.UnitRoots Proofs.RabinMiller Proofs.Factor Proofs.Carmichael.
Local Open Scope Z_scope.

(** ** C55 *)
(** least exponent at least k *)
Lemma least_from x m k : forall d, 0 <= k -> cong m (x ^ (k + Z.of_nat d)) 1 -> exists j, k <= j <= k + Z.of_nat d /\ cong m (x ^ j) 1 /\ forall i, k <= i < j -> ~ cong m (x ^ i) 1.
Proof.
  intros d. revert k. induction d as [|d IH]; intros k K H.
  - exists k. rewrite Z.add_0_r in H. split; [lia|]. split; [exact H|]. lia.
  - destruct (Z.eq_dec (x ^ k mod m) (1 mod m)) as [E|E].
    + exists k. split; [lia|]. split; [now split|]. lia.
    + destruct (IH (k + 1)) as (j & J & C & L); [lia|replace (k + 1 + Z.of_nat d) with (k + Z.of_nat (Datatypes.S d)) by lia; exact H|].
      exists j. split; [lia|]. split; [exact C|]. intros i I. destruct (Z.eq_dec i k) as [->|]; [intros [X]; auto|]. apply L. lia.
Qed.
Lemma order_loop_run x m j : 2 <= m -> cong m (x ^ j) 1 -> forall d k fuel z, k + Z.of_nat d = j -> 1 <= k -> (z = x ^ k \/ z = x ^ k mod m) ->
  (z = 1 \/ z = x ^ k mod m \/ z mod m <> 1) -> (k = j -> z = 1) -> (forall i, k <= i < j -> ~ (i = k /\ z = 1) /\ (k < i -> ~ cong m (x ^ i) 1)) -> (d <= fuel)%nat ->
  order_mod_loop fuel z x m k = Ok j.
Proof.
  intros M CJ d. induction d as [|d IH]; intros k fuel z EK K HZ _ HJ NL F.
  - assert (k = j) by (clear - EK; lia). subst k. specialize (HJ eq_refl). subst z. destruct fuel; cbn [order_mod_loop]; rewrite Z.eqb_refl; reflexivity.
  - destruct fuel as [|fuel]; [clear - F; lia|]. cbn [order_mod_loop].
    assert (KJ : k <= k < j) by (clear - EK; lia).
    assert (Z1 : z <> 1). { intros E. destruct (NL k KJ) as (A & _). apply A. auto. }
    replace (z =? 1) with false by (symmetry; apply Z.eqb_neq; exact Z1).
    assert (K0 : 0 <= k) by (clear - K; lia). assert (EK' : k + 1 + Z.of_nat d = j) by (clear - EK; lia). assert (F' : (d <= fuel)%nat) by (clear - F; lia). assert (K' : 1 <= k + 1) by (clear - K; lia).
    assert (C : (z * x) mod m = x ^ (k + 1) mod m). { apply uncong. rewrite Z.pow_add_r, Z.pow_1_r by (assumption || discriminate). destruct HZ as [->| ->]; cmod; reflexivity. }
    apply IH; [exact EK'|exact K'|right; exact C|right; left; exact C| | |exact F'].
    + intros EJ. rewrite C, EJ. apply (cong_range m _ 1); [exact CJ|clear - M; lia].
    + intros i I. assert (KI' : k <= i < j) by (clear - I; lia). split.
      * intros (-> & E). rewrite C in E. destruct (NL (k + 1) KI') as (_ & B). apply B; [clear; lia|]. split. rewrite E. symmetry. apply Z.mod_small. clear - M. lia.
      * intros KI. apply (NL i KI'). clear - KI. lia.
Qed.
Lemma order_exists x m : 2 <= m -> 0 <= x -> Z.gcd x m = 1 -> exists k, is_order x m k.
Proof.
  intros M X G. assert (T := totient_pos (n := m) ltac:(lia)).
  destruct (least_from x m 1 (Z.to_nat (totient m - 1))) as (j & J & C & L); [lia| |].
  - replace (1 + Z.of_nat (Z.to_nat (totient m - 1))) with (totient m) by lia. apply euler_any; [lia|exact G].
  - exists j. split; [lia|]. split; [apply uncong; exact C|]. intros i I E. apply (L i I). now split.
Qed.
Lemma order_mod_unfold x m fuel : 2 <= m -> 0 <= x -> Z.gcd x m = 1 -> (steps x <= fuel)%nat -> order_mod fuel x m = order_mod_loop fuel x x m 1.
Proof. intros M X G F. unfold order_mod. replace (m <=? 1) with false by lia. rewrite gcd_two by (auto; lia). cbn [bind]. rewrite G. reflexivity. Qed.
Lemma c55_order : forall x m, 2 <= m -> 0 <= x -> Z.gcd x m = 1 -> (x = 1 \/ x mod m <> 1) ->
  exists fuel0 k, (forall fuel, (fuel0 <= fuel)%nat -> order_mod fuel x m = Ok k) /\ is_order x m k.
Proof.
  intros x m M X G N. destruct (order_exists x m M X G) as (k & K1 & KE & KL). assert (M1 : 1 mod m = 1) by (apply Z.mod_small; lia).
  exists (steps x + Z.to_nat k)%nat, k. split; [|now split]. intros fuel F. rewrite order_mod_unfold; [|exact M|exact X|exact G|clear - F; lia].
  apply (order_loop_run x m k M) with (d := Z.to_nat (k - 1)); [now split|clear - K1; lia|clear; lia|left; now rewrite Z.pow_1_r| | | |clear - F K1; lia].
  - destruct N as [->|N]; [now left|right; right; exact N].
  - intros <-. rewrite Z.pow_1_r in KE. destruct N as [->|N]; [reflexivity|congruence].
  - intros i I. split.
    + intros (-> & ->). specialize (KL 1 ltac:(clear - I; lia)). apply KL. now rewrite Z.pow_1_r.
    + intros L [E]. apply (KL i); [clear - I L; lia|exact E].
Qed.
(** x = 1 modulo m but x <> 1: the code answers 2, the order is 1 *)
Lemma c55_unreduced : forall x m, 2 <= m -> 1 < x -> x mod m = 1 ->
  exists fuel0, forall fuel, (fuel0 <= fuel)%nat -> order_mod fuel x m = Ok 2.
Proof.
  intros x m M X E. assert (G : Z.gcd x m = 1) by (rewrite <- mod_gcd, E by lia; apply Z.gcd_1_l).
  exists (steps x + 2)%nat. intros fuel F. rewrite order_mod_unfold; [|exact M|clear - X; lia|exact G|clear - F; lia]. destruct fuel as [|[|fuel]]; [clear - F; lia|clear - F; lia|]. cbn [order_mod_loop].
  replace (x =? 1) with false by lia. replace ((x * x) mod m) with 1; [reflexivity|]. rewrite Z.mul_mod, E by lia. symmetry. apply Z.mod_small. lia.
Qed.
Lemma c55_order_refuted : exists x m, 2 <= m /\ 0 <= x /\ Z.gcd x m = 1 /\ exists fuel0, forall fuel, (fuel0 <= fuel)%nat ->
  exists k, order_mod fuel x m = Ok k /\ ~ is_order x m k.
Proof.
  exists 8, 7. split; [lia|]. split; [lia|]. split; [reflexivity|]. destruct (c55_unreduced 8 7) as (f & F); [lia|lia|reflexivity|].
  exists f. intros fuel L. exists 2. split; [now apply F|]. intros (_ & _ & H). apply (H 1); [lia|reflexivity].
Qed.
Lemma gcd2_negative f : forall a b g, a < 0 -> gcd2 f a b = Ok g -> g < 0.
Proof.
  induction f as [|f IH]; intros a b g A H; cbn [gcd2] in H; replace (a =? 0) with false in H by lia; [discriminate|].
  assert (B := Z.mod_neg_bound b a A). destruct (Z.eq_dec (b mod a) 0) as [E|E].
  - rewrite E in H. destruct f; cbn in H; injection H as <-; exact A.
  - apply IH in H; [exact H|lia].
Qed.
Lemma c55_refused : forall x m, 2 <= m -> x < 0 \/ Z.gcd x m <> 1 -> exists fuel0, forall fuel, (fuel0 <= fuel)%nat -> order_mod fuel x m = Raise AssertionError.
Proof.
  intros x m M H. exists (steps x). intros fuel F. unfold order_mod. replace (m <=? 1) with false by lia. unfold gcd, py_reduce. cbn [fold_left bind].
  destruct (gcd2_abs x m fuel F) as (g & E & GA & _). rewrite E. cbn [bind]. replace (g =? 1) with false; [reflexivity|]. symmetry. apply Z.eqb_neq. intros ->.
  destruct H as [H|H]; [|rewrite <- GA in H; now apply H]. apply gcd2_negative in E; lia.
Qed.
Lemma c55_trivial_modulus : forall x m fuel, m <= 1 -> order_mod fuel x m = Ok 0.
Proof. intros x m fuel M. unfold order_mod. now replace (m <=? 1) with true by lia. Qed.

(** ** C56 *)
Lemma divide_out_mono f : forall a d x f', divide_out f a d = Ok x -> (f <= f')%nat -> divide_out f' a d = Ok x.
Proof.
  induction f as [|f IH]; intros a d x f' H L; [discriminate|]. destruct f' as [|f']; [lia|]. cbn [divide_out] in *.
  destruct (0 <? a mod d); [exact H|]. eapply IH; [exact H|lia].
Qed.
Lemma largest_mono f : forall a b x f', largest_factor_relatively_prime f a b = Ok x -> (f <= f')%nat -> largest_factor_relatively_prime f' a b = Ok x.
Proof.
  induction f as [|f IH]; intros a b x f' H L; [discriminate|]. destruct f' as [|f']; [lia|]. cbn [largest_factor_relatively_prime] in *.
  destruct (gcd (Datatypes.S f) [a; b]) as [d|] eqn:E; cbn [bind] in H; [|discriminate]. rewrite (gcd_mono _ _ _ _ (Datatypes.S f') E L). cbn [bind].
  destruct (d <=? 1); [exact H|]. destruct (divide_out (Datatypes.S f) a d) as [a'|] eqn:E2; cbn [bind] in H; [|discriminate].
  rewrite (divide_out_mono _ _ _ _ (Datatypes.S f') E2 L). cbn [bind]. eapply IH; [exact H|lia].
Qed.
Lemma divide_out_spec f : forall a d, 1 <= a -> 2 <= d -> (Z.to_nat a <= f)%nat ->
  exists a' k, divide_out f a d = Ok a' /\ 0 <= k /\ a = d ^ k * a' /\ 1 <= a' <= a /\ ~ (d | a').
Proof.
  induction f as [|f IH]; intros a d A D F; [lia|]. cbn [divide_out]. assert (B := Z.mod_pos_bound a d ltac:(lia)). destruct (0 <? a mod d) eqn:R.
  - exists a, 0. split; [reflexivity|]. split; [lia|]. split; [rewrite Z.pow_0_r; ring|]. split; [lia|]. intros X. apply Zdivide_mod in X. lia.
  - assert (E : a = d * (a / d)) by (apply Z_div_exact_full_2; lia). destruct (IH (a / d) d) as (a' & k & E1 & K & P & R1 & ND); [nia|lia|nia|].
    exists a', (k + 1). split; [exact E1|]. split; [lia|]. split; [|split; [nia|exact ND]]. rewrite Z.pow_add_r, Z.pow_1_r by lia. rewrite E at 1. rewrite P at 1. ring.
Qed.
Lemma coprime_pow c d k : Z.gcd c d = 1 -> 0 <= k -> Z.gcd c (d ^ k) = 1.
Proof. intros G K. apply Zgcd_1_rel_prime. apply rel_prime_Zpower_r; [lia|]. now apply Zgcd_1_rel_prime. Qed.
Lemma gcd_1_sub x y b : (x | b) -> Z.gcd y b = 1 -> Z.gcd y x = 1.
Proof.
  intros D G. apply Z.divide_1_r_nonneg; [apply Z.gcd_nonneg|]. rewrite <- G. apply Z.gcd_greatest; [apply Z.gcd_divide_l|]. apply Z.divide_trans with x; [apply Z.gcd_divide_r|exact D].
Qed.
Lemma largest_spec f : forall a b, 1 <= a -> 0 <= b -> (Z.to_nat a + steps a <= f)%nat -> exists r, largest_factor_relatively_prime f a b = Ok r /\ (a <> 1 \/ True) /\ largest_coprime_divisor a b r.
Proof.
  induction f as [|f IH]; intros a b A B F; [lia|]. cbn [largest_factor_relatively_prime]. rewrite gcd_two by (auto; lia). cbn [bind].
  assert (GP : 0 < Z.gcd a b). { assert (X := Z.gcd_nonneg a b). assert (Z.gcd a b <> 0); [|lia]. intros E. apply Z.gcd_eq_0_l in E. lia. }
  destruct (Z.gcd a b <=? 1) eqn:G.
  { exists a. split; [reflexivity|]. split; [auto|]. assert (Z.gcd a b = 1) by lia. repeat split; auto; [lia|reflexivity]. }
  set (d := Z.gcd a b) in *. destruct (divide_out_spec (Datatypes.S f) a d) as (a' & k & -> & K & P & R & ND); [lia|lia|lia|]. cbn [bind].
  assert (DA : (d | a)) by apply Z.gcd_divide_l. assert (DB : (d | b)) by apply Z.gcd_divide_r.
  assert (LT : a' < a). { destruct (Z.eq_dec a' a) as [->|]; [contradiction|lia]. }
  destruct (IH a' d) as (r & E & _ & R0 & RA & RG & RM); [lia|lia|assert (S := steps_le a' a ltac:(lia)); lia|].
  exists r. split; [exact E|]. split; [auto|]. assert (A'A : (a' | a)) by (exists (d ^ k); exact P). split; [exact R0|]. split; [now apply Z.divide_trans with a'|]. split.
  - (* a common divisor of r and b divides a and b, so d *)
    apply Z.divide_1_r_nonneg; [apply Z.gcd_nonneg|]. rewrite <- RG. apply Z.gcd_greatest; [apply Z.gcd_divide_l|].
    apply Z.gcd_greatest; [|apply Z.gcd_divide_r]. apply Z.divide_trans with r; [apply Z.gcd_divide_l|]. now apply Z.divide_trans with a'.
  - intros c C G1. apply RM; [|now apply (gcd_1_sub d c b)]. apply Z.gauss with (d ^ k); [rewrite <- P; exact C|]. apply coprime_pow; [now apply (gcd_1_sub d c b)|exact K].
Qed.
Lemma c56_largest : forall a b, 1 <= a -> 0 <= b -> exists fuel0 r,
  (forall fuel, (fuel0 <= fuel)%nat -> largest_factor_relatively_prime fuel a b = Ok r) /\ largest_coprime_divisor a b r.
Proof.
  intros a b A B. destruct (largest_spec (Z.to_nat a + steps a) a b A B (le_n _)) as (r & E & _ & L). exists (Z.to_nat a + steps a)%nat, r.
  split; [|exact L]. intros fuel F. eapply largest_mono; eauto.
Qed.
(** dividing 0 never leaves a remainder *)
Lemma divide_out_zero f d : d <> 0 -> divide_out f 0 d = Raise OutOfFuel.
Proof. intros D. induction f as [|f IH]; [reflexivity|]. cbn [divide_out]. rewrite Z.mod_0_l, Z.div_0_l by exact D. exact IH. Qed.
Lemma c56_zero_diverges : forall b fuel, 2 <= b -> largest_factor_relatively_prime fuel 0 b = Raise OutOfFuel.
Proof.
  intros b fuel B. destruct fuel as [|f]; [reflexivity|]. cbn [largest_factor_relatively_prime]. cbn [gcd py_reduce fold_left bind gcd2].
  replace (0 =? 0) with true by reflexivity. cbn [bind]. replace (b <=? 1) with false by lia. rewrite divide_out_zero by lia. reflexivity.
Qed.
Lemma c56_zero_refuted : exists a b, 0 <= a /\ 0 <= b /\ forall fuel r, largest_factor_relatively_prime fuel a b <> Ok r.
Proof. exists 0, 2. split; [lia|]. split; [lia|]. intros fuel r. rewrite c56_zero_diverges by lia. discriminate. Qed.
Lemma largest_coprime_unique a b r r' : largest_coprime_divisor a b r -> largest_coprime_divisor a b r' -> r = r'.
Proof. intros (P & D & G & M) (P' & D' & G' & M'). apply Z.divide_antisym_nonneg; [lia|lia|now apply M'|now apply M]. Qed.
Lemma c56_kinda_order : forall x m, 1 <= x -> 2 <= m -> exists fuel0 f k, (forall fuel, (fuel0 <= fuel)%nat -> kinda_order_mod fuel x m = Ok k) /\
  largest_coprime_divisor m x f /\ (f = 1 -> k = 0) /\ (1 < f -> x = 1 \/ x mod f <> 1 -> is_order x f k) /\ (1 < f -> 1 < x -> x mod f = 1 -> k = 2).
Proof.
  intros x m X M. destruct (c56_largest m x) as (f0 & f & E & L); [lia|lia|]. assert (L' := L). destruct L' as (FP & FD & FG & _).
  assert (DEF : exists fuel0 k, (forall fuel, (fuel0 <= fuel)%nat -> order_mod fuel x f = Ok k) /\ (f = 1 -> k = 0) /\ (1 < f -> x = 1 \/ x mod f <> 1 -> is_order x f k) /\ (1 < f -> 1 < x -> x mod f = 1 -> k = 2)).
  { destruct (Z.eq_dec f 1) as [->|F1].
    { exists 0%nat, 0. split; [intros fuel _; now apply c55_trivial_modulus|]. repeat split; lia. }
    rewrite Z.gcd_comm in FG. destruct (Z.eq_dec x 1) as [X1|X1]; [|destruct (Z.eq_dec (x mod f) 1) as [XM|XM]].
    - destruct (c55_order x f) as (f1 & k & E1 & O); [lia|lia|exact FG|now left|]. exists f1, k. split; [exact E1|]. split; [lia|]. split; [auto|lia].
    - destruct (c55_unreduced x f) as (f1 & E1); [lia|lia|exact XM|]. exists f1, 2. split; [exact E1|]. split; [lia|]. split; [intros _ [?|?]; [lia|contradiction]|auto].
    - destruct (c55_order x f) as (f1 & k & E1 & O); [lia|lia|exact FG|now right|]. exists f1, k. split; [exact E1|]. split; [lia|]. split; [auto|]. intros _ _ H. contradiction. }
  destruct DEF as (f1 & k & E1 & D). exists (f0 + f1)%nat, f, k. split; [|split; [exact L|exact D]].
  intros fuel F. unfold kinda_order_mod. rewrite E by lia. cbn [bind]. apply E1. lia.
Qed.
