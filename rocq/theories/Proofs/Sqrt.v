(** Legendre symbols and square roots (C47, C48, and C45 without p = 1 mod 8). *)
From Coq Require Import Znumtheory Zpow_facts Setoid Morphisms.
From Verif Require Import Proofs.Tac Model.NumberTheory Spec.NumberSpec Proofs.Legendre Proofs.Jacobi Proofs.Cong.
Local Open Scope Z_scope.

Lemma pow3_ok b e m : 0 < m -> 0 <= e -> py_pow3 b e m = Ok (b ^ e mod m).
Proof.
  intros. unfold py_pow3. replace (m =? 0) with false by lia. replace (e <? 0) with false by lia.
  rewrite Zpow_mod_correct by lia. reflexivity.
Qed.
Lemma modexp_ok b e m : 0 < m -> 0 <= e -> modular_exp b e m = Ok (b ^ e mod m).
Proof. intros. unfold modular_exp. replace (e <? 0) with false by lia. now apply pow3_ok. Qed.

Section P.
Context (p : Z) (Hp : prime p) (Op : p mod 2 = 1).
Lemma p3 : 3 <= p. Proof. assert (H := prime_ge_2 p Hp). assert (p <> 2) by (intros ->; discriminate). lia. Qed.
Local Notation "a == b" := (cong p a b) (at level 70).
Lemma lz_cases a : lz p a = 0 \/ lz p a = 1 \/ lz p a = -1.
Proof. unfold lz. destruct (_ =? _); auto. destruct (_ =? _); auto. Qed.
Lemma lz_zero a : lz p a = 0 -> a mod p = 0.
Proof. unfold lz. destruct (a mod p =? 0) eqn:E; [intros _; now apply Z.eqb_eq|]. destruct (_ ^ _ mod _ =? _); discriminate. Qed.
Lemma half : (p - 1) / 2 = p / 2. Proof. lia. Qed.
Lemma euler_eqm a : a ^ (p / 2) == lz p a.
Proof. split. apply (euler_val Hp Op). Qed.

Lemma legendre_symbol_ok a : legendre_symbol a p = Ok (lz p a).
Proof.
  assert (P := p3). unfold legendre_symbol. rewrite half, pow3_ok by lia. cbn [bind]. f_equal.
  destruct (lz_cases a) as [E|[E|E]]; pose proof (euler_eqm a) as H; rewrite E in H |- *.
  - rewrite (cong_range p _ _ H) by lia. replace (0 =? p - 1) with false by lia. reflexivity.
  - rewrite (cong_range p _ _ H) by lia. replace (1 =? p - 1) with false by lia. reflexivity.
  - assert (H' : a ^ (p / 2) == p - 1). { rewrite H. rewrite <- (cong_period p (-1) 1). apply cong_refl_eq. lia. }
    rewrite (cong_range p _ _ H') by lia. replace (p - 1 =? p - 1) with true by lia. reflexivity.
Qed.

(** p = 3 mod 4 *)
Lemma root_3mod4 a : p mod 4 = 3 -> lz p a = 1 -> a ^ ((p + 1) / 4) * a ^ ((p + 1) / 4) == a.
Proof.
  intros H E. assert (P := p3). rewrite <- Z.pow_add_r by lia. replace ((p + 1) / 4 + (p + 1) / 4) with (1 + p / 2) by lia.
  rewrite Z.pow_add_r, euler_eqm, E, Z.pow_1_r, Z.mul_1_r by lia. reflexivity.
Qed.

(** square roots of 1 *)
Lemma sqrt1 x : x * x == 1 -> x == 1 \/ x == -1.
Proof.
  intros H. assert (P := p3). apply cong_divide in H; [|lia]. replace (x * x - 1) with ((x - 1) * (x + 1)) in H by ring.
  apply prime_mult in H as [D|D]; [left|right|exact Hp]; apply cong_divide; [lia|exact D|lia|]. now replace (x - -1) with (x + 1) by ring.
Qed.
Lemma one_minus : ~ 1 == -1.
Proof. assert (P := p3). rewrite <- (cong_period p (-1) 1). intros H. apply cong_eq in H; lia. Qed.

(** p = 5 mod 8 *)
Lemma root_5mod8 a : p mod 8 = 5 -> lz p a = 1 ->
  (a ^ ((p - 1) / 4) == 1 /\ a ^ ((p + 3) / 8) * a ^ ((p + 3) / 8) == a) \/
  (a ^ ((p - 1) / 4) == -1 /\ (2 * a * (4 * a) ^ ((p - 5) / 8)) * (2 * a * (4 * a) ^ ((p - 5) / 8)) == a).
Proof.
  intros H E. assert (P := p3).
  assert (S : a ^ ((p - 1) / 4) * a ^ ((p - 1) / 4) == 1).
  { rewrite <- Z.pow_add_r by lia. replace ((p - 1) / 4 + (p - 1) / 4) with (p / 2) by lia. now rewrite euler_eqm, E. }
  destruct (sqrt1 _ S) as [D|D]; [left|right]; (split; [exact D|]).
  - rewrite <- Z.pow_add_r by lia. replace ((p + 3) / 8 + (p + 3) / 8) with (1 + (p - 1) / 4) by lia.
    rewrite Z.pow_add_r, D, Z.pow_1_r, Z.mul_1_r by lia. reflexivity.
  - assert (T : 2 ^ (p / 2) == -1). { rewrite euler_eqm, (lz_2 Hp Op), H. reflexivity. }
    replace (2 * a * (4 * a) ^ ((p - 5) / 8) * (2 * a * (4 * a) ^ ((p - 5) / 8)))
      with (a * ((4 * a) ^ 1 * ((4 * a) ^ ((p - 5) / 8) * (4 * a) ^ ((p - 5) / 8)))) by (rewrite Z.pow_1_r; ring).
    rewrite <- !Z.pow_add_r by lia. replace (1 + ((p - 5) / 8 + (p - 5) / 8)) with ((p - 1) / 4) by lia.
    rewrite Z.pow_mul_l, D. change 4 with (2 ^ 2) at 1. rewrite <- Z.pow_mul_r by lia. replace (2 * ((p - 1) / 4)) with (p / 2) by lia.
    rewrite T. replace (a * (-1 * -1)) with a by ring. reflexivity.
Qed.

(** ** Tonelli-Shanks *)
Lemma order_loop_spec k : forall m b, (exists i, (i < k)%nat /\ b ^ (2 ^ Z.of_nat i) mod p = 1) -> 0 <= b < p ->
  exists i, (i < k)%nat /\ order_loop k m b p = m + Z.of_nat i /\ b ^ (2 ^ Z.of_nat i) mod p = 1 /\
    forall j, (j < i)%nat -> b ^ (2 ^ Z.of_nat j) mod p <> 1.
Proof.
  assert (P := p3). induction k as [|k IH]; intros m b (i & Hi & E) Hb; [lia|]. cbn [order_loop].
  destruct (b =? 1) eqn:B.
  - apply Z.eqb_eq in B. subst b. exists 0%nat. split; [lia|]. split; [lia|]. split; [rewrite Z.pow_1_l by (apply Z.pow_nonneg; lia); apply Z.mod_small; lia|]. intros j Hj. lia.
  - apply Z.eqb_neq in B. destruct i as [|i].
    { change (2 ^ Z.of_nat 0) with 1 in E. rewrite Z.pow_1_r, Z.mod_small in E by lia. congruence. }
    assert (Q : forall x, (b ^ 2 mod p) ^ (2 ^ Z.of_nat x) mod p = b ^ (2 ^ Z.of_nat (S x)) mod p).
    { intros x. assert (X : 0 <= 2 ^ Z.of_nat x) by (apply Z.pow_nonneg; lia). rewrite <- Zpower_mod by lia. rewrite <- Z.pow_mul_r by lia.
      rewrite Nat2Z.inj_succ, Z.pow_succ_r by lia. reflexivity. }
    rewrite Zpow_mod_correct by lia.
    destruct (IH (m + 1) (b ^ 2 mod p)) as (i' & A1 & A2 & A3 & A4).
    + exists i. split; [lia|]. now rewrite Q.
    + apply Z.mod_pos_bound. lia.
    + exists (S i'). split; [lia|]. split; [rewrite A2; lia|]. split; [now rewrite <- Q|]. intros [|j] Hj.
      * change (2 ^ Z.of_nat 0) with 1. rewrite Z.pow_1_r, Z.mod_small by lia. exact B.
      * rewrite <- Q. apply A4. lia.
Qed.

Lemma pow2_mul g i j : 0 <= i -> 0 <= j -> (g ^ (2 ^ i)) ^ (2 ^ j) = g ^ (2 ^ (i + j)).
Proof. intros. rewrite <- Z.pow_mul_r, <- Z.pow_add_r by (try apply Z.pow_nonneg; lia). reflexivity. Qed.

Lemma tonelli_spec a : forall r fuel x b g, (r <= fuel)%nat -> (0 < r)%nat ->
  0 <= b < p -> 0 <= x < p -> x * x == a * b -> g ^ (2 ^ (Z.of_nat r - 1)) == -1 -> b ^ (2 ^ (Z.of_nat r - 1)) == 1 ->
  exists y, tonelli fuel x b g (Z.of_nat r) p = Ok y /\ 0 <= y < p /\ y * y == a.
Proof.
  assert (P := p3). intros r. induction r as [r IH] using (well_founded_induction lt_wf).
  intros fuel x b g Hf Hr Hb Hx X G B. destruct fuel as [|f]; [lia|]. cbn [tonelli].
  replace (Z.of_nat r <=? 0) with false by lia. rewrite Nat2Z.id.
  destruct (order_loop_spec r 0 b) as (i & Hi & E1 & E2 & E3); [|exact Hb|].
  { exists (r - 1)%nat. split; [lia|]. replace (Z.of_nat (r - 1)) with (Z.of_nat r - 1) by lia. rewrite (cong_range p _ _ B) by lia. reflexivity. }
  rewrite E1, Z.add_0_l. destruct (Z.of_nat i =? 0) eqn:I0.
  - apply Z.eqb_eq in I0. assert (i = 0%nat) by lia. subst i. change (2 ^ Z.of_nat 0) with 1 in E2.
    rewrite Z.pow_1_r in E2. exists x. split; [reflexivity|]. split; [exact Hx|]. rewrite X. assert (b == 1) as -> by (split; rewrite E2, Z.mod_small; lia).
    rewrite Z.mul_1_r. reflexivity.
  - apply Z.eqb_neq in I0. rewrite Zpow_mod_correct by lia.
    assert (KE : exists k i1, Z.of_nat r - Z.of_nat i - 1 = k /\ Z.of_nat i - 1 = i1 /\ Z.of_nat i = Z.succ i1 /\ Z.of_nat (i - 1) = i1 /\
      0 <= k /\ 0 <= k + 1 /\ 0 <= i1 /\ k + 1 + i1 = Z.of_nat r - 1).
    { exists (Z.of_nat r - Z.of_nat i - 1), (Z.of_nat i - 1). clear - Hi I0. lia. }
    destruct KE as (k & i1 & -> & KI & KS & KN & K & K1 & I1 & KR).
    assert (I3 : (i < r)%nat /\ (i <= f)%nat /\ (0 < i)%nat) by (clear - Hi I0 Hf; lia). destruct I3 as (I3 & I4 & I5).
    assert (G2 : g ^ (2 ^ k) mod p * (g ^ (2 ^ k) mod p) == g ^ (2 ^ (k + 1))).
    { rewrite !cong_mod. apply cong_refl_eq. rewrite (Z.pow_add_r 2 k 1) by (assumption || discriminate). change (2 ^ 1) with 2.
      rewrite (Z.pow_mul_r g) by (try apply Z.pow_nonneg; discriminate). now rewrite Z.pow_2_r. }
    apply (IH i); [assumption..|apply Z.mod_pos_bound; clear - P; lia|apply Z.mod_pos_bound; clear - P; lia| | |]; rewrite ?KI.
    + cmod. transitivity (x * x * (g ^ 2 ^ k * (g ^ 2 ^ k))); [apply cong_refl_eq; ring|].
      rewrite X. apply cong_refl_eq. ring.
    + rewrite cong_mod, G2, pow2_mul, KR by assumption. exact G.
    + rewrite cong_mod, Z.pow_mul_l, cong_mod, G2, pow2_mul, KR by assumption.
      rewrite G. assert (S : b ^ (2 ^ i1) * b ^ (2 ^ i1) == 1).
      { rewrite <- Z.pow_add_r by (apply Z.pow_nonneg; discriminate). replace (2 ^ i1 + 2 ^ i1) with (2 ^ Z.of_nat i).
        - split. rewrite E2, Z.mod_small; [reflexivity|clear - P; lia].
        - rewrite KS, Z.pow_succ_r by assumption. ring. }
      destruct (sqrt1 _ S) as [D|D]; [|rewrite D; reflexivity]. exfalso. apply (E3 (i - 1)%nat); [clear - I5; lia|].
      rewrite KN. rewrite (cong_range p _ _ D); [reflexivity|clear - P; lia].
Qed.

(** a non-residue is found *)
Lemma find_spec : forall k n fuel, (k < fuel)%nat -> (exists i, (i <= k)%nat /\ lz p (n + Z.of_nat i) = -1) ->
  exists m, find_nonresidue fuel n p = Ok m /\ lz p m = -1.
Proof.
  induction k as [|k IH]; intros n fuel Hf (i & Hi & E); (destruct fuel as [|f]; [lia|]); cbn [find_nonresidue];
    rewrite legendre_symbol_ok; cbn [bind].
  - assert (i = 0%nat) by lia. subst i. rewrite Z.add_0_r in E. rewrite E. exists n. auto.
  - destruct (lz p n =? -1) eqn:L; cbn [negb]; [exists n; split; [reflexivity|lia]|].
    apply (IH (n + 1)); [lia|]. destruct i as [|i]; [rewrite Z.add_0_r in E; lia|]. exists i. split; [lia|].
    rewrite <- E. f_equal. lia.
Qed.
(** some number is not a square *)
Lemma nonresidue_exists : exists n, 2 <= n < p /\ lz p n = -1.
Proof.
  assert (P := p3). destruct (lz_nonres Hp Op) as (n & Hn & E). exists n. split; [|exact E].
  assert (n <> 0) by (intros ->; rewrite lz_0 in E; [discriminate|apply Z.mod_0_l; lia]).
  assert (n <> 1) by (intros ->; rewrite (lz_1 Hp) in E; discriminate). lia.
Qed.
End P.
